(** Which settings a history of calls leaves. *)
From Coq Require Import ZArith Bool Arith Reals List.
From Verif Require Import Base Num RealNum VecModel EaModel GradModel SetModel.
Import ListNotations.

(** the last value the calls give to a setting; [d] the value before *)
Fixpoint latest {C A} (value : C -> option A) (d : A) (calls : list C) : A :=
  match calls with [] => d | x :: l => latest value (match value x with Some v => v | None => d end) l end.
Definition below (lb ub : list R) : Prop := length lb = length ub /\ forall i, i < length lb -> (nth i lb 0 < nth i ub 0)%R.

(** the calls an object of dimension [d] accepts *)
Definition ea_accepts (d : nat) (x : ea_setter R) : Prop :=
  match x with
  | EBox _ _ => 0 < d
  | EBounds lb ub => length lb = d /\ below lb ub
  | EBoundsStd lb ub => length lb = d /\ length ub = d
  | EMutation v => (0 < v < 1)%R
  | EMaximum n => 0 < n
  | _ => True
  end.
Definition ea_dimension (x : ea_setter R) := match x with EDimension d => Some d | _ => None end.
Definition ea_size (x : ea_setter R) := match x with ESize n => Some n | _ => None end.
Definition ea_births_per_generation (x : ea_setter R) := match x with ENew n => Some n | _ => None end.
Definition ea_deaths_per_generation (x : ea_setter R) := match x with EDeaths n => Some n | _ => None end.
Definition ea_generations (x : ea_setter R) := match x with EGenerations n => Some n | _ => None end.
Definition ea_maximum (x : ea_setter R) := match x with EMaximum n => if Nat.ltb 0 n then Some n else None | _ => None end.
Definition ea_mutation (x : ea_setter R) := match x with EMutation v => if (Rltb 0 v && Rltb v 1)%bool then Some v else None | _ => None end.
Definition ea_function (x : ea_setter R) := match x with EFunction f => Some f | _ => None end.
(** the bounds a call sets on an object of dimension [d] *)
Definition ea_bounds_set (d : nat) (x : ea_setter R) (b : list R * list R) : Prop :=
  match x with
  | EBox lo up => 0 < d /\ b = (repeat lo d, repeat up d)
  | EBounds lo up | EBoundsStd lo up => ea_accepts d x /\ b = (lo, up)
  | _ => False
  end.

Definition grad_accepts (d : nat) (x : grad_setter R) : Prop :=
  match x with
  | GBounds lb ub => length lb = d /\ below lb ub
  | GInitial x => length x = d
  | GMethod m => m = FdCentral \/ m = FdForward
  | GEpsilon v => (0 < v < / 10)%R
  | _ => True
  end.
Definition grad_dimension (x : grad_setter R) := match x with GDimension d => Some d | _ => None end.
Definition grad_function (x : grad_setter R) := match x with GFunction f => Some (Some f) | _ => None end.
Definition grad_gradient (x : grad_setter R) := match x with GGradient g => Some (Some g) | _ => None end.
Definition grad_step (x : grad_setter R) := match x with GMaxStep v => Some v | _ => None end.
Definition grad_tolerance (x : grad_setter R) := match x with GTolerance v => Some v | _ => None end.
Definition grad_line_search (x : grad_setter R) := match x with GLineSearch z => Some (z mod 2 ^ 32)%Z | _ => None end.
Definition grad_maximum (x : grad_setter R) := match x with GMaximum z => Some (z mod 2 ^ 32)%Z | _ => None end.
Definition grad_method (x : grad_setter R) := match x with GMethod FdCentral => Some FdCentral | GMethod FdForward => Some FdForward | _ => None end.
Definition grad_epsilon (x : grad_setter R) := match x with GEpsilon v => if (Rltb 0 v && Rltb v (/ 10))%bool then Some v else None | _ => None end.
