(** The settings of the evolutionary and of the gradient optimiser as histories of calls: the setters of EAOptimizer,
    GradientOptimizer and their base class GeneralPurposeOptimizer.  A call that throws (or fails an assertion) leaves the object as it
    was. *)
From Coq Require Import ZArith Bool Arith List.
From Verif Require Import Base StM Num VecModel EaModel GradModel.
Import ListNotations.

Section SetModel.
  Context {T : Type} {NT : Num T}.

  (** the public setters of EAOptimizer (ea_optimizer.cpp:20-70, general_purpose_optimizer.cpp:18-80,138-144) *)
  Inductive ea_setter : Type :=
  | EDimension (d : nat) | EBox (lb ub : T) | EBounds (lb ub : vec T) | EBoundsStd (lb ub : list T) | EMutation (v : T)
  | ESize (n : nat) | ENew (n : nat) | EDeaths (n : nat) | EGenerations (n : nat) | EMaximum (n : nat) | EFunction (f : vec T -> Res T).
  (** setBounds(std::vector, std::vector): general_purpose_optimizer.cpp:34-45; the two bounds are not compared *)
  Definition ec_setBoundsStd (c : econf T) (lb ub : list T) : Res (econf T) :=
    if negb (Nat.eqb (length lb) (length ub)) then Throw InvalidArgument
    else if negb (Nat.eqb (length lb) (c_dim c)) then Throw InvalidArgument
    else Ok (mkEC (c_dim c) lb ub true (c_mutp c) (c_size c) (c_new c) (c_deaths c) (c_gens c) (c_max c) (c_f c)).
  Definition ea_set (c : econf T) (x : ea_setter) : Res (econf T) :=
    match x with
    | EDimension d => Ok (mkEC d (c_lo c) (c_up c) (c_bset c) (c_mutp c) (c_size c) (c_new c) (c_deaths c) (c_gens c) (c_max c) (c_f c))
    | EBox lb ub => ec_setBounds1 c lb ub
    | EBounds lb ub => ec_setBounds c lb ub
    | EBoundsStd lb ub => ec_setBoundsStd c lb ub
    | EMutation v => ec_setMutation c v
    | ESize n => Ok (mkEC (c_dim c) (c_lo c) (c_up c) (c_bset c) (c_mutp c) n (c_new c) (c_deaths c) (c_gens c) (c_max c) (c_f c))
    | ENew n => Ok (mkEC (c_dim c) (c_lo c) (c_up c) (c_bset c) (c_mutp c) (c_size c) n (c_deaths c) (c_gens c) (c_max c) (c_f c))
    | EDeaths n => Ok (mkEC (c_dim c) (c_lo c) (c_up c) (c_bset c) (c_mutp c) (c_size c) (c_new c) n (c_gens c) (c_max c) (c_f c))
    | EGenerations n => Ok (mkEC (c_dim c) (c_lo c) (c_up c) (c_bset c) (c_mutp c) (c_size c) (c_new c) (c_deaths c) n (c_max c) (c_f c))
    | EMaximum n => ec_setMax c n
    | EFunction f => Ok (mkEC (c_dim c) (c_lo c) (c_up c) (c_bset c) (c_mutp c) (c_size c) (c_new c) (c_deaths c) (c_gens c) (c_max c) f)
    end.
  (** the default members: INCLUDE/ea_optimizer.hpp:33-47, INCLUDE/general_purpose_optimizer.hpp:17-37; without a function
      calculateObjectiveFunctionInternal throws std::logic_error: general_purpose_optimizer.cpp:156-159 *)
  Definition ec_new : econf T := mkEC 0 [] [] false n0 0 0 0 0 0 (fun _ => Throw LogicError).
  Definition ea_after (x : ea_setter) (c : econf T) : econf T := match ea_set c x with Ok c' => c' | _ => c end.
  Fixpoint ea_settings (calls : list ea_setter) (c : econf T) : econf T :=
    match calls with [] => c | x :: l => ea_settings l (ea_after x c) end.

  (** the public setters of GradientOptimizer (gradient_optimizer.cpp:36-107) and of its base class *)
  Inductive grad_setter : Type :=
  | GDimension (d : nat) | GBounds (lb ub : vec T) | GFunction (f : vec T -> T) | GInitial (x : vec T) | GMaxStep (v : T) | GTolerance (v : T)
  | GLineSearch (z : Z) | GGradient (g : vec T -> vec T) | GMaximum (z : Z) | GMethod (m : fdmethod) | GEpsilon (v : T).
  Definition grad_set (x : grad_setter) : SM (gopt T) unit :=
    match x with
    | GDimension d => grad_setDimension d
    | GBounds lb ub => grad_setBounds lb ub
    | GFunction f => grad_setFunction f
    | GInitial x => grad_setInitialPoint x
    | GMaxStep v => grad_setMaxStep v
    | GTolerance v => grad_setTolerance v
    | GLineSearch z => grad_setLineSearchIterations z
    | GGradient g => grad_setGradient g
    | GMaximum z => grad_setMaxEval z
    | GMethod m => grad_setFD m
    | GEpsilon v => grad_setEps v
    end.
  Fixpoint grad_settings (calls : list grad_setter) (s : gopt T) : gopt T :=
    match calls with [] => s | x :: l => grad_settings l (fst (grad_set x s)) end.
End SetModel.
Arguments ea_setter : clear implicits.
Arguments grad_setter : clear implicits.
