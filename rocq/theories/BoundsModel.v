(** Class Bounds: src/Bounds/bounds.cpp, INCLUDE/bounds.hpp. *)
From Coq Require Import List Arith Bool ZArith.
From Verif Require Import Base Num VecModel.
Import ListNotations.

Section BoundsModel.
  Context {T : Type} `{NT : Num T}.

  (** private members: bounds.hpp:13-18 *)
  Record bnds := mkB { b_dim : nat; b_lo : vec T; b_up : vec T; b_set : bool }.
  (** Bounds(): bounds.cpp:8; Bounds(unsigned int): 10-12 *)
  Definition bnds_new : bnds := mkB 0 [] [] false.
  Definition bnds_new_dim (d : nat) : bnds := mkB d [] [] false.

  (** checkBounds: bounds.cpp:158-170.  lowerBounds(i)/upperBounds(i) throw out_of_range past the end
      (vector.cpp operator()). *)
  Fixpoint check_from (lo up : vec T) (l : list nat) : Res bool :=
    match l with
    | [] => Ok true
    | i :: t =>
        if (Nat.leb (length lo) i || Nat.leb (length up) i)%bool then Throw OutOfRange
        else if vget lo i >=! vget up i then Ok false else check_from lo up t
    end.
  Definition bnds_check (s : bnds) : Res bool :=
    if Nat.eqb (b_dim s) 0 then Throw InvalidArgument else check_from (b_lo s) (b_up s) (seq 0 (b_dim s)).
  (** the common tail of the three setters: "if(!checkBounds()) throw ...; ifBoundsAreSet = true" *)
  Definition bnds_finish (s : bnds) (e : exn) : bnds * Res unit :=
    match bnds_check s with
    | Ok true => (mkB (b_dim s) (b_lo s) (b_up s) true, Ok tt)
    | Ok false => (s, Throw e)
    | Throw x => (s, Throw x)
    | UB => (s, UB)
    end.

  (** reset: bounds.cpp:52-59; setDimension: 64-66 *)
  Definition bnds_reset (s : bnds) : bnds := bnds_new.
  Definition bnds_setDimension (s : bnds) (d : nat) : bnds := mkB d (b_lo s) (b_up s) (b_set s).
  (** setBounds(double,double): bounds.cpp:68-85 *)
  Definition bnds_setScalar (s : bnds) (l u : T) : bnds * Res unit :=
    if l >=! u then (s, Throw InvalidArgument)
    else if Nat.eqb (b_dim s) 0 then (s, Throw InvalidArgument)
    else (mkB (b_dim s) (repeat l (b_dim s)) (repeat u (b_dim s)) true, Ok tt).
  (** setBounds(std::vector,std::vector): bounds.cpp:87-105; ub[i] past the end is undefined *)
  Definition bnds_setStd (s : bnds) (lb ub : list T) : bnds * Res unit :=
    if Nat.ltb (length ub) (length lb) then (s, UB)
    else bnds_finish (mkB (length lb) lb (firstn (length lb) ub) (b_set s)) InvalidArgument.
  (** setBounds(vec,vec): bounds.cpp:108-124 *)
  Definition bnds_setVec (s : bnds) (lb ub : vec T) : bnds * Res unit :=
    if (Nat.eqb (length lb) 0 || Nat.eqb (length ub) 0)%bool then (s, Throw InvalidArgument)
    else if negb (Nat.eqb (length lb) (length ub)) then (s, Throw InvalidArgument)
    else bnds_finish (mkB (length lb) lb ub (b_set s)) InvalidArgument.
  (** Bounds(std::vector,std::vector): bounds.cpp:14-35; Bounds(vec,vec): 38-49.  A throwing constructor leaves no object. *)
  Definition bnds_of_std (lb ub : list T) : Res bnds :=
    if negb (Nat.eqb (length lb) (length ub)) then Throw InvalidArgument
    else let '(s, r) := bnds_finish (mkB (length lb) lb ub false) InvalidArgument in rmap (fun _ => s) r.
  Definition bnds_of_vec (lb ub : vec T) : Res bnds :=
    let '(s, r) := bnds_finish (mkB (length lb) lb ub false) RuntimeError in rmap (fun _ => s) r.

  (** isPointWithinBounds: bounds.cpp:172-184 *)
  Fixpoint within_from (x lo up : vec T) (l : list nat) : Res bool :=
    match l with
    | [] => Ok true
    | i :: t =>
        if Nat.leb (length lo) i then Throw OutOfRange
        else if vget x i <! vget lo i then Ok false
        else if Nat.leb (length up) i then Throw OutOfRange
        else if vget x i >! vget up i then Ok false
        else within_from x lo up t
    end.
  Definition bnds_isWithin (s : bnds) (x : vec T) : Res bool :=
    if negb (Nat.eqb (length x) (b_dim s)) then Throw InvalidArgument
    else within_from x (b_lo s) (b_up s) (seq 0 (b_dim s)).
  (** generateVectorWithinBounds, generateStdVectorWithinBounds: bounds.cpp:194-222; [u] the generator's draws *)
  Definition bnds_generate (s : bnds) (u : nat -> T) : Res (vec T) :=
    if negb (b_set s) then Throw LogicError
    else let '(w, r) := vec_fillRandomV (repeat n0 (b_dim s)) (b_lo s) (b_up s) u in rmap (fun _ => w) r.

  (** the state-changing calls *)
  Inductive bop := BReset | BSetDimension (d : nat) | BSetScalar (l u : T) | BSetStd (lb ub : list T) | BSetVec (lb ub : vec T).
  Definition bstep (s : bnds) (o : bop) : bnds * Res unit :=
    match o with
    | BReset => (bnds_reset s, Ok tt)
    | BSetDimension d => (bnds_setDimension s d, Ok tt)
    | BSetScalar l u => bnds_setScalar s l u
    | BSetStd lb ub => bnds_setStd s lb ub
    | BSetVec lb ub => bnds_setVec s lb ub
    end.
  Definition brun (ops : list bop) (s : bnds) : bnds := fold_left (fun s o => fst (bstep s o)) ops s.
  Definition is_setter (o : bop) : bool := match o with BSetScalar _ _ | BSetStd _ _ | BSetVec _ _ => true | _ => false end.
End BoundsModel.
Arguments bnds : clear implicits.
Arguments bop : clear implicits.
