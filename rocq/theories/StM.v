(** State-and-exception rendering of C++ methods: the state left behind by a throwing call is kept.
    Nothing here models a particular line of /repo. *)
From Coq Require Import List Arith Bool.
From Verif Require Import Base.

Definition SM (S A : Type) := S -> S * Res A.
Section StM.
  Context {S : Type}.
  Definition sret {A} (a : A) : SM S A := fun s => (s, Ok a).
  Definition sbind {A B} (m : SM S A) (f : A -> SM S B) : SM S B :=
    fun s => match m s with
             | (s1, Ok a) => f a s1
             | (s1, Throw e) => (s1, Throw e)
             | (s1, UB) => (s1, UB)
             end.
  Definition sthrow {A} (e : exn) : SM S A := fun s => (s, Throw e).
  (** read a field, change the state, run a pure call that may throw *)
  Definition sget {A} (f : S -> A) : SM S A := fun s => (s, Ok (f s)).
  Definition smod (f : S -> S) : SM S unit := fun s => (f s, Ok tt).
  Definition slift {A} (r : Res A) : SM S A := fun s => (s, r).
  Definition swhen (b : bool) (m : SM S unit) : SM S unit := if b then m else sret tt.
  (** if (b) throw e; / assert(b) *)
  Definition sthrow_if (b : bool) (e : exn) : SM S unit := if b then sthrow e else sret tt.
  Definition sassert (b : bool) : SM S unit := if b then sret tt else sthrow AssertFail.
  Fixpoint sloop (n : nat) (f : nat -> SM S unit) : SM S unit :=
    match n with O => sret tt | Datatypes.S k => sbind (sloop k f) (fun _ => f k) end.
  Fixpoint sfor {A} (l : list A) (f : A -> SM S unit) : SM S unit :=
    match l with nil => sret tt | cons a t => sbind (f a) (fun _ => sfor t f) end.
End StM.
Notation "'get' x <-- m ; k" := (sbind m (fun x => k)) (at level 200, x name, m at level 100, k at level 200).
Notation "'run' m ; k" := (sbind m (fun _ => k)) (at level 200, m at level 100, k at level 200).
