(** Small mathematical vocabulary over the reals used by the theorem statements. [rsum] is in RealNum.v. *)
From Coq Require Import Reals List Arith.
From Verif Require Import Base Num RealNum VecModel MatModel.
Local Open Scope R_scope.

(** x lies in the k-th of n equal half-open strata of [lb, ub) *)
Definition in_stratum (lb ub : R) (n k : nat) (x : R) : Prop :=
  lb + INR k * ((ub - lb) / INR n) <= x < lb + (INR k + 1) * ((ub - lb) / INR n).

(** n x n or r x c matrices as index functions *)
Definition is_mat (m : mat R) (r c : nat) (f : nat -> nat -> R) : Prop :=
  wf m /\ nrows m = r /\ ncols m = c /\ forall i j, (i < r)%nat -> (j < c)%nat -> mget m i j = f i j.
Definition delta (i j : nat) : R := if Nat.eqb i j then 1 else 0.

(** x^T A x and definiteness, for the n x n matrix with entries A i j *)
Definition quad (n : nat) (A : nat -> nat -> R) (x : nat -> R) : R := rsum n (fun i => rsum n (fun j => x i * A i j * x j)).
Definition symmetric (n : nat) (A : nat -> nat -> R) : Prop := forall i j, (i < n)%nat -> (j < n)%nat -> A i j = A j i.
Definition psd (n : nat) (A : nat -> nat -> R) : Prop := forall x, 0 <= quad n A x.
Definition posdef (n : nat) (A : nat -> nat -> R) : Prop := forall x, (exists i, (i < n)%nat /\ x i <> 0) -> 0 < quad n A x.
(** matrix-vector and matrix-matrix product of index functions *)
Definition mv (n : nat) (A : nat -> nat -> R) (x : nat -> R) (i : nat) : R := rsum n (fun j => A i j * x j).
Definition mm (n : nat) (A B : nat -> nat -> R) (i j : nat) : R := rsum n (fun k => A i k * B k j).
(** the n x n matrix has a non-trivial kernel *)
Definition singular (n : nat) (A : nat -> nat -> R) : Prop :=
  exists x, (exists i, (i < n)%nat /\ x i <> 0) /\ forall i, (i < n)%nat -> mv n A x i = 0.
