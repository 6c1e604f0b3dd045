(** Specification of descent along a gradient, independent of the model. *)
From Coq Require Import Reals List Arith.
From Verif Require Import RealNum.
Import ListNotations.
Local Open Scope R_scope.

(** the point x - t*g, the Euclidean norm, the first d components *)
Definition step_to (x g : list R) (t : R) : list R := map (fun i => nth i x 0 - t * nth i g 0) (seq 0 (length x)).
Definition norm2 (v : list R) : R := sqrt (rsum (length v) (fun i => nth i v 0 * nth i v 0)).
Definition first_n (d : nat) (v : list R) : list R := map (fun i => nth i v 0) (seq 0 d).
(** the partial derivative of f at x in coordinate i *)
Definition partial (f : list R -> R) (x : list R) (i : nat) (l : R) : Prop :=
  derivable_pt_lim (fun t => f (firstn i x ++ t :: skipn (S i) x)) (nth i x 0) l.

(** [descends f gf d M x xs]: from x the points xs are visited, each a halved maximal step down the gradient and strictly better than the one before *)
Inductive descends (f : list R -> R) (gf : list R -> list R) (d : nat) (M : R) : list R -> list (list R) -> Prop :=
| desc_nil x : descends f gf d M x []
| desc_cons x k xs : let y := step_to x (first_n d (gf x)) (M / 2 ^ k) in f y < f x -> (forall j, (j < k)%nat -> f x <= f (step_to x (first_n d (gf x)) (M / 2 ^ j))) ->
    descends f gf d M y xs -> descends f gf d M x (y :: xs).
