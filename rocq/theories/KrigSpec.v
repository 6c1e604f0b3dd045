(** What ordinary / universal kriging and ridge regression mean, said with sums over the training points.
    [Kexp] (the exponential kernel) is in CorrSpec, [rsum] in RealNum, [mv], [delta] in RSpec. *)
From Coq Require Import Reals List Arith.
From Verif Require Import Base Num RealNum RSpec CorrSpec.
Import ListNotations.
Local Open Scope R_scope.

(** correlation of two points, and the regularised correlation matrix of the training points *)
Definition kcorr (d : nat) (theta gamma x y : list R) : R := Kexp d (co theta) (co gamma) (co x) (co y).
Definition kmat (d : nat) (theta gamma : list R) (eps : R) (pts : list (list R)) (i j : nat) : R :=
  kcorr d theta gamma (nth i pts []) (nth j pts []) + eps * delta i j.
(** parameters for which the kernel is a correlation *)
Definition kparams (d : nat) (theta gamma : list R) : Prop :=
  length theta = d /\ length gamma = d /\ forall k, (k < d)%nat -> 0 <= nth k theta 0 /\ 0 < nth k gamma 0 <= 2.

(** the regularised correlation matrix is positive definite; always the case for eps > 0 (kregular_eps) *)
Definition kregular (d : nat) (theta gamma : list R) (eps : R) (pts : list (list R)) : Prop :=
  0 <= eps /\ posdef (length pts) (kmat d theta gamma eps pts).

(** [beta], [w], [s2] are the kriging coefficients for the outputs [y]:
    R w = y - beta, the weights sum up to zero (generalised least squares mean), s2 = (1/n) (y - beta)^T R^-1 (y - beta) *)
Record kriging (d : nat) (theta gamma : list R) (eps : R) (pts : list (list R)) (y : nat -> R) (beta : R) (w : nat -> R) (s2 : R) : Prop := {
  kr_w : forall i, (i < length pts)%nat -> mv (length pts) (kmat d theta gamma eps pts) w i = y i - beta;
  kr_beta : rsum (length pts) w = 0;
  kr_s2 : INR (length pts) * s2 = rsum (length pts) (fun i => (y i - beta) * w i) }.
(** the kriging predictor *)
Definition kpredict (d : nat) (theta gamma : list R) (pts : list (list R)) (beta : R) (w : nat -> R) (x : list R) : R :=
  beta + rsum (length pts) (fun j => kcorr d theta gamma x (nth j pts []) * w j).
(** the two terms of the kriging variance at x: 1 - r^T R^-1 r and (1^T R^-1 r - 1)^2 / (1^T R^-1 1) *)
Definition kvar_terms (d : nat) (theta gamma : list R) (eps : R) (pts : list (list R)) (x : list R) (t1 t2 : R) : Prop :=
  exists z v : nat -> R,
    (forall i, (i < length pts)%nat -> mv (length pts) (kmat d theta gamma eps pts) z i = kcorr d theta gamma x (nth i pts [])) /\
    (forall i, (i < length pts)%nat -> mv (length pts) (kmat d theta gamma eps pts) v i = 1) /\
    t1 = (rsum (length pts) z - 1) ^ 2 / rsum (length pts) v /\
    t2 = 1 - rsum (length pts) (fun i => kcorr d theta gamma x (nth i pts []) * z i).

(** the variance factor the code uses: the same sum, each term replaced by 0 when it is below 1e-9 *)
Definition drop (t bound : R) : R := if Rltb (Rabs bound) (1 / 10 ^ 9) then 0 else t.
Definition kvar_factor (d : nat) (theta gamma : list R) (eps : R) (pts : list (list R)) (x : list R) (u : R) : Prop :=
  exists z v : nat -> R,
    (forall i, (i < length pts)%nat -> mv (length pts) (kmat d theta gamma eps pts) z i = kcorr d theta gamma x (nth i pts [])) /\
    (forall i, (i < length pts)%nat -> mv (length pts) (kmat d theta gamma eps pts) v i = 1) /\
    (let q := 1 - rsum (length pts) (fun i => kcorr d theta gamma x (nth i pts []) * z i) in
     let p := rsum (length pts) z - 1 in
     u = drop q q + drop (p ^ 2 / rsum (length pts) v) p).

(** ridge regression: intercept c 0 and slopes c 1 .. c d; the cost is sum_i (y_i - prediction_i)^2 + lam * sum_j c_j^2 *)
Definition lpredict (d : nat) (c : nat -> R) (x : list R) : R := c 0%nat + rsum d (fun j => nth j x 0 * c (S j)).
Definition ridge_cost (d : nat) (pts : list (list R)) (y : nat -> R) (lam : R) (c : nat -> R) : R :=
  rsum (length pts) (fun i => (y i - lpredict d c (nth i pts [])) ^ 2) + lam * rsum (S d) (fun j => c j ^ 2).
Definition ridge (d : nat) (pts : list (list R)) (y : nat -> R) (lam : R) (c : nat -> R) : Prop :=
  forall c', ridge_cost d pts y lam c <= ridge_cost d pts y lam c'.
(** the regularised normal equations (Phi^T Phi + lam I) c = Phi^T y with the columns 1, x_1, .., x_d *)
Definition phi (x : list R) (j : nat) : R := match j with O => 1 | S k => nth k x 0 end.
Definition normal_eqs (d : nat) (pts : list (list R)) (y : nat -> R) (lam : R) (c : nat -> R) : Prop :=
  forall j, (j <= d)%nat -> rsum (length pts) (fun i => phi (nth i pts []) j * lpredict d c (nth i pts [])) + lam * c j = rsum (length pts) (fun i => phi (nth i pts []) j * y i).
