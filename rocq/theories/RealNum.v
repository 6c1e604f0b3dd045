(** The reals as an instance of [Num]: exact arithmetic.
    Simplification: IEEE rounding, overflow, NaN and infinities are absent; division by zero yields the
    (unspecified) value [x * /0] of the standard library, so theorems about division carry a non-zero premise. *)
From Coq Require Import Reals Lra Lia ZArith Bool List R_Ifp.
From Verif Require Import Base Num.
Local Open Scope R_scope.

Definition Rltb (a b : R) : bool := if Rlt_dec a b then true else false.
Definition Rleb (a b : R) : bool := if Rle_dec a b then true else false.
Definition Reqb (a b : R) : bool := if Req_EM_T a b then true else false.
(** floor; [up r] is the unique integer with r < up r <= r+1. *)
Definition Rfloor (r : R) : Z := (up r - 1)%Z.
Definition Rceil (r : R) : Z := (- Rfloor (- r))%Z.
(** m * 10^e *)
Definition Rlit (m e : Z) : R := IZR m * powerRZ 10 e.

#[export] Instance RNum : Num R := {
  n0 := 0; n1 := 1;
  nadd := Rplus; nsub := Rminus; nmul := Rmult; ndiv := Rdiv;
  nopp := Ropp; nabs := Rabs; nsqrt := sqrt;
  nltb := Rltb; nleb := Rleb; neqb := Reqb;
  nisnan := fun _ => false;
  nofZ := IZR; nlit := Rlit;
  nfloor := fun r => Some (Rfloor r);
  nceil := fun r => Some (Rceil r);
  ndblmax := (2 - powerRZ 2 (-52)) * powerRZ 2 1023;
  ndblmin := powerRZ 2 (-1022);
  ndbleps := powerRZ 2 (-52)
}.

(** pow: the code only calls pow with a non-negative base; std::pow(0,g) is 0 for g>0 and 1 for g=0. *)
Definition Rpow (x y : R) : R :=
  if Req_EM_T x 0 then (if Req_EM_T y 0 then 1 else 0) else Rpower x y.

#[export] Instance RNumFun : NumFun R := { nexp := exp; nlog := ln; npow := Rpow }.

Lemma Rltb_spec a b : reflect (a < b) (Rltb a b).
Proof. unfold Rltb. destruct (Rlt_dec a b); constructor; auto. Qed.
Lemma Rleb_spec a b : reflect (a <= b) (Rleb a b).
Proof. unfold Rleb. destruct (Rle_dec a b); constructor; auto. Qed.
Lemma Reqb_spec a b : reflect (a = b) (Reqb a b).
Proof. unfold Reqb. destruct (Req_EM_T a b); constructor; auto. Qed.

Lemma Rltb_true a b : Rltb a b = true <-> a < b.
Proof. destruct (Rltb_spec a b); split; auto; try discriminate; tauto. Qed.
Lemma Rltb_false a b : Rltb a b = false <-> b <= a.
Proof. destruct (Rltb_spec a b); split; intros; auto; try discriminate; lra. Qed.
Lemma Rleb_true a b : Rleb a b = true <-> a <= b.
Proof. destruct (Rleb_spec a b); split; auto; try discriminate; tauto. Qed.
Lemma Rleb_false a b : Rleb a b = false <-> b < a.
Proof. destruct (Rleb_spec a b); split; intros; auto; try discriminate; lra. Qed.
Lemma Reqb_true a b : Reqb a b = true <-> a = b.
Proof. destruct (Reqb_spec a b); split; auto; try discriminate; tauto. Qed.

#[export] Instance ROrd : OrdLaws R.
Proof.
  refine {| good := fun _ => True |}; simpl; intros.
  - tauto.
  - apply Rltb_false; lra.
  - rewrite Rltb_true in *; lra.
  - rewrite Rltb_true in *. destruct (Rlt_dec a b); auto. right; rewrite Rltb_true; lra.
  - destruct (Rltb_spec b a); destruct (Rleb_spec a b); simpl; auto; lra.
  - destruct (Reqb_spec a b); destruct (Rleb_spec a b); destruct (Rleb_spec b a); simpl; auto; lra.
  - auto.
  - auto.
  - auto.
  - auto.
  - apply Rltb_true; lra.
Defined.

Lemma Rfloor_spec r : IZR (Rfloor r) <= r < IZR (Rfloor r) + 1.
Proof.
  unfold Rfloor. pose proof (archimed r) as [H1 H2]. rewrite minus_IZR. lra.
Qed.

Lemma Rceil_spec r : IZR (Rceil r) - 1 < r <= IZR (Rceil r).
Proof.
  unfold Rceil. pose proof (Rfloor_spec (- r)) as [H1 H2]. rewrite opp_IZR. lra.
Qed.

Lemma Rfloor_unique r z : IZR z <= r < IZR z + 1 -> Rfloor r = z.
Proof.
  intros [H1 H2]. pose proof (Rfloor_spec r) as [H3 H4].
  assert (IZR (Rfloor r) < IZR (z + 1)) by (rewrite plus_IZR; lra).
  assert (IZR z < IZR (Rfloor r + 1)) by (rewrite plus_IZR; lra).
  apply lt_IZR in H. apply lt_IZR in H0. lia.
Qed.

(** Finite sums: the mathematical notion used in specifications. *)
Fixpoint rsum (n : nat) (f : nat -> R) : R :=
  match n with O => 0 | S k => rsum k f + f k end.

Lemma nsum_rsum n f : nsum n f = rsum n f.
Proof. unfold nsum. induction n; simpl in *; auto. rewrite IHn. auto. Qed.

Lemma rsum_ext n f g : (forall k, (k < n)%nat -> f k = g k) -> rsum n f = rsum n g.
Proof. intros H; induction n; simpl; auto. rewrite IHn, H; auto. Qed.
Lemma rsum_plus n f g : rsum n (fun k => f k + g k) = rsum n f + rsum n g.
Proof. induction n; simpl; [lra | rewrite IHn; lra]. Qed.
Lemma rsum_minus n f g : rsum n (fun k => f k - g k) = rsum n f - rsum n g.
Proof. induction n; simpl; [lra | rewrite IHn; lra]. Qed.
Lemma rsum_scal n c f : rsum n (fun k => c * f k) = c * rsum n f.
Proof. induction n; simpl; [lra | rewrite IHn; lra]. Qed.
Lemma rsum_scal_r n c f : rsum n (fun k => f k * c) = rsum n f * c.
Proof. induction n; simpl; [lra | rewrite IHn; lra]. Qed.
Lemma rsum_0 n f : (forall k, (k < n)%nat -> f k = 0) -> rsum n f = 0.
Proof. intros H; induction n; simpl; auto. rewrite IHn, H; auto; lra. Qed.
Lemma rsum_const n c : rsum n (fun _ => c) = INR n * c.
Proof. induction n. simpl; lra. rewrite S_INR. simpl rsum. rewrite IHn; lra. Qed.
Lemma rsum_swap n m f : rsum n (fun i => rsum m (fun j => f i j)) = rsum m (fun j => rsum n (fun i => f i j)).
Proof.
  induction n; simpl. symmetry; apply rsum_0; auto.
  rewrite IHn, <- rsum_plus. auto.
Qed.
Lemma rsum_nonneg n f : (forall k, (k < n)%nat -> 0 <= f k) -> 0 <= rsum n f.
Proof.
  intros H; induction n; simpl. lra.
  assert (0 <= rsum n f) by (apply IHn; auto). assert (0 <= f n) by auto. lra.
Qed.
Lemma rsum_le n f g : (forall k, (k < n)%nat -> f k <= g k) -> rsum n f <= rsum n g.
Proof.
  intros H; induction n; simpl. lra.
  assert (rsum n f <= rsum n g) by (apply IHn; auto). assert (f n <= g n) by auto. lra.
Qed.
Lemma rsum_nonneg_0 n f : (forall k, (k < n)%nat -> 0 <= f k) -> rsum n f = 0 -> forall k, (k < n)%nat -> f k = 0.
Proof.
  intros H; induction n; simpl; intros H0 k Hk. lia.
  assert (0 <= rsum n f) by (apply rsum_nonneg; auto). assert (0 <= f n) by auto.
  destruct (Nat.eq_dec k n). subst; lra. apply IHn; auto; try lra; lia.
Qed.
Lemma rsum_split n m f : rsum (n + m) f = rsum n f + rsum m (fun k => f (n + k)%nat).
Proof.
  induction m; simpl. rewrite Nat.add_0_r; lra.
  rewrite Nat.add_succ_r; simpl. rewrite IHm; lra.
Qed.
Lemma rsum_S_l n f : rsum (S n) f = f 0%nat + rsum n (fun k => f (S k)).
Proof. change (S n) with (1 + n)%nat. rewrite rsum_split. simpl. lra. Qed.
(** a sum with a single non-zero term *)
Lemma rsum_single n i f : (i < n)%nat -> (forall k, (k < n)%nat -> k <> i -> f k = 0) -> rsum n f = f i.
Proof.
  intros Hi H. induction n; simpl. lia.
  destruct (Nat.eq_dec i n).
  - subst. rewrite rsum_0. lra. intros; apply H; lia.
  - rewrite IHn, (H n) by (try lia; intros; apply H; lia). lra.
Qed.
Lemma rsum_opp n f : rsum n (fun k => - f k) = - rsum n f.
Proof. induction n; simpl; [lra | rewrite IHn; lra]. Qed.
Lemma rsum_abs n f : Rabs (rsum n f) <= rsum n (fun k => Rabs (f k)).
Proof.
  induction n; simpl. rewrite Rabs_R0; lra.
  eapply Rle_trans. apply Rabs_triang. lra.
Qed.
