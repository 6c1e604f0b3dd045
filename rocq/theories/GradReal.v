(** Analysis behind the properties of the gradient-descent optimiser. *)
From Coq Require Import Reals Lra Lia Psatz List Arith Bool ZArith.
From Verif Require Import Base StM Num RealNum VecModel VecReal DataProofs GradModel GradSpec GradProofs.
Import ListNotations.
Local Open Scope R_scope.

Lemma upd_split {A} (x : list A) i t : (i < length x)%nat -> upd x i t = firstn i x ++ t :: skipn (S i) x.
Proof. revert i. induction x; destruct i; cbn; intros; try lia; auto. f_equal. apply IHx. lia. Qed.
Lemma partial_upd f x i l : (i < length x)%nat -> (partial f x i l <-> derivable_pt_lim (fun t => f (upd x i t)) (nth i x 0) l).
Proof.
  intros Hi. unfold partial. split; intros H e He; destruct (H e He) as [d Hd]; exists d; intros h H0 H1; specialize (Hd h H0 H1); rewrite !upd_split in * by auto; auto.
Qed.
Lemma step_zero x g : step_to x g 0 = x.
Proof.
  apply (list_ext _ _ 0). unfold step_to. rewrite map_length, seq_length. auto. intros i Hi. unfold step_to in *. rewrite map_length, seq_length in Hi.
  rewrite nth_map_seq by auto. cbn [Nat.add]. lra.
Qed.

(** ** a decrease along the ray *)
Lemma ray_decrease f x g M : 0 < M -> (exists l, l < 0 /\ derivable_pt_lim (fun t => f (step_to x g t)) 0 l) ->
  exists k, f (step_to x g (M / 2 ^ k)) < f x.
Proof.
  intros HM (l & Hl & D). destruct (D (- l) ltac:(lra)) as [d Hd]. destruct d as [d d0]. cbn in Hd.
  destruct (pow_lt_1_zero (/ 2) ltac:(rewrite Rabs_pos_eq; lra) (d / M)) as [k Hk]. { apply Rdiv_lt_0_compat; lra. }
  exists k. specialize (Hk k (le_n k)). rewrite Rabs_pos_eq in Hk by (apply pow_le; lra). rewrite pow_inv in Hk.
  assert (0 < 2 ^ k) as P by (apply pow_lt; lra). set (h := M / 2 ^ k). assert (0 < h) as H0 by (apply Rdiv_lt_0_compat; lra).
  assert (h < d) as H1. { unfold h, Rdiv. apply (Rmult_lt_compat_l M) in Hk; auto. replace (M * (d / M)) with d in Hk by (field; lra). lra. }
  specialize (Hd h ltac:(lra) ltac:(rewrite Rabs_pos_eq; lra)). rewrite Rplus_0_l, step_zero in Hd. apply Rabs_def2 in Hd. destruct Hd as [Hd _].
  assert ((f (step_to x g h) - f x) / h < 0) as N by lra. apply (Rmult_lt_compat_r h) in N; auto. unfold Rdiv in N. rewrite Rmult_assoc, Rinv_l, Rmult_1_r, Rmult_0_l in N by lra. lra.
Qed.

(** ** central differences *)
Lemma central_quadratic a b c x h : h <> 0 ->
  (a * (x + h) ^ 2 + b * (x + h) + c - (a * (x - h) ^ 2 + b * (x - h) + c)) / (2 * h) = 2 * a * x + b.
Proof. intros. field. auto. Qed.
Lemma quadratic_deriv a b c x : derivable_pt_lim (fun t => a * t ^ 2 + b * t + c) x (2 * a * x + b).
Proof.
  replace (2 * a * x + b) with (a * (INR 2 * x ^ 1) + b * 1 + 0) by (simpl; ring).
  apply (derivable_pt_lim_plus (fun t => a * t ^ 2 + b * t) (fun _ => c)); [|apply derivable_pt_lim_const].
  apply (derivable_pt_lim_plus (fun t => a * t ^ 2) (fun t => b * t)).
  - apply (derivable_pt_lim_scal (fun t => t ^ 2)). apply derivable_pt_lim_pow.
  - apply (derivable_pt_lim_scal (fun t => t)). apply derivable_pt_lim_id.
Qed.
Lemma integrate_bound F F' B B' h : 0 <= h -> F 0 = 0 -> B 0 = 0 -> (forall t, 0 <= t <= h -> derivable_pt_lim F t (F' t)) -> (forall t, 0 <= t <= h -> derivable_pt_lim B t (B' t)) ->
  (forall t, 0 <= t <= h -> Rabs (F' t) <= B' t) -> forall t, 0 <= t <= h -> Rabs (F t) <= B t.
Proof.
  intros Hh F0 B0 DF DB HB t Ht. destruct (Req_dec t 0) as [->|Hn]. { rewrite F0, B0, Rabs_R0. lra. }
  destruct (MVT_cor2 (fun t => B t - F t) (fun t => B' t - F' t) 0 t ltac:(lra)) as (c & Hc & Hc2). { intros c Hc. apply derivable_pt_lim_minus. apply DB; lra. apply DF; lra. }
  destruct (MVT_cor2 (fun t => B t + F t) (fun t => B' t + F' t) 0 t ltac:(lra)) as (e & He & He2). { intros e He. apply derivable_pt_lim_plus. apply DB; lra. apply DF; lra. }
  pose proof (HB c ltac:(lra)) as Q1. pose proof (HB e ltac:(lra)) as Q2. apply Rabs_le. rewrite F0, B0 in *.
  assert (F' c <= B' c) by (pose proof (Rle_abs (F' c)); lra). assert (- F' e <= B' e) by (pose proof (Rle_abs (- F' e)); rewrite Rabs_Ropp in *; lra).
  assert (0 <= (B' c - F' c) * (t - 0)) by (apply Rmult_le_pos; lra). assert (0 <= (B' e + F' e) * (t - 0)) by (apply Rmult_le_pos; lra). lra.
Qed.
Lemma shift_deriv f f1 x t : derivable_pt_lim f (x + t) (f1 (x + t)) -> derivable_pt_lim (fun t => f (x + t)) t (f1 (x + t)).
Proof.
  intros D. rewrite <- (Rmult_1_r (f1 (x + t))). apply (derivable_pt_lim_comp (fun t => x + t) f); auto. replace 1 with (0 + 1) by ring.
  apply (derivable_pt_lim_plus (fun _ => x) (fun t => t)). apply derivable_pt_lim_const. apply derivable_pt_lim_id.
Qed.
Lemma mirror_deriv f f1 x t : derivable_pt_lim f (x - t) (f1 (x - t)) -> derivable_pt_lim (fun t => f (x - t)) t (- f1 (x - t)).
Proof.
  intros D. replace (- f1 (x - t)) with (f1 (x - t) * (0 - 1)) by ring. apply (derivable_pt_lim_comp (fun t => x - t) f); auto.
  apply (derivable_pt_lim_minus (fun _ => x) (fun t => t)). apply derivable_pt_lim_const. apply derivable_pt_lim_id.
Qed.
Lemma central_error_pos f f1 f2 f3 x h M : 0 < h ->
  (forall t, Rabs (t - x) <= h -> derivable_pt_lim f t (f1 t) /\ derivable_pt_lim f1 t (f2 t) /\ derivable_pt_lim f2 t (f3 t) /\ Rabs (f3 t) <= M) ->
  Rabs ((f (x + h) - f (x - h)) / (2 * h) - f1 x) <= M * h ^ 2 / 6.
Proof.
  intros Hh D.
  assert (forall t, 0 <= t <= h -> Rabs (x + t - x) <= h /\ Rabs (x - t - x) <= h) as IN. { intros t Ht. split; apply Rabs_le; lra. }
  assert (forall t, 0 <= t <= h -> Rabs (f2 (x + t) - f2 (x - t)) <= 2 * M * t) as B2.
  { apply (integrate_bound (fun t => f2 (x + t) - f2 (x - t)) (fun t => f3 (x + t) - - f3 (x - t)) (fun t => 2 * M * t) (fun t => 2 * M * 1)); try lra.
    - rewrite Rplus_0_r, Rminus_0_r. lra.
    - intros t Ht. destruct (IN t Ht) as [I1 I2]. apply (derivable_pt_lim_minus (fun t => f2 (x + t)) (fun t => f2 (x - t))); [apply shift_deriv; apply D; auto|apply mirror_deriv; apply D; auto].
    - intros t Ht. apply (derivable_pt_lim_scal (fun t => t)). apply derivable_pt_lim_id.
    - intros t Ht. destruct (IN t Ht) as [I1 I2]. destruct (D _ I1) as (_ & _ & _ & Q1). destruct (D _ I2) as (_ & _ & _ & Q2).
      replace (f3 (x + t) - - f3 (x - t)) with (f3 (x + t) + f3 (x - t)) by ring. eapply Rle_trans. apply Rabs_triang. lra. }
  assert (forall t, 0 <= t <= h -> Rabs (f1 (x + t) + f1 (x - t) - 2 * f1 x) <= M * t ^ 2) as B1.
  { apply (integrate_bound (fun t => f1 (x + t) + f1 (x - t) - 2 * f1 x) (fun t => f2 (x + t) + - f2 (x - t) - 0) (fun t => M * t ^ 2) (fun t => M * (INR 2 * t ^ 1))); try lra.
    - rewrite Rplus_0_r, Rminus_0_r. lra.
    - intros t Ht. destruct (IN t Ht) as [I1 I2]. apply (derivable_pt_lim_minus (fun t => f1 (x + t) + f1 (x - t)) (fun t => 2 * f1 x)); [|apply derivable_pt_lim_const].
      apply (derivable_pt_lim_plus (fun t => f1 (x + t)) (fun t => f1 (x - t))); [apply shift_deriv; apply D; auto|apply mirror_deriv; apply D; auto].
    - intros t Ht. apply (derivable_pt_lim_scal (fun t => t ^ 2)). apply derivable_pt_lim_pow.
    - intros t Ht. replace (f2 (x + t) + - f2 (x - t) - 0) with (f2 (x + t) - f2 (x - t)) by ring. replace (M * (INR 2 * t ^ 1)) with (2 * M * t) by (simpl; ring). auto. }
  assert (forall t, 0 <= t <= h -> Rabs (f (x + t) - f (x - t) - 2 * f1 x * t) <= M / 3 * t ^ 3) as B0.
  { apply (integrate_bound (fun t => f (x + t) - f (x - t) - 2 * f1 x * t) (fun t => f1 (x + t) - - f1 (x - t) - 2 * f1 x * 1) (fun t => M / 3 * t ^ 3) (fun t => M / 3 * (INR 3 * t ^ 2))); try lra.
    - rewrite Rplus_0_r, Rminus_0_r. lra.
    - intros t Ht. destruct (IN t Ht) as [I1 I2]. apply (derivable_pt_lim_minus (fun t => f (x + t) - f (x - t)) (fun t => 2 * f1 x * t)).
      + apply (derivable_pt_lim_minus (fun t => f (x + t)) (fun t => f (x - t))); [apply shift_deriv; apply D; auto|apply mirror_deriv; apply D; auto].
      + apply (derivable_pt_lim_scal (fun t => t)). apply derivable_pt_lim_id.
    - intros t Ht. apply (derivable_pt_lim_scal (fun t => t ^ 3)). apply derivable_pt_lim_pow.
    - intros t Ht. replace (f1 (x + t) - - f1 (x - t) - 2 * f1 x * 1) with (f1 (x + t) + f1 (x - t) - 2 * f1 x) by ring. replace (M / 3 * (INR 3 * t ^ 2)) with (M * t ^ 2) by (simpl; field). auto. }
  specialize (B0 h ltac:(lra)).
  replace ((f (x + h) - f (x - h)) / (2 * h) - f1 x) with ((f (x + h) - f (x - h) - 2 * f1 x * h) / (2 * h)) by (field; lra).
  unfold Rdiv. rewrite Rabs_mult, (Rabs_pos_eq (/ (2 * h))) by (left; apply Rinv_0_lt_compat; lra).
  apply (Rmult_le_reg_r (2 * h)); [lra|]. rewrite Rmult_assoc, Rinv_l, Rmult_1_r by lra. replace (M * h ^ 2 * / 6 * (2 * h)) with (M / 3 * h ^ 3) by field. auto.
Qed.
Lemma central_error f f1 f2 f3 x h M : h <> 0 ->
  (forall t, Rabs (t - x) <= Rabs h -> derivable_pt_lim f t (f1 t) /\ derivable_pt_lim f1 t (f2 t) /\ derivable_pt_lim f2 t (f3 t) /\ Rabs (f3 t) <= M) ->
  Rabs ((f (x + h) - f (x - h)) / (2 * h) - f1 x) <= M * h ^ 2 / 6.
Proof.
  intros Hh D. destruct (Rlt_le_dec 0 h) as [P|P].
  - apply (central_error_pos f f1 f2 f3); auto. intros t Ht. apply D. rewrite (Rabs_pos_eq h); lra.
  - replace ((f (x + h) - f (x - h)) / (2 * h)) with ((f (x + - h) - f (x - - h)) / (2 * - h)).
    2:{ replace (x - - h) with (x + h) by ring. replace (x + - h) with (x - h) by ring. field. auto. }
    replace (M * h ^ 2) with (M * (- h) ^ 2) by ring. apply (central_error_pos f f1 f2 f3); [lra|]. intros t Ht. apply D. rewrite (Rabs_left1 h); lra.
Qed.
