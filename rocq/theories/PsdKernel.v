(** Positive semidefiniteness of exp(-theta |x-y|^gamma) for 0 <= gamma <= 2 (real analysis only, no model code).
    The power |t|^gamma, 0 < gamma < 2, is a limit of positive combinations of 1 - exp(-u t^2); the scale-invariant
    sums S(s) = sum_k exp(a d k) (1 - exp(-s exp(-d k))) replace the usual integral representation. *)
From Coq Require Import Reals Lra Psatz List Arith Lia ZArith.
From Verif Require Import Base Num RealNum RSpec CholProofs2 CorrProofs.
Local Open Scope R_scope.

(** multiplying entrywise by G keeps positive semidefiniteness *)
Definition smul (n : nat) (G : nat -> nat -> R) : Prop := forall A, psd n A -> psd n (fun i j => A i j * G i j).

Lemma psd_ext n A B : (forall i j, (i < n)%nat -> (j < n)%nat -> A i j = B i j) -> psd n A -> psd n B.
Proof. intros E H x. rewrite <- (quad_ext n A B x E). apply H. Qed.
Lemma quad_plus n A B x : quad n (fun i j => A i j + B i j) x = quad n A x + quad n B x.
Proof. unfold quad. rewrite <- rsum_plus. apply rsum_ext. intros. rewrite <- rsum_plus. apply rsum_ext. intros; ring. Qed.
Lemma quad_scal n c A x : quad n (fun i j => c * A i j) x = c * quad n A x.
Proof. unfold quad. rewrite <- rsum_scal. apply rsum_ext. intros. rewrite <- rsum_scal. apply rsum_ext. intros; ring. Qed.
Lemma psd_plus n A B : psd n A -> psd n B -> psd n (fun i j => A i j + B i j).
Proof. intros HA HB x. rewrite quad_plus. specialize (HA x). specialize (HB x). lra. Qed.
Lemma psd_scal n c A : 0 <= c -> psd n A -> psd n (fun i j => c * A i j).
Proof. intros Hc HA x. rewrite quad_scal. apply Rmult_le_pos; [auto|apply HA]. Qed.
Lemma psd_lim n (G : nat -> nat -> nat -> R) L : (forall M, psd n (G M)) ->
  (forall i j, (i < n)%nat -> (j < n)%nat -> Un_cv (fun M => G M i j) (L i j)) -> psd n L.
Proof.
  intros H C x. apply (cv_nonneg (fun M => quad n (G M) x)). intros; apply H.
  unfold quad. apply cv_rsum. intros i Hi. apply cv_rsum. intros j Hj.
  apply (cv_ext (fun M => (x i * x j) * G M i j)). intros; ring.
  replace (x i * L i j * x j) with ((x i * x j) * L i j) by ring. apply cv_scal. auto.
Qed.

Lemma smul_ext n G H : (forall i j, (i < n)%nat -> (j < n)%nat -> G i j = H i j) -> smul n G -> smul n H.
Proof. intros E HG A HA. apply (psd_ext n (fun i j => A i j * G i j)). intros; rewrite E; auto. apply HG; auto. Qed.
Lemma smul_psd n G : smul n G -> psd n G.
Proof. intros H. apply (psd_ext n (fun i j => 1 * G i j)). intros; ring. apply (H (fun _ _ => 1)). apply psd_ones. Qed.
Lemma smul_rank1 n (g : nat -> R) : smul n (fun i j => g i * g j).
Proof.
  intros A HA x. replace (quad n (fun i j => A i j * (g i * g j)) x) with (quad n A (fun i => x i * g i)). apply HA.
  unfold quad. apply rsum_ext. intros. apply rsum_ext. intros; ring.
Qed.
Lemma smul_const n c : 0 <= c -> smul n (fun _ _ => c).
Proof. intros Hc A HA. apply (psd_ext n (fun i j => c * A i j)). intros; ring. apply psd_scal; auto. Qed.
Lemma smul_mult n G H : smul n G -> smul n H -> smul n (fun i j => G i j * H i j).
Proof.
  intros HG HH A HA. apply (psd_ext n (fun i j => (A i j * G i j) * H i j)). intros; ring.
  apply (HH (fun i j => A i j * G i j)). apply HG; auto.
Qed.
Lemma smul_plus n G H : smul n G -> smul n H -> smul n (fun i j => G i j + H i j).
Proof. intros HG HH A HA. apply (psd_ext n (fun i j => A i j * G i j + A i j * H i j)). intros; ring. apply psd_plus; [apply HG|apply HH]; auto. Qed.
Lemma smul_scal n c G : 0 <= c -> smul n G -> smul n (fun i j => c * G i j).
Proof. intros. apply (smul_mult n (fun _ _ => c) G); auto. apply smul_const; auto. Qed.
Lemma smul_pow n G m : smul n G -> smul n (fun i j => G i j ^ m).
Proof. intros H. induction m; simpl. apply smul_const; lra. apply smul_mult; auto. Qed.
Lemma smul_sumR n (G : nat -> nat -> nat -> R) M : (forall m, smul n (G m)) -> smul n (fun i j => sum_f_R0 (fun m => G m i j) M).
Proof. intros H. induction M; simpl. apply H. apply smul_plus; auto. Qed.
Lemma smul_rsum n (G : nat -> nat -> nat -> R) M : (forall m, smul n (G m)) -> smul n (fun i j => rsum M (fun m => G m i j)).
Proof. intros H. induction M; simpl. apply smul_const; lra. apply smul_plus; auto. Qed.
Lemma smul_lim n (G : nat -> nat -> nat -> R) L : (forall M, smul n (G M)) ->
  (forall i j, (i < n)%nat -> (j < n)%nat -> Un_cv (fun M => G M i j) (L i j)) -> smul n L.
Proof.
  intros H C A HA. apply (psd_lim n (fun M i j => A i j * G M i j)). intros; apply H; auto.
  intros. apply (cv_scal (A i j) (fun M => G M i j)). auto.
Qed.
Lemma smul_exp n G : smul n G -> smul n (fun i j => exp (G i j)).
Proof.
  intros H. apply (smul_lim n (fun M i j => sum_f_R0 (fun m => / INR (fact m) * G i j ^ m) M)).
  - intros M. apply (smul_sumR n (fun m i j => / INR (fact m) * G i j ^ m)). intros m. apply smul_scal.
    left. apply Rinv_0_lt_compat. apply INR_fact_lt_0. apply smul_pow; auto.
  - intros. apply exp_cv.
Qed.

(** one-dimensional Gaussian kernel *)
Lemma smul_gauss1 n (p : nat -> R) u : 0 <= u -> smul n (fun i j => exp (- (u * ((p i - p j) * (p i - p j))))).
Proof.
  intros Hu. apply (smul_ext n (fun i j => (exp (- (u * (p i * p i))) * exp (- (u * (p j * p j)))) * exp ((2 * u) * (p i * p j)))).
  { intros. rewrite <- !exp_plus. f_equal. ring. }
  apply (smul_mult n (fun i j => exp (- (u * (p i * p i))) * exp (- (u * (p j * p j)))) (fun i j => exp ((2 * u) * (p i * p j)))).
  apply (smul_rank1 n (fun i => exp (- (u * (p i * p i))))).
  apply (smul_exp n (fun i j => 2 * u * (p i * p j))). apply (smul_scal n (2 * u) (fun i j => p i * p j)). lra. apply smul_rank1.
Qed.

(** *** the scale-invariant sums *)
Section Sums.
  Variables (a d : R).
  Hypothesis Ha : 0 < a < 1.
  Hypothesis Hd : 0 < d.
  (** term for the integer k, and the two-sided partial sum over -K..K-1 *)
  Let tm (z : R) (s : R) : R := exp (a * d * z) * (1 - exp (- (s * exp (- (d * z))))).
  Definition Ssum (K : nat) (s : R) : R := rsum (2 * K) (fun k => tm (INR k - INR K) s).

  Lemma tm_mono z s s' : 0 <= s <= s' -> 0 <= tm z s <= tm z s'.
  Proof.
    intros H. unfold tm. pose proof (exp_pos (a * d * z)). pose proof (exp_pos (- (d * z))). split.
    - apply Rmult_le_pos. lra. assert (exp (- (s * exp (- (d * z)))) <= 1). apply exp_le_1. apply Rmult_le_pos; lra. lra.
    - apply Rmult_le_compat_l. lra. apply Rplus_le_compat_l. apply Ropp_le_contravar.
      assert (- (s' * exp (- (d * z))) <= - (s * exp (- (d * z)))) as [L|L].
      { apply Ropp_le_contravar. apply Rmult_le_compat_r; lra. }
      left; apply exp_increasing; auto. rewrite L; lra.
  Qed.
  Lemma tm_shift z s : tm z (exp d * s) = exp (a * d) * tm (z - 1) s.
  Proof.
    unfold tm. rewrite <- Rmult_assoc, <- exp_plus. f_equal. f_equal; ring. f_equal. f_equal. f_equal.
    rewrite (Rmult_comm (exp d) s), Rmult_assoc. f_equal. rewrite <- exp_plus. f_equal. ring.
  Qed.
  Lemma one_minus_exp x : 1 - exp (- x) <= x.
  Proof. pose proof (exp_ineq1_le (- x)). lra. Qed.
  Lemma tm_bound_pos z s : 0 <= s -> tm z s <= s * exp (- ((1 - a) * d * z)).
  Proof.
    intros Hs. unfold tm. pose proof (exp_pos (a * d * z)).
    apply Rle_trans with (exp (a * d * z) * (s * exp (- (d * z)))). apply Rmult_le_compat_l. lra. apply one_minus_exp.
    apply Req_le. rewrite <- Rmult_assoc, (Rmult_comm _ s), Rmult_assoc, <- exp_plus. do 2 f_equal. ring.
  Qed.
  Lemma tm_bound_neg z s : 0 <= s -> tm z s <= exp (a * d * z).
  Proof.
    intros Hs. unfold tm. pose proof (exp_pos (a * d * z)). pose proof (exp_pos (- (s * exp (- (d * z))))).
    rewrite <- (Rmult_1_r (exp (a * d * z))) at 2. apply Rmult_le_compat_l; lra.
  Qed.
  Lemma geom_bound (q : R) n : 0 <= q < 1 -> rsum n (fun k => q ^ k) <= / (1 - q).
  Proof.
    intros Hq. assert (rsum n (fun k => q ^ k) = (1 - q ^ n) * / (1 - q)) as ->.
    { induction n; simpl. field; lra. rewrite IHn. field. lra. }
    pose proof (pow_le q n (proj1 Hq)). assert (0 < / (1 - q)) by (apply Rinv_0_lt_compat; lra). nra.
  Qed.
  Lemma exp_pow x k : exp (x * INR k) = exp x ^ k.
  Proof. induction k. simpl. rewrite Rmult_0_r. apply exp_0. rewrite S_INR, Rmult_plus_distr_l, exp_plus, IHk, Rmult_1_r. simpl. ring. Qed.
  Lemma exp_neg_lt1 x : 0 < x -> 0 <= exp (- x) < 1.
  Proof. intros. split. left; apply exp_pos. rewrite <- exp_0. apply exp_increasing. lra. Qed.

  Lemma Ssum_S K s : Ssum (S K) s = Ssum K s + tm (- INR (S K)) s + tm (INR K) s.
  Proof.
    unfold Ssum. replace (2 * S K)%nat with (S (S (2 * K)))%nat by lia.
    rewrite rsum_S_l. cbn [rsum]. 
    rewrite (rsum_ext (2 * K) (fun k => tm (INR (S k) - INR (S K)) s) (fun k => tm (INR k - INR K) s)).
    2:{ intros. f_equal. rewrite !S_INR. ring. }
    replace (INR 0 - INR (S K)) with (- INR (S K)) by (simpl INR; ring).
    replace (INR (S (2 * K)) - INR (S K)) with (INR K) by (rewrite !S_INR, mult_INR; simpl; ring). ring.
  Qed.
  Lemma Ssum_split K s : Ssum K s = rsum K (fun k => tm (- INR (S k)) s) + rsum K (fun k => tm (INR k) s).
  Proof. induction K. unfold Ssum; simpl; ring. rewrite Ssum_S, IHK. cbn [rsum]. ring. Qed.
  Lemma Ssum_bounded s : 0 <= s -> exists B, forall K, Ssum K s <= B.
  Proof.
    intros Hs. set (q1 := exp (- (a * d))). set (q2 := exp (- ((1 - a) * d))).
    assert (0 <= q1 < 1) by (apply exp_neg_lt1; nra). assert (0 <= q2 < 1) by (apply exp_neg_lt1; nra).
    exists (q1 * / (1 - q1) + s * / (1 - q2)). intros K. rewrite Ssum_split. apply Rplus_le_compat.
    - apply Rle_trans with (rsum K (fun k => q1 * q1 ^ k)).
      + apply rsum_le. intros k Hk. eapply Rle_trans. apply tm_bound_neg; auto. apply Req_le. change (q1 * q1 ^ k) with (q1 ^ S k).
        unfold q1. rewrite <- exp_pow. f_equal. ring.
      + rewrite rsum_scal. apply Rmult_le_compat_l. lra. apply geom_bound; auto.
    - apply Rle_trans with (rsum K (fun k => s * q2 ^ k)).
      + apply rsum_le. intros k Hk. eapply Rle_trans. apply tm_bound_pos; auto. apply Req_le. f_equal. unfold q2. rewrite <- exp_pow. f_equal. ring.
      + rewrite rsum_scal. apply Rmult_le_compat_l. lra. apply geom_bound; auto.
  Qed.
  Lemma Ssum_growing s : 0 <= s -> Un_growing (fun K => Ssum K s).
  Proof. intros Hs K. rewrite Ssum_S. pose proof (tm_mono (- INR (S K)) s s). pose proof (tm_mono (INR K) s s). lra. Qed.
  Lemma Ssum_cv s : 0 <= s -> { l | Un_cv (fun K => Ssum K s) l }.
  Proof.
    intros Hs. apply growing_cv. apply Ssum_growing; auto. destruct (Ssum_bounded s Hs) as [B HB].
    exists B. intros x [K ->]. apply HB.
  Qed.
  Definition Slim (s : R) : R := match Rle_dec 0 s with left H => proj1_sig (Ssum_cv s H) | right _ => 0 end.
  Lemma Slim_cv s : 0 <= s -> Un_cv (fun K => Ssum K s) (Slim s).
  Proof. intros Hs. unfold Slim. destruct (Rle_dec 0 s); [|lra]. apply (proj2_sig (Ssum_cv s r)). Qed.
  Lemma Ssum_mono K s s' : 0 <= s <= s' -> Ssum K s <= Ssum K s'.
  Proof. intros H. apply rsum_le. intros. apply tm_mono; auto. Qed.
  Lemma cv_le u v l m : (forall k, u k <= v k) -> Un_cv u l -> Un_cv v m -> l <= m.
  Proof.
    intros H C1 C2. assert (0 <= m - l) by (apply (cv_nonneg (fun k => v k - u k)); [intros k; specialize (H k); lra|apply CV_minus; auto]). lra.
  Qed.
  Lemma Slim_mono s s' : 0 <= s <= s' -> Slim s <= Slim s'.
  Proof. intros H. apply (cv_le (fun K => Ssum K s) (fun K => Ssum K s')). intros; apply Ssum_mono; auto. apply Slim_cv; lra. apply Slim_cv; lra. Qed.
  Lemma Slim_0 : Slim 0 = 0.
  Proof.
    apply (UL_sequence (fun K => Ssum K 0)). apply Slim_cv; lra. apply (cv_ext (fun _ => 0)).
    - intros K. unfold Ssum. rewrite rsum_0; auto. intros. unfold tm. rewrite Rmult_0_l, Ropp_0, exp_0. ring.
    - intros e He. exists 0%nat. intros. rewrite R_dist_eq; auto.
  Qed.
  Lemma Slim_1_pos : 0 < Slim 1.
  Proof.
    apply Rlt_le_trans with (Ssum 1 1).
    - rewrite Ssum_split. cbn [rsum]. pose proof (tm_mono (- INR 1) 1 1 ltac:(lra)).
      assert (0 < tm 0 1). { unfold tm. rewrite !Rmult_0_r, Ropp_0, exp_0. pose proof (exp_neg_lt1 1 ltac:(lra)). replace (-(1*1)) with (-(1)) by ring. lra. }
      destruct H as [H _]. change (INR 0) with 0. lra.
    - apply (growing_ineq (fun K => Ssum K 1)). apply Ssum_growing; lra. apply Slim_cv; lra.
  Qed.
  Lemma cv_geom0 q : 0 <= q < 1 -> Un_cv (fun k => q ^ k) 0.
  Proof. intros Hq. apply (cv_ext (fun k => q ^ k)); auto. intros e He. destruct (pow_lt_1_zero q ltac:(rewrite Rabs_right; lra) e He) as [N HN]. exists N. intros n Hn. unfold R_dist. rewrite Rminus_0_r. apply HN; auto. Qed.
  Lemma cv_squeeze0 u v : (forall k, 0 <= u k <= v k) -> Un_cv v 0 -> Un_cv u 0.
  Proof.
    intros H C e He. destruct (C e He) as [N HN]. exists N. intros n Hn. specialize (HN n Hn). specialize (H n). unfold R_dist in *.
    rewrite Rminus_0_r in *. rewrite Rabs_right in * by lra. lra.
  Qed.
  Lemma Slim_scale s : 0 <= s -> Slim (exp d * s) = exp (a * d) * Slim s.
  Proof.
    intros Hs. assert (0 <= exp d * s) as Hs'. { apply Rmult_le_pos; auto. left; apply exp_pos. }
    apply (UL_sequence (fun K => Ssum K (exp d * s))). apply Slim_cv; auto.
    apply (cv_ext (fun K => exp (a * d) * (Ssum K s + (tm (- INR (S K)) s - tm (INR K - 1) s)))).
    - intros K. symmetry. induction K.
      + unfold Ssum. simpl. replace (0 - 1) with (-1) by ring. replace (- (1)) with (-1) by ring. ring.
      + rewrite !Ssum_S, IHK, !tm_shift. replace (- INR (S K) - 1) with (- INR (S (S K))) by (rewrite (S_INR (S K)); ring).
        replace (INR (S K) - 1) with (INR K) by (rewrite S_INR; ring). ring.
    - apply cv_scal. rewrite <- (Rplus_0_r (Slim s)). apply (CV_plus (fun K => Ssum K s)). apply Slim_cv; auto.
      replace 0 with (0 - 0) by ring. apply (CV_minus (fun K => tm (- INR (S K)) s) (fun K => tm (INR K - 1) s)).
      + apply (cv_squeeze0 _ (fun k => exp (- (a * d)) ^ k)).
        * intros k. split. apply (tm_mono _ s s); lra. eapply Rle_trans. apply tm_bound_neg; auto. rewrite <- exp_pow.
          rewrite S_INR. assert (0 < a * d) by nra. destruct (Req_dec (a * d * - (INR k + 1)) (- (a * d) * INR k)) as [E|E]; [rewrite E; lra|].
          left. apply exp_increasing. lra.
        * apply cv_geom0. apply exp_neg_lt1. nra.
      + apply (cv_squeeze0 _ (fun k => (s * exp ((1 - a) * d)) * exp (- ((1 - a) * d)) ^ k)).
        * intros k. split. apply (tm_mono _ s s); lra. eapply Rle_trans. apply tm_bound_pos; auto. rewrite <- exp_pow, (Rmult_assoc s), <- exp_plus.
          apply Req_le. do 2 f_equal. ring.
        * rewrite <- (Rmult_0_r (s * exp ((1 - a) * d))). apply cv_scal. apply cv_geom0. apply exp_neg_lt1. nra.
  Qed.
  Lemma Slim_scale_nat k s : 0 <= s -> Slim (exp (d * INR k) * s) = exp (a * d * INR k) * Slim s.
  Proof.
    intros Hs. induction k.
    - simpl. rewrite !Rmult_0_r, exp_0, !Rmult_1_l. auto.
    - rewrite S_INR. replace (exp (d * (INR k + 1)) * s) with (exp d * (exp (d * INR k) * s)).
      2:{ rewrite <- Rmult_assoc, <- exp_plus. do 2 f_equal. ring. }
      rewrite Slim_scale. rewrite IHk. rewrite <- Rmult_assoc, <- exp_plus. do 2 f_equal. ring.
      apply Rmult_le_pos; auto. left; apply exp_pos.
  Qed.
  Lemma Slim_scale_Z z s : 0 <= s -> Slim (exp (d * IZR z) * s) = exp (a * d * IZR z) * Slim s.
  Proof.
    intros Hs. destruct (Z.le_gt_cases 0 z) as [Hz|Hz].
    - rewrite <- (Z2Nat.id z) by lia. rewrite <- INR_IZR_INZ. apply Slim_scale_nat; auto.
    - set (k := Z.to_nat (- z)). assert (IZR z = - INR k) as ->. { unfold k. rewrite INR_IZR_INZ, Z2Nat.id, opp_IZR by lia. ring. }
      pose proof (Slim_scale_nat k (exp (d * - INR k) * s)) as H.
      rewrite <- Rmult_assoc, <- exp_plus in H. replace (d * INR k + d * - INR k) with 0 in H by ring. rewrite exp_0, Rmult_1_l in H.
      rewrite H by (apply Rmult_le_pos; auto; left; apply exp_pos). rewrite <- Rmult_assoc, <- exp_plus.
      replace (a * d * - INR k + a * d * INR k) with 0 by ring. rewrite exp_0. ring.
  Qed.
  Lemma exp_le x y : x <= y -> exp x <= exp y.
  Proof. intros [H|H]. left; apply exp_increasing; auto. rewrite H; lra. Qed.
  (** S(exp r) is exp(a r) S(1) up to a factor exp(a d) *)
  Lemma Slim_power r : exp (a * r - a * d) * Slim 1 <= Slim (exp r) <= exp (a * r + a * d) * Slim 1.
  Proof.
    pose proof Slim_1_pos as H1. set (z := Int_part (r / d)). destruct (base_Int_part (r / d)) as [B1 B2]. fold z in B1, B2.
    assert (d * IZR z <= r < d * IZR z + d) as [L U].
    { assert (r = d * (r / d)) as E by (field; lra). rewrite E. split. apply Rmult_le_compat_l; lra.
      replace (d * IZR z + d) with (d * (IZR z + 1)) by ring. apply Rmult_lt_compat_l; lra. }
    split.
    - apply Rle_trans with (Slim (exp (d * IZR z) * 1)).
      + rewrite Slim_scale_Z by lra. apply Rmult_le_compat_r. lra. apply exp_le. nra.
      + apply Slim_mono. rewrite Rmult_1_r. split. left; apply exp_pos. apply exp_le. lra.
    - apply Rle_trans with (Slim (exp (d * IZR (z + 1)) * 1)).
      + apply Slim_mono. split. left; apply exp_pos. rewrite Rmult_1_r. apply exp_le. rewrite plus_IZR. lra.
      + rewrite Slim_scale_Z by lra. apply Rmult_le_compat_r. lra. apply exp_le. rewrite plus_IZR. nra.
  Qed.
  (** the kernel built from S multiplies psd matrices *)
  Lemma smul_Ssum n (p : nat -> R) c K : 0 <= c -> smul n (fun i j => exp (- (c * Ssum K ((p i - p j) * (p i - p j))))).
  Proof.
    intros Hc. set (w := fun k => exp (a * d * (INR k - INR K))). set (u := fun k => exp (- (d * (INR k - INR K)))).
    apply (smul_ext n (fun i j => exp (- (c * rsum (2 * K) w)) * exp (c * rsum (2 * K) (fun k => w k * exp (- (u k * ((p i - p j) * (p i - p j)))))))).
    - intros. rewrite <- exp_plus. f_equal. unfold Ssum. rewrite <- !rsum_scal, <- !rsum_opp, <- rsum_plus. apply rsum_ext. intros k Hk.
      unfold tm, w, u. rewrite (Rmult_comm ((p i - p j) * (p i - p j))). ring.
    - apply smul_scal. left; apply exp_pos.
      apply (smul_exp n (fun i j => c * rsum (2 * K) (fun k => w k * exp (- (u k * ((p i - p j) * (p i - p j))))))).
      apply (smul_scal n c (fun i j => rsum (2 * K) (fun k => w k * exp (- (u k * ((p i - p j) * (p i - p j))))))); auto.
      apply (smul_rsum n (fun k i j => w k * exp (- (u k * ((p i - p j) * (p i - p j)))))). intros k. apply smul_scal. left; apply exp_pos.
      apply smul_gauss1. left; apply exp_pos.
  Qed.
  Lemma cv_exp u l : Un_cv u l -> Un_cv (fun k => exp (u k)) (exp l).
  Proof. intros C. apply (continuity_seq exp u l); auto. apply derivable_continuous_pt. apply derivable_pt_exp. Qed.
  Lemma smul_Slim n (p : nat -> R) c : 0 <= c -> smul n (fun i j => exp (- (c * Slim ((p i - p j) * (p i - p j))))).
  Proof.
    intros Hc. apply (smul_lim n (fun K i j => exp (- (c * Ssum K ((p i - p j) * (p i - p j)))))).
    intros K. apply smul_Ssum; auto. intros i j _ _. apply (cv_exp (fun K => - (c * Ssum K ((p i - p j) * (p i - p j))))).
    apply (CV_opp (fun K => c * Ssum K ((p i - p j) * (p i - p j)))). apply (cv_scal c (fun K => Ssum K ((p i - p j) * (p i - p j)))).
    apply Slim_cv. apply Rle_0_sqr.
  Qed.
End Sums.

(** the approximations of s^a converge *)
Lemma cv_squeeze l u v w : (forall k : nat, u k <= v k <= w k) -> Un_cv u l -> Un_cv w l -> Un_cv v l.
Proof.
  intros H C1 C2 e He. destruct (C1 e He) as [N1 H1]. destruct (C2 e He) as [N2 H2]. exists (N1 + N2)%nat. intros n Hn.
  specialize (H1 n ltac:(lia)). specialize (H2 n ltac:(lia)). specialize (H n). unfold R_dist in *.
  apply Rabs_def2 in H1. apply Rabs_def2 in H2. apply Rabs_def1; lra.
Qed.
Lemma cv_const c : Un_cv (fun _ => c) c.
Proof. intros e He. exists 0%nat. intros. rewrite R_dist_eq; auto. Qed.
Definition dstep (m : nat) : R := / (INR m + 1).
Lemma dstep_pos m : 0 < dstep m.
Proof. apply Rinv_0_lt_compat. pose proof (pos_INR m). lra. Qed.
Lemma dstep_cv : Un_cv dstep 0.
Proof.
  intros e He. destruct (archimed_cor1 e He) as (N & HN & HN'). exists N. intros n Hn. unfold R_dist, dstep. rewrite Rminus_0_r.
  pose proof (pos_INR n). assert (INR N <= INR n) by (apply le_INR; auto). assert (0 < INR N) by (apply lt_0_INR; auto).
  rewrite Rabs_right. 2:{ apply Rle_ge. left. apply Rinv_0_lt_compat. lra. }
  apply Rlt_trans with (/ INR N); auto. apply Rinv_lt_contravar. apply Rmult_lt_0_compat; lra. lra.
Qed.
Definition Tapp (a : R) (Ha : 0 < a < 1) (m : nat) (s : R) : R :=
  Slim a (dstep m) Ha (dstep_pos m) s / Slim a (dstep m) Ha (dstep_pos m) 1.
Lemma Tapp_cv a (Ha : 0 < a < 1) s : 0 <= s -> Un_cv (fun m => Tapp a Ha m s) (if Req_EM_T s 0 then 0 else exp (a * ln s)).
Proof.
  intros Hs. destruct (Req_EM_T s 0) as [->|Hne].
  - apply (cv_ext (fun _ => 0)). intros; unfold Tapp. rewrite Slim_0. unfold Rdiv; ring. apply cv_const.
  - assert (0 < s) by lra.
    apply (cv_squeeze _ (fun m => exp (a * ln s - a * dstep m)) _ (fun m => exp (a * ln s + a * dstep m))).
    + intros m. pose proof (Slim_1_pos a (dstep m) Ha (dstep_pos m)) as H1.
      pose proof (Slim_power a (dstep m) Ha (dstep_pos m) (ln s)) as [L U]. rewrite exp_ln in * by auto. unfold Tapp.
      split. apply Rmult_le_reg_r with (Slim a (dstep m) Ha (dstep_pos m) 1); auto. unfold Rdiv. rewrite Rmult_assoc, Rinv_l; lra.
      apply Rmult_le_reg_r with (Slim a (dstep m) Ha (dstep_pos m) 1); auto. unfold Rdiv. rewrite Rmult_assoc, Rinv_l; lra.
    + replace (exp (a * ln s)) with (exp (a * ln s - a * 0)) by (f_equal; ring). apply (cv_exp (fun m => a * ln s - a * dstep m)). apply (CV_minus (fun _ => a * ln s) (fun m => a * dstep m)).
      apply cv_const. apply cv_scal. apply dstep_cv.
    + replace (exp (a * ln s)) with (exp (a * ln s + a * 0)) by (f_equal; ring). apply (cv_exp (fun m => a * ln s + a * dstep m)). apply (CV_plus (fun _ => a * ln s) (fun m => a * dstep m)).
      apply cv_const. apply cv_scal. apply dstep_cv.
Qed.
Lemma smul_power_open n (p : nat -> R) theta g : 0 <= theta -> 0 < g < 2 -> smul n (fun i j => exp (- (theta * Rpow (Rabs (p i - p j)) g))).
Proof.
  intros Ht Hg. assert (0 < g / 2 < 1) as Ha by lra. set (s := fun i j => (p i - p j) * (p i - p j)).
  apply (smul_lim n (fun m i j => exp (- (theta * Tapp (g / 2) Ha m (s i j))))).
  - intros m. pose proof (Slim_1_pos (g / 2) (dstep m) Ha (dstep_pos m)) as H1.
    apply (smul_ext n (fun i j => exp (- ((theta / Slim (g / 2) (dstep m) Ha (dstep_pos m) 1) * Slim (g / 2) (dstep m) Ha (dstep_pos m) (s i j))))).
    { intros. f_equal. f_equal. unfold Tapp. field. lra. }
    apply smul_Slim. apply Rmult_le_pos; auto. left. apply Rinv_0_lt_compat; auto.
  - intros i j _ _. apply (cv_exp (fun m => - (theta * Tapp (g / 2) Ha m (s i j)))). apply (CV_opp (fun m => theta * Tapp (g / 2) Ha m (s i j))).
    apply (cv_scal theta (fun m => Tapp (g / 2) Ha m (s i j))).
    replace (Rpow (Rabs (p i - p j)) g) with (if Req_EM_T (s i j) 0 then 0 else exp (g / 2 * ln (s i j))). apply Tapp_cv. apply Rle_0_sqr.
    unfold Rpow, s. destruct (Req_EM_T (Rabs (p i - p j)) 0) as [E|E].
    + destruct (Req_EM_T g 0); [lra|]. destruct (Req_EM_T ((p i - p j) * (p i - p j)) 0) as [|N]; auto.
      exfalso. apply N. destruct (Req_dec (p i - p j) 0) as [Z|Z]. rewrite Z; ring. exfalso. apply (Rabs_no_R0 _ Z). auto.
    + assert (p i - p j <> 0) as Z. { intros Z. rewrite Z, Rabs_R0 in E. lra. }
      destruct (Req_EM_T ((p i - p j) * (p i - p j)) 0) as [N|N]. { exfalso. apply Rmult_integral in N. tauto. }
      unfold Rpower. f_equal. pose proof (Rabs_pos_lt _ Z). rewrite <- (Rabs_right ((p i - p j) * (p i - p j))) by (apply Rle_ge, Rle_0_sqr).
      rewrite Rabs_mult. rewrite ln_mult by auto. field.
Qed.
Lemma smul_power n (p : nat -> R) theta g : 0 <= theta -> 0 <= g <= 2 -> smul n (fun i j => exp (- (theta * Rpow (Rabs (p i - p j)) g))).
Proof.
  intros Ht Hg. destruct (Req_dec g 0) as [->|H0]; [|destruct (Req_dec g 2) as [->|H2]].
  - apply (smul_ext n (fun _ _ => exp (- theta))). 2: apply smul_const; left; apply exp_pos.
    intros. f_equal. f_equal. unfold Rpow. destruct (Req_EM_T (Rabs (p i - p j)) 0) as [E|E]. destruct (Req_EM_T 0 0); lra.
    rewrite Rpower_O. ring. pose proof (Rabs_pos (p i - p j)). lra.
  - apply (smul_ext n (fun i j => exp (- (theta * ((p i - p j) * (p i - p j)))))). 2: apply smul_gauss1; auto.
    intros. f_equal. f_equal. f_equal. unfold Rpow. destruct (Req_EM_T (Rabs (p i - p j)) 0) as [E|E].
    + destruct (Req_EM_T 2 0); [lra|]. destruct (Req_dec (p i - p j) 0) as [Z|Z]. rewrite Z; ring. exfalso. apply (Rabs_no_R0 _ Z). auto.
    + pose proof (Rabs_pos (p i - p j)). replace 2 with (INR 2) by (simpl; lra). rewrite Rpower_pow by lra. simpl. rewrite Rmult_1_r, <- Rabs_mult.
      rewrite Rabs_right; auto. apply Rle_ge, Rle_0_sqr.
  - apply smul_power_open; auto. lra.
Qed.
(** the d-dimensional exponential kernel *)
Lemma smul_exp_kernel n dd (p : nat -> nat -> R) (theta gamma : nat -> R) :
  (forall k, (k < dd)%nat -> 0 <= theta k) -> (forall k, (k < dd)%nat -> 0 <= gamma k <= 2) ->
  smul n (fun i j => exp (- rsum dd (fun k => theta k * Rpow (Rabs (p i k - p j k)) (gamma k)))).
Proof.
  induction dd; intros Ht Hg.
  - apply (smul_ext n (fun _ _ => 1)). intros. simpl. rewrite Ropp_0, exp_0; auto. apply smul_const; lra.
  - apply (smul_ext n (fun i j => exp (- rsum dd (fun k => theta k * Rpow (Rabs (p i k - p j k)) (gamma k))) * exp (- (theta dd * Rpow (Rabs (p i dd - p j dd)) (gamma dd))))).
    { intros. rewrite <- exp_plus. f_equal. simpl. ring. }
    apply (smul_mult n (fun i j => exp (- rsum dd (fun k => theta k * Rpow (Rabs (p i k - p j k)) (gamma k)))) (fun i j => exp (- (theta dd * Rpow (Rabs (p i dd - p j dd)) (gamma dd))))).
    apply IHdd; auto. apply (smul_power n (fun i => p i dd)); auto.
Qed.
