From Coq Require Import ZArith Reals Lra Lia Bool SpecFloat Psatz.
From Flocq Require Import Core BinarySingleNaN Relative Plus_error.
From Verif Require Import Base Num NumFloat FloatSpec FloatFlocq.
Local Open Scope R_scope.

Lemma diff_small a b : fmt a -> fmt b -> Rabs (a - b) <= bpow radix2 (-1021) -> fmt (a - b).
Proof.
  intros Fa Fb H. unfold Rminus in *. apply (FLT_format_plus_small radix2 (-1074) 53); auto. apply generic_format_opp; auto.
Qed.
Lemma gap D : fmt D -> bpow radix2 (-1021) <= D -> D - pred radix2 fexp64 D < bpow radix2 (-52) * D.
Proof.
  intros FD HD. assert (0 < D) as P by (pose proof (bpow_gt_0 radix2 (-1021)); lra).
  pose proof (mag_gt_bpow radix2 D (-1021) ltac:(rewrite Rabs_pos_eq; lra)) as M.
  rewrite pred_eq_pos by lra. unfold pred_pos. set (m := mag radix2 D) in *.
  assert (bpow radix2 (m - 1) <= D) as L.
  { pose proof (bpow_mag_le radix2 D ltac:(lra)) as Q. rewrite Rabs_pos_eq in Q by lra. exact Q. }
  destruct (Req_bool_spec D (bpow radix2 (m - 1))) as [E|N].
  - replace (D - (D - bpow radix2 (fexp64 (m - 1)))) with (bpow radix2 (fexp64 (m - 1))) by ring.
    apply Rlt_le_trans with (bpow radix2 (-52 + (m - 1))). apply bpow_lt. unfold FLT_exp. lia.
    rewrite bpow_plus. apply Rmult_le_compat_l; [apply bpow_ge_0|auto].
  - replace (D - (D - ulp radix2 fexp64 D)) with (ulp radix2 fexp64 D) by ring. rewrite ulp_neq_0 by lra. unfold cexp. fold m.
    replace (bpow radix2 (fexp64 m)) with (bpow radix2 (-52 + (m - 1))) by (f_equal; unfold FLT_exp; lia).
    rewrite bpow_plus. apply Rmult_lt_compat_l; [apply bpow_gt_0|lra].
Qed.
(** below 1 means at most 1 - 2^-53 *)
Lemma below_one u : fmt u -> u < 1 -> u <= 1 - bpow radix2 (-53).
Proof.
  intros Fu H. assert (u <= pred radix2 fexp64 1) as Q. { apply pred_ge_gt; auto. typeclasses eauto. change 1 with (IZR 1). apply fmt_Z. cbn. lia. }
  change 1 with (bpow radix2 0) in Q at 1. rewrite pred_bpow in Q. change (bpow radix2 0) with 1 in Q. exact Q.
Qed.
Lemma unif_real a b u : fmt a -> fmt b -> fmt u -> a <= b -> 0 <= u < 1 ->
  a <= rnd (rnd (u * rnd (b - a)) + a) <= b.
Proof.
  intros Fa Fb Fu Hab [U0 U1]. set (E := b - a). set (D := rnd E). set (p := rnd (u * D)).
  assert (0 <= E) as E0 by (unfold E; lra).
  assert (0 <= D) as D0 by (apply rnd_lb; [apply fmt_0|auto]).
  assert (fmt D) as FD by (apply generic_format_round; typeclasses eauto).
  assert (0 <= p) as P0. { apply rnd_lb; [apply fmt_0|]. apply Rmult_le_pos; auto. }
  assert (p <= D) as PD. { apply rnd_ub; auto. nra. }
  split. { apply rnd_lb; auto. lra. }
  apply rnd_ub; auto. enough (p <= E) by (unfold E in *; lra).
  destruct (Rle_or_lt D E) as [|HDE]; [lra|].
  destruct (Rle_or_lt E (bpow radix2 (-1021))) as [S|L].
  { unfold D in HDE. rewrite rnd_id in HDE. lra. apply diff_small; auto. fold E. rewrite Rabs_pos_eq; auto. }
  assert (pred radix2 fexp64 D <= E) as PE.
  { destruct (Rle_or_lt (pred radix2 fexp64 D) E) as [|C]; auto. exfalso.
    assert (D <= pred radix2 fexp64 D). { apply rnd_ub; [apply generic_format_pred; [typeclasses eauto|auto]|lra]. }
    pose proof (pred_lt_id radix2 fexp64 D ltac:(lra)). lra. }
  pose proof (gap D FD ltac:(lra)) as G. pose proof (below_one u Fu U1) as U2.
  apply Rle_trans with (pred radix2 fexp64 D); auto. apply round_N_le_midp. typeclasses eauto. apply generic_format_pred; [typeclasses eauto|auto].
  rewrite succ_pred by (auto; typeclasses eauto).
  replace (bpow radix2 (-52)) with (2 * bpow radix2 (-53)) in G by (change (-52)%Z with (1 + -53)%Z; rewrite bpow_plus; reflexivity).
  pose proof (bpow_gt_0 radix2 (-53)). assert (u * D <= (1 - bpow radix2 (-53)) * D) by (apply Rmult_le_compat_r; lra). lra.
Qed.

(** *** rounding errors *)
Notation uu := (bpow radix2 (-53)).
Lemma uu_small : 0 < uu <= / 1000.
Proof. split. apply bpow_gt_0. rewrite bpow_powerRZ. cbn -[powerRZ IZR]. change (powerRZ 2 (-53)) with (/ (2 ^ 53)). apply Rinv_le; [lra|]. change 1000 with (INR 1000 + 0) || idtac. assert (2 ^ 10 <= 2 ^ 53) by (apply Rle_pow; [lra|lia]). lra. Qed.
Lemma half_eps : / 2 * bpow radix2 (-(53) + 1) = uu.
Proof. change (-(53) + 1)%Z with (1 + -53)%Z. rewrite bpow_plus. change (bpow radix2 1) with 2. lra. Qed.
Lemma rel x : bpow radix2 (-1022) <= Rabs x -> Rabs (rnd x - x) <= uu * Rabs x.
Proof.
  intros H. pose proof (relative_error_N_FLT radix2 (-1074) 53 ltac:(lia) (fun x => negb (Z.even x)) x H) as Q. rewrite half_eps in Q. exact Q.
Qed.
Lemma sum_rel a b : fmt a -> fmt b -> Rabs (rnd (a + b) - (a + b)) <= uu * Rabs (a + b).
Proof.
  intros Fa Fb. destruct (Rle_or_lt (Rabs (a + b)) (bpow radix2 (-1021))) as [S|L].
  - rewrite rnd_id. rewrite Rminus_eq_0, Rabs_R0. apply Rmult_le_pos; [apply bpow_ge_0|apply Rabs_pos]. apply (FLT_format_plus_small radix2 (-1074) 53); auto.
  - apply rel. apply Rle_trans with (bpow radix2 (-1021)); [apply bpow_le; lia|lra].
Qed.
Lemma fmt_1 : fmt 1.
Proof. change 1 with (IZR 1). apply fmt_Z. cbn. lia. Qed.
Lemma inv_n n : (1 <= n <= 2 ^ 53)%Z -> rnd (rnd (1 / IZR n) * IZR n) <= 1.
Proof.
  intros H. assert (1 <= IZR n) as N1 by (apply IZR_le; lia). assert (IZR n <= bpow radix2 53) as N2 by (change (bpow radix2 53) with (IZR (2 ^ 53)); apply IZR_le; lia).
  destruct (relative_error_N_FLT'_ex radix2 (-1074) 53 ltac:(lia) (fun x => negb (Z.even x)) (1 / IZR n)) as (eps & eta & He & Ht & Hz & Eq).
  unfold u_ro in He. rewrite half_eps in He. pose proof uu_small as U.
  apply Rabs_le_inv in He. apply Rabs_le_inv in Ht.
  apply round_N_le_midp. typeclasses eauto. apply fmt_1. rewrite succ_eq_pos by lra.
  assert (ulp radix2 fexp64 1 = 2 * uu) as Hu. { change 1 with (bpow radix2 0) at 1. rewrite ulp_bpow. change (fexp64 (0 + 1)) with (1 + -53)%Z. rewrite bpow_plus. reflexivity. }
  rewrite Hu. rewrite Eq. replace ((1 / IZR n * (1 + eps) + eta) * IZR n) with (1 + eps + eta * IZR n) by (field; lra).
  assert (uu / (1 + uu) < uu) as Lu. { apply Rmult_lt_reg_r with (1 + uu); [lra|]. replace (uu / (1 + uu) * (1 + uu)) with uu by (field; lra). nra. }
  apply Rmult_integral in Hz. destruct Hz as [-> | ->]; [|lra].
  assert (eta * IZR n <= bpow radix2 (-1074) * bpow radix2 53).
  { apply Rle_trans with (bpow radix2 (-1074) * IZR n). apply Rmult_le_compat_r; [lra|]. pose proof (bpow_gt_0 radix2 (-1074)). lra. apply Rmult_le_compat_l; [apply bpow_ge_0|auto]. }
  rewrite <- bpow_plus in H0. assert (bpow radix2 (-1074 + 53) < uu) by (apply bpow_lt; lia). lra.
Qed.
Lemma upper_real lb ub M : fmt lb -> fmt ub -> lb <= ub -> Rabs lb <= M -> Rabs ub <= M ->
  lb <= rnd (rnd (ub - lb) + lb) <= ub + 4 * uu * M.
Proof.
  intros Fl Fu H L U. pose proof uu_small as Us. assert (0 <= M) by (pose proof (Rabs_pos lb); lra).
  pose proof (sum_rel ub (- lb) Fu (generic_format_opp _ _ _ Fl)) as E1. fold (ub - lb) in E1. set (D := rnd (ub - lb)) in *.
  assert (fmt D) as FD by (apply generic_format_round; typeclasses eauto).
  assert (0 <= D) as D0 by (apply rnd_lb; [apply fmt_0|lra]).
  split. { apply rnd_lb; auto. lra. }
  rewrite (Rabs_pos_eq (ub - lb)) in E1 by lra. pose proof (sum_rel D lb FD Fl) as E2.
  apply Rabs_le_inv in E1. apply Rabs_le_inv in E2. apply Rabs_le_inv in L. apply Rabs_le_inv in U.
  assert (uu * (ub - lb) <= uu * (2 * M)) as Q by (apply Rmult_le_compat_l; lra).
  assert (uu * (uu * (2 * M)) <= / 1000 * (uu * (2 * M))) as Q2 by (apply Rmult_le_compat_r; [apply Rmult_le_pos; lra|lra]).
  assert (Rabs (D + lb) <= M + uu * (2 * M)) as Q3 by (apply Rabs_le; lra).
  assert (uu * Rabs (D + lb) <= uu * (M + uu * (2 * M))) as Q4 by (apply Rmult_le_compat_l; lra).
  assert (0 <= uu * M) by (apply Rmult_le_pos; lra). lra.
Qed.
Lemma denorm_real n w lb ub : (1 <= n <= 2 ^ 53)%Z -> fmt lb -> fmt ub -> fmt w -> lb <= ub -> 0 <= w <= rnd (1 / IZR n) ->
  0 <= rnd (w * IZR n) <= 1 /\ 0 <= rnd (rnd (w * IZR n) * rnd (ub - lb)) <= rnd (ub - lb) /\
  lb <= rnd (rnd (rnd (w * IZR n) * rnd (ub - lb)) + lb) <= rnd (rnd (ub - lb) + lb).
Proof.
  intros Hn Fl Fu Fw H [W0 W1]. assert (1 <= IZR n) as N1 by (apply IZR_le; lia).
  assert (0 <= rnd (w * IZR n)) as A0. { apply rnd_lb; [apply fmt_0|]. nra. }
  assert (rnd (w * IZR n) <= 1) as A1. { eapply Rle_trans; [|apply (inv_n n Hn)]. apply rnd_le. apply Rmult_le_compat_r; lra. }
  set (t := rnd (w * IZR n)) in *. set (D := rnd (ub - lb)).
  assert (fmt D) as FD by (apply generic_format_round; typeclasses eauto).
  assert (0 <= D) as D0 by (apply rnd_lb; [apply fmt_0|lra]).
  assert (0 <= rnd (t * D)) as P0 by (apply rnd_lb; [apply fmt_0|nra]).
  assert (rnd (t * D) <= D) as P1 by (apply rnd_ub; [auto|nra]).
  split; auto. split; auto. split. apply rnd_lb; auto; lra. apply rnd_le; lra.
Qed.
(** an integer multiple of a double is rounded with a relative error, subnormal or not *)
Lemma mult_rel k dx : fmt dx -> Rabs (rnd (IZR k * dx) - IZR k * dx) <= uu * Rabs (IZR k * dx).
Proof.
  intros Fd. assert (exists m, IZR k * dx = F2R (Float radix2 m (-1074))) as (m & Em).
  { pose (e := cexp radix2 fexp64 dx). pose (z := Ztrunc (scaled_mantissa radix2 fexp64 dx)). assert (-1074 <= e)%Z as He by (unfold e, cexp, FLT_exp; lia).
    assert (dx = IZR z * bpow radix2 e) as Ed by exact Fd. clearbody z e. rewrite Ed. clear Ed Fd.
    exists (k * z * Zpower radix2 (e - -1074))%Z. unfold F2R. cbn [Fnum Fexp]. rewrite !mult_IZR, IZR_Zpower by lia.
    replace (bpow radix2 e) with (bpow radix2 (e - -1074) * bpow radix2 (-1074)) by (rewrite <- bpow_plus; f_equal; lia). ring. }
  destruct (relative_error_N_FLT_F2R_emin_ex radix2 (-1074) 53 ltac:(lia) (fun x => negb (Z.even x)) m) as (eps & He & Eq).
  cbv zeta in Eq. rewrite <- Em in Eq. rewrite half_eps in He. rewrite Eq.
  replace (IZR k * dx * (1 + eps) - IZR k * dx) with (eps * (IZR k * dx)) by ring. rewrite Rabs_mult. apply Rmult_le_compat_r; [apply Rabs_pos|auto].
Qed.
(** k steps of size dx from the lower bound, when k dx is at most the (rounded) width up to one more rounding *)
Lemma steps_real k lb ub dx M : fmt lb -> fmt ub -> fmt dx -> lb <= ub -> 0 <= dx -> Rabs lb <= M -> Rabs ub <= M ->
  (0 <= k)%Z -> IZR k * dx <= rnd (ub - lb) * (1 + uu) ->
  0 <= rnd (IZR k * dx) <= 3 * M /\ lb <= rnd (lb + rnd (IZR k * dx)) <= ub + 8 * uu * M.
Proof.
  intros Fl Fu Fd H D0 L U K0 KD. pose proof uu_small as Us. assert (0 <= M) as M0 by (pose proof (Rabs_pos lb); lra). assert (0 <= IZR k) as K1 by (apply IZR_le in K0; auto).
  pose proof (sum_rel ub (- lb) Fu (generic_format_opp _ _ _ Fl)) as E1. fold (ub - lb) in E1. set (D := rnd (ub - lb)) in *.
  assert (0 <= D) as DD by (apply rnd_lb; [apply fmt_0|lra]).
  rewrite (Rabs_pos_eq (ub - lb)) in E1 by lra. apply Rabs_le_inv in E1.
  pose proof (mult_rel k dx Fd) as E2. assert (0 <= IZR k * dx) as KP by (apply Rmult_le_pos; lra). rewrite (Rabs_pos_eq (IZR k * dx)) in E2 by auto. apply Rabs_le_inv in E2.
  assert (0 <= rnd (IZR k * dx)) as P0 by (apply rnd_lb; [apply fmt_0|auto]).
  assert (fmt (rnd (IZR k * dx))) as FP by (apply generic_format_round; typeclasses eauto).
  set (p := rnd (IZR k * dx)) in *. set (q := IZR k * dx) in *. pose proof (sum_rel lb p Fl FP) as E3. apply Rabs_le_inv in E3.
  apply Rabs_le_inv in L. apply Rabs_le_inv in U. remember (ub - lb) as E eqn:HE.
  assert (0 <= E <= 2 * M) as EM by lra. assert (0 <= uu * M) as UM by (apply Rmult_le_pos; lra).
  assert (uu * E <= uu * (2 * M)) as Q1 by (apply Rmult_le_compat_l; lra).
  assert (uu * (uu * (2 * M)) <= / 1000 * (uu * (2 * M))) as Q2 by (apply Rmult_le_compat_r; [apply Rmult_le_pos; lra|lra]).
  assert (uu * D <= uu * (E + uu * (2 * M))) as Q3 by (apply Rmult_le_compat_l; lra).
  assert (q <= E + uu * (2 * M) + uu * (2 * M) + / 1000 * (uu * (2 * M))) as Q4 by lra.
  assert (uu * q <= uu * (2 * M + / 100 * M)) as Q5. { apply Rmult_le_compat_l; [lra|]. assert (uu * (2 * M) <= / 1000 * (2 * M)) by (apply Rmult_le_compat_r; lra). lra. }
  assert (p <= E + 61 / 10 * (uu * M)) as Q6 by lra.
  assert (uu * M <= / 1000 * M) as Q7 by (apply Rmult_le_compat_r; lra).
  split; [lra|]. split. { apply rnd_lb; auto. lra. }
  assert (Rabs (lb + p) <= M + / 100 * M) as Q8 by (apply Rabs_le; lra).
  assert (uu * Rabs (lb + p) <= uu * (M + / 100 * M)) as Q9 by (apply Rmult_le_compat_l; lra). lra.
Qed.

Lemma discrete_real k lb ub dx M : fmt lb -> fmt ub -> fmt dx -> lb <= ub -> 0 < dx -> Rabs lb <= M -> Rabs ub <= M ->
  (0 <= k)%Z -> IZR k <= rnd (rnd (ub - lb) / dx) ->
  0 <= rnd (IZR k * dx) <= 3 * M /\ lb <= rnd (lb + rnd (IZR k * dx)) <= ub + 8 * uu * M.
Proof.
  intros Fl Fu Fd H D0 L U K0 Kq. pose proof uu_small as Us. assert (0 <= M) as M0 by (pose proof (Rabs_pos lb); lra). assert (0 <= IZR k) as K1 by (apply IZR_le in K0; auto).
  pose proof (sum_rel ub (- lb) Fu (generic_format_opp _ _ _ Fl)) as E1. fold (ub - lb) in E1. set (D := rnd (ub - lb)) in *.
  assert (0 <= D) as DD by (apply rnd_lb; [apply fmt_0|lra]).
  apply steps_real; auto; [lra|]. fold D.
  destruct (Z.eq_dec k 0) as [->|Nk]. { rewrite Rmult_0_l. apply Rmult_le_pos; lra. }
    assert (1 <= IZR k) by (apply IZR_le; lia).
    assert (bpow radix2 (-1022) <= D / dx) as Q.
    { destruct (Rle_or_lt (bpow radix2 (-1022)) (D / dx)); auto. exfalso. assert (rnd (D / dx) <= bpow radix2 (-1022)) by (apply rnd_ub; [apply fmt_pow; lia|lra]).
      assert (bpow radix2 (-1022) < bpow radix2 0) by (apply bpow_lt; lia). change (bpow radix2 0) with 1 in *. lra. }
    assert (0 <= D / dx) as QQ by (pose proof (bpow_gt_0 radix2 (-1022)); lra).
    pose proof (rel (D / dx) ltac:(rewrite Rabs_pos_eq; lra)) as R. rewrite (Rabs_pos_eq (D / dx)) in R by lra. apply Rabs_le_inv in R.
    assert (IZR k <= D / dx * (1 + uu)) by lra. apply Rle_trans with (D / dx * (1 + uu) * dx). apply Rmult_le_compat_r; lra.
    right. field. lra.
Qed.
(** rows of a Latin hypercube: k of n equal parts *)
Lemma parts_real k n lb ub M : fmt lb -> fmt ub -> lb <= ub -> Rabs lb <= M -> Rabs ub <= M -> (0 <= k <= n)%Z -> (1 <= n <= 2 ^ 53)%Z ->
  bpow radix2 (-900) <= ub - lb ->
  0 <= rnd (IZR k * rnd (rnd (ub - lb) / IZR n)) <= 3 * M /\ lb <= rnd (lb + rnd (IZR k * rnd (rnd (ub - lb) / IZR n))) <= ub + 8 * uu * M.
Proof.
  intros Fl Fu H L U K Hn W. assert (1 <= IZR n) as N1 by (apply IZR_le; lia). assert (IZR n <= bpow radix2 53) as N2 by (change (bpow radix2 53) with (IZR (2 ^ 53)); apply IZR_le; lia).
  assert (bpow radix2 (-900) <= rnd (ub - lb)) as D0 by (apply rnd_lb; [apply fmt_pow; lia|auto]). set (D := rnd (ub - lb)) in *.
  assert (0 < bpow radix2 (-900)) as P by apply bpow_gt_0. assert (0 < / IZR n) as PI by (apply Rinv_0_lt_compat; lra).
  assert (0 <= D / IZR n) as Q0 by (apply Rmult_le_pos; lra).
  assert (bpow radix2 (-1022) <= D / IZR n) as Q.
  { apply Rle_trans with (bpow radix2 (-900) * / bpow radix2 53). rewrite <- bpow_opp, <- bpow_plus. apply bpow_le. lia.
    apply Rmult_le_compat; auto. lra. apply Rlt_le, Rinv_0_lt_compat, bpow_gt_0. apply Rinv_le; lra. }
  pose proof (rel (D / IZR n) ltac:(rewrite Rabs_pos_eq; lra)) as R. rewrite (Rabs_pos_eq (D / IZR n)) in R by lra. apply Rabs_le_inv in R.
  assert (0 <= rnd (D / IZR n)) as Q1 by (apply rnd_lb; [apply fmt_0|auto]).
  apply steps_real; auto. apply generic_format_round; typeclasses eauto. lia. fold D.
  apply Rle_trans with (IZR n * (D / IZR n * (1 + uu))). apply Rmult_le_compat; auto. apply IZR_le; lia. apply IZR_le; lia. lra. right. field. lra.
Qed.
