(** Predictions, variances and the linear part of the Kriging model. *)
From Coq Require Import Reals Lra List Arith Lia ZArith Bool Permutation.
From Verif Require Import Base StM Num RealNum RSpec VecModel MatModel MatLemmas MatSpec VecProofs VecReal MatProofs MatProofs2 MatReal CholProofs CholProofs2 DetSpec LuProofs LuProofs2 LuComplete
  LinSolverModel LinSolverProofs BoundsModel CorrModel CorrProofs CorrSpec PsdKernel CorrObj DataModel DataSpec DataProofs DataReal KrigModel KrigSpec KrigMath KrigProofs.
Import ListNotations.
Local Open Scope R_scope.

Section Solved.
  Context (d : nat) (th ga : list R) (eps : R) (pts : list (list R)) (HP : kparams d th ga) (He : kregular d th ga eps pts).
  Local Notation n := (length pts).
  Local Notation A := (kmat d th ga eps pts).

  Lemma ones_pos (v : nat -> R) : (0 < n)%nat -> (forall i, (i < n)%nat -> mv n A v i = 1) -> 0 < rsum n v.
  Proof.
    intros Hn V. destruct (Rlt_le_dec 0 (rsum n v)) as [|Hle]; auto. exfalso.
    assert (forall j, (j < n)%nat -> v j = 0) as Z by (apply (posdef_zero n A); [apply He|]; rewrite quad_mv, (rsum_ext n _ v) by (intros; rewrite V by auto; ring); lra).
    specialize (V 0%nat Hn). unfold mv in V. rewrite rsum_0 in V. lra. intros j Hj. rewrite Z by auto. ring.
  Qed.
  (** 1^T R^-1 1 >= n / (n + eps) *)
  Lemma ones_lower (v : nat -> R) : (0 < n)%nat -> (forall i, (i < n)%nat -> mv n A v i = 1) -> INR n / (INR n + eps) <= rsum n v.
  Proof.
    intros Hn V. assert (0 <= eps) as He0 by apply He. assert (1 <= INR n) as N1 by (apply (le_INR 1); lia). set (t := 1 / (INR n + eps)).
    assert (0 < t) as Ht by (apply Rdiv_lt_0_compat; lra).
    pose proof (kmat_coercive d th ga eps pts n (fun i => v i - t * 1) HP) as C.
    assert (0 <= rsum n (fun i => (v i - t * 1) * (v i - t * 1))) as S0 by (apply rsum_nonneg; intros; apply Rle_0_sqr).
    assert (0 <= rsum n (fun i => (v i - t * 1) * mv n A (fun j => v j - t * 1) i)) as Q. { apply Rle_trans with (eps * rsum n (fun i => (v i - t * 1) * (v i - t * 1))). apply Rmult_le_pos; lra. exact C. }
    set (o := fun i => mv n A (fun _ => 1) i).
    assert (rsum n (fun i => (v i - t * 1) * mv n A (fun j => v j - t * 1) i) = rsum n v - 2 * t * INR n + t * t * rsum n o) as E.
    { rewrite (rsum_ext n (fun i => (v i - t * 1) * mv n A (fun j => v j - t * 1) i) (fun i => (v i - t) - t * (v i * o i) + t * t * o i)).
      2:{ intros i Hi. rewrite (mv_minus n A v (fun _ => t * 1)), mv_scal, V by auto. unfold o. ring. }
      rewrite rsum_plus, !rsum_minus, !rsum_scal, rsum_const. unfold o. rewrite (mv_sym n A v (fun _ => 1) (kmat_sym d th ga eps pts n)).
      rewrite (rsum_ext n (fun i => 1 * mv n A v i) (fun _ => 1)) by (intros; rewrite V; auto; ring). rewrite rsum_const. ring. }
    assert (rsum n o <= INR n * (INR n + eps)) as So.
    { rewrite <- rsum_const. apply rsum_le. intros i Hi. unfold o. rewrite mv_kmat by auto. rewrite Rmult_1_r. apply Rplus_le_compat_r.
      apply Rle_trans with (rsum n (fun _ => 1)). apply rsum_le. intros j Hj. pose proof (kcorr_range d th ga (nth i pts []) (nth j pts []) HP). lra. rewrite rsum_const. lra. }
    rewrite E in Q. assert (t * t * rsum n o <= t * INR n) as T1.
    { apply Rle_trans with (t * t * (INR n * (INR n + eps))). apply Rmult_le_compat_l; auto. apply Rle_0_sqr. right. unfold t. field. lra. }
    replace (INR n / (INR n + eps)) with (t * INR n) by (unfold t; field; lra). lra.
  Qed.

  Lemma ksolved_kriging k y : kready k d pts y th ga eps -> ksolved k d pts y th ga eps ->
    kriging d th ga eps pts (vget y) (k_beta0 k) (vget (k_Rysb k)) (k_s2 k) /\ length (k_Rysb k) = n /\ length (k_RI k) = n /\
    (forall i, (i < n)%nat -> mv n A (vget (k_RI k)) i = 1).
  Proof.
    intros Q [vd vs vw vy v1 vo vb v2]. pose proof (q_n0 _ _ _ _ _ _ _ Q) as Hn. pose proof (q_ly _ _ _ _ _ _ _ Q) as Ly.
    assert (length (vec_subs y (k_beta0 k)) = n) as Lb by (unfold vec_subs; rewrite vbuild_length; auto).
    destruct (vs _ Lb) as (x & Ex & Lx & Hx). assert (x = k_Rysb k) by congruence. subst x. specialize (Hx HP He).
    destruct (vs _ Ly) as (x & Ex2 & Lx2 & Hx2). assert (x = k_Rys k) by congruence. subst x. specialize (Hx2 HP He).
    destruct (vs _ (repeat_length 1 n)) as (x & Ex3 & Lx3 & Hx3). assert (x = k_RI k) by congruence. subst x. specialize (Hx3 HP He).
    assert (forall i, (i < n)%nat -> mv n A (vget (k_RI k)) i = 1) as HV. { intros i Hi. rewrite Hx3 by auto. apply vget_repeat; auto. }
    assert (forall i, (i < n)%nat -> mv n A (vget (k_Rysb k)) i = vget y i - k_beta0 k) as HW. { intros i Hi. rewrite Hx by auto. unfold vec_subs. rewrite vget_vbuild by lia. auto. }
    split; [|auto]. constructor; auto.
    - pose proof (ones_pos _ Hn HV) as Pv.
      rewrite (rsum_ext n (vget (k_Rysb k)) (fun i => vget (k_Rysb k) i * mv n A (vget (k_RI k)) i)) by (intros; rewrite HV; auto; ring).
      rewrite (mv_sym n A _ _ (kmat_sym d th ga eps pts n)).
      rewrite (rsum_ext n (fun i => vget (k_RI k) i * mv n A (vget (k_Rysb k)) i) (fun i => vget (k_RI k) i * mv n A (vget (k_Rys k)) i - k_beta0 k * vget (k_RI k) i)).
      2:{ intros i Hi. rewrite HW, Hx2 by auto. ring. }
      rewrite rsum_minus, rsum_scal. rewrite (mv_sym n A _ _ (kmat_sym d th ga eps pts n)).
      rewrite (rsum_ext n (fun i => vget (k_Rys k) i * mv n A (vget (k_RI k)) i) (vget (k_Rys k))) by (intros; rewrite HV; auto; ring).
      rewrite vb. field. lra.
    - rewrite v2. assert (0 < INR n) by (apply lt_0_INR; auto). field. lra.
  Qed.

  Lemma corrVector_ok k y x : kready k d pts y th ga eps -> length x = d ->
    exists r, ecf_corrVector (k_cf k) x = Ok r /\ length r = n /\ forall i, (i < n)%nat -> vget r i = kcorr d th ga x (nth i pts []).
  Proof.
    intros Q Hx. unfold ecf_corrVector. rewrite (q_set _ _ _ _ _ _ _ Q), (q_c _ _ _ _ _ _ _ Q), (q_th _ _ _ _ _ _ _ Q), (q_ga _ _ _ _ _ _ _ Q), (q_lth _ _ _ _ _ _ _ Q), (q_lga _ _ _ _ _ _ _ Q), (q_N _ _ _ _ _ _ _ Q), Hx, Nat.ltb_irrefl.
    cbn [negb orb]. eexists. split; [reflexivity|]. split. apply vbuild_length. intros i Hi. rewrite vget_vbuild by auto. unfold kcorr. rewrite Kexp_eq.
    rewrite <- (q_rows _ _ _ _ _ _ _ Q), nth_rows. auto. rewrite (q_r _ _ _ _ _ _ _ Q). auto.
  Qed.

  Definition linpart (k : krig R) (x : list R) : Res R := if k_uselin k then lin_interpolate (k_lin k) x else Ok 0.

  Lemma krig_interpolate_ok k y x l : kready k d pts y th ga eps -> ksolved k d pts y th ga eps -> length x = d -> linpart k x = Ok l ->
    krig_interpolate k x = Ok (l + kpredict d th ga pts (k_beta0 k) (vget (k_Rysb k)) x).
  Proof.
    intros Q V Hx Hl. destruct (ksolved_kriging k y Q V) as (_ & Lw & _). destruct (corrVector_ok k y x Q Hx) as (r & Er & Lr & Hr).
    unfold krig_interpolate. change (if k_uselin k then lin_interpolate (k_lin k) x else Ok n0) with (linpart k x). rewrite Hl. cbn [bind]. rewrite Er. cbn [bind].
    rewrite (vec_dot_ok _ _ n) by auto. cbn [bind]. f_equal. simpl. unfold kpredict. f_equal. f_equal. apply rsum_ext. intros i Hi. rewrite Hr by auto. auto.
  Qed.
  Lemma linpart_throws k x l : linpart k x = Throw l -> krig_interpolate k x = Throw l.
  Proof. intros H. unfold krig_interpolate. change (if k_uselin k then lin_interpolate (k_lin k) x else Ok n0) with (linpart k x). rewrite H. auto. Qed.

  (** the variance *)
  Lemma krig_variance_ok k y x l : kready k d pts y th ga eps -> ksolved k d pts y th ga eps -> length x = d -> linpart k x = Ok l ->
    exists u, kvar_factor d th ga eps pts x u /\
      krig_variance k x = Ok (l + kpredict d th ga pts (k_beta0 k) (vget (k_Rysb k)) x, k_s2 k * u).
  Proof.
    intros Q V Hx Hl. destruct (ksolved_kriging k y Q V) as (K & Lw & Lv & HV). destruct (corrVector_ok k y x Q Hx) as (r & Er & Lr & Hr).
    destruct (v_solve _ _ _ _ _ _ _ V r Lr) as (z & Ez & Lz & Hz). specialize (Hz HP He). pose proof (q_n0 _ _ _ _ _ _ _ Q) as Hn.
    assert (forall i, (i < n)%nat -> mv n A (vget z) i = kcorr d th ga x (nth i pts [])) as HZ by (intros; rewrite Hz, Hr; auto).
    assert (rsum n (fun i => vget r i * vget (k_RI k) i) = rsum n (vget z)) as Eri.
    { rewrite (rsum_ext n (fun i => vget r i * vget (k_RI k) i) (fun i => vget (k_RI k) i * mv n A (vget z) i)) by (intros; rewrite HZ, Hr; auto; ring).
      rewrite (mv_sym n A _ _ (kmat_sym d th ga eps pts n)). apply rsum_ext. intros; rewrite HV; auto. ring. }
    set (v := vget (k_RI k)) in *. pose proof (ones_pos v Hn HV) as Pii.
    eexists. split. { exists (vget z), v. split; [exact HZ|]. split; [exact HV|]. cbv zeta. reflexivity. }
    unfold krig_variance. rewrite (krig_interpolate_ok k y x l Q V Hx Hl). cbn [bind]. rewrite Er. cbn [bind]. rewrite Ez. cbn [bind].
    rewrite (vec_dot_ok r z n) by auto. cbn [bind]. rewrite (vec_dot_ok r (k_RI k) n) by auto. cbn [bind]. rewrite (v_ones _ _ _ _ _ _ _ V), dot_ones by auto. cbn [bind].
    fold v. rewrite Eri. rewrite (rsum_ext n (fun i => vget r i * vget z i) (fun i => kcorr d th ga x (nth i pts []) * vget z i)) by (intros; rewrite Hr; auto).
    assert (@nlit R RNum 10 (-10) = 1 / 10 ^ 9) as LIT. { simpl. unfold Rlit. simpl. lra. } rewrite LIT. clear LIT.
    set (ri := rsum n (vget z)). set (rr := rsum n _). set (ii := rsum n v) in *. f_equal. f_equal. unfold drop. rewrite (Rabs_minus_sym 1 rr). set (tol := 1 / 10 ^ 9).
    simpl nltb. simpl nabs. simpl nsub. simpl nmul. simpl nadd. f_equal. f_equal. destruct (Rltb (Rabs (ri - 1)) tol); auto. simpl. field. lra.
  Qed.
  (** the factor is not negative and differs from the kriging formula by at most the dropped terms *)
  Lemma kvar_factor_bounds x u : (0 < n)%nat -> eps < 1 -> kvar_factor d th ga eps pts x u ->
    exists t1 t2, kvar_terms d th ga eps pts x t1 t2 /\ 0 <= u <= t1 + t2 /\ t1 + t2 - u <= 1 / 10 ^ 9 + 2 / 10 ^ 18.
  Proof.
    intros Hn He1 (z & v & Z & V & E). assert (0 <= eps) as He0 by apply He. cbv zeta in E. set (p := rsum n z - 1) in *. set (q := 1 - rsum n (fun i => kcorr d th ga x (nth i pts []) * z i)) in *. set (ii := rsum n v) in *.
    assert (kvar_terms d th ga eps pts x (p ^ 2 / ii) q) as KV. { exists z, v. auto. }
    destruct (kvar_nonneg d th ga eps pts HP He x _ _ Hn KV) as (P1 & P2).
    assert (1 / 2 <= ii) as Pii. { pose proof (ones_lower v Hn V) as L. fold ii in L. assert (1 <= INR n) by (apply (le_INR 1); lia). apply Rle_trans with (INR n / (INR n + eps)); auto.
      apply (Rmult_le_reg_r (INR n + eps)); [lra|]. unfold Rdiv at 2. rewrite Rmult_assoc, Rinv_l by lra. lra. }
    exists (p ^ 2 / ii), q. split; auto.
    assert (0 <= drop q q <= q /\ q - drop q q <= 1 / 10 ^ 9) as D1.
    { unfold drop. destruct (Rltb_spec (Rabs q) (1 / 10 ^ 9)) as [H|H]; [|lra]. pose proof (Rle_abs q). lra. }
    assert (0 <= drop (p ^ 2 / ii) p <= p ^ 2 / ii /\ p ^ 2 / ii - drop (p ^ 2 / ii) p <= 2 / 10 ^ 18) as D2.
    { unfold drop. destruct (Rltb_spec (Rabs p) (1 / 10 ^ 9)) as [H|H]; [|lra]. split; [lra|]. rewrite Rminus_0_r.
      apply (Rmult_le_reg_r ii); [lra|]. unfold Rdiv at 1. rewrite Rmult_assoc, Rinv_l by lra. rewrite Rmult_1_r.
      assert (p ^ 2 <= 1 / 10 ^ 18). { rewrite <- (pow2_abs p). pose proof (Rabs_pos p). replace (1 / 10 ^ 18) with ((1 / 10 ^ 9) ^ 2) by field. apply pow_incr. lra. }
      assert (2 / 10 ^ 18 * (1 / 2) <= 2 / 10 ^ 18 * ii). { apply Rmult_le_compat_l; lra. } lra. }
    rewrite E. lra.
  Qed.
End Solved.

Lemma delta_other i k : k <> i -> delta i k = 0.
Proof. intros. unfold delta. destruct (Nat.eqb_spec i k); auto; lia. Qed.
(** *** the linear model *)
Record lready (s : lmodel R) (d : nat) (pts : list (list R)) (y : list R) : Prop := {
  r_read : l_read s = true; r_norm : l_norm s = true; r_dim : l_dim s = d; r_d0 : (0 < d)%nat; r_n : l_n s = length pts; r_n0 : (0 < length pts)%nat;
  r_r : nrows (d_X (l_data s)) = length pts; r_c : ncols (d_X (l_data s)) = d; r_rows : rows (d_X (l_data s)) = pts; r_y : d_y (l_data s) = y; r_ly : length y = length pts }.

Lemma phi_aug (X : mat R) d i j : nth i (rows X) [] = mrow X i -> (j <= d)%nat -> ncols X = d ->
  (if Nat.eqb j 0 then 1 else mget X i (j - 1)) = phi (nth i (rows X) []) j.
Proof.
  intros E Hj Hc. destruct j; auto. cbn [Nat.eqb]. replace (S j - 1)%nat with j by lia. rewrite E. unfold phi, mrow.
  change (nth j (vbuild (ncols X) (fun j0 => mget X i j0)) 0) with (vget (vbuild (ncols X) (fun j0 => mget X i j0)) j). rewrite vget_vbuild by lia. auto.
Qed.

Lemma lin_train_ok (s : lmodel R) d pts y : lready s d pts y ->
  (forall s' , lin_train s = (s', Ok tt) -> exists w, s' = lset_w w s /\ length w = S d /\ normal_eqs d pts (vget y) (l_reg s) (vget w)) /\
  (0 < l_reg s -> INR (S d) * (tiny * tiny) <= l_reg s * l_reg s -> exists s', lin_train s = (s', Ok tt)).
Proof.
  intros []. set (n := length pts) in *. set (X := d_X (l_data s)) in *.
  set (Am := mbuild n (d + 1) (fun i j => if Nat.eqb j 0 then 1 else mget X i (j - 1))).
  assert (forall i j, (i < n)%nat -> (j <= d)%nat -> mget Am i j = phi (nth i pts []) j) as HA.
  { intros i j Hi Hj. unfold Am. rewrite mget_mbuild by lia. rewrite <- r_rows0. apply (phi_aug X d); auto. apply nth_rows. lia. }
  destruct (transpose_ok Am) as (WT & RT & CT & HT). cbn [nrows ncols Am mbuild] in RT, CT, HT. set (AT := mat_transpose Am) in *.
  destruct (mat_mul_ok AT Am) as (G & EG & HG). { rewrite CT. auto. }
  rewrite RT, CT in HG. change (ncols Am) with (d + 1)%nat in HG.
  pose proof (addEps_ok G (d + 1) _ (l_reg s) HG) as HGe. set (Ge := mat_addEps G (l_reg s)) in *. pose proof HGe as (WG & RG & CG & GG).
  assert (isq Ge (nrows Ge)) as IQ by (split; auto; split; auto; lia).
  destruct (mat_vec_ok AT y) as (b & Eb & Lb & Hb). { rewrite CT. auto. }
  assert (lin_train s = match mat_invert Ge with Ok Gi => match mat_vec Gi b with Ok w => (lset_w w s, Ok tt) | Throw e => (s, Throw e) | UB => (s, UB) end | Throw e => (s, Throw e) | UB => (s, UB) end) as ET.
  { unfold lin_train. unfold sbind at 1, sget at 1. rewrite r_norm0, r_read0, r_dim0, r_n1. cbn [negb]. destruct (Nat.eqb_spec d 0) as [|_]; [lia|]. destruct (Nat.eqb_spec n 0) as [|_]; [lia|].
    unfold sthrow_if. do 4 (unfold sbind at 1, sret at 1). unfold aug_matrix. fold X. rewrite r_r0, r_c0. rewrite !Nat.ltb_irrefl. cbn [orb]. unfold sbind at 1, slift at 1.
    change (mbuild n (d + 1) (fun i j => if Nat.eqb j 0 then n1 else mget X i (j - 1))) with Am. cbv zeta. fold AT. rewrite EG. unfold sbind at 1, slift at 1. fold Ge.
    unfold sbind at 1, slift at 1. destruct (mat_invert Ge) as [Gi|e|]; auto. rewrite r_y0, Eb. unfold sbind at 1, slift at 1. unfold sbind at 1, slift at 1. destruct (mat_vec Gi b); auto. }
  split.
  - intros s' E. rewrite ET in E. destruct (mat_invert Ge) as [Gi|e|] eqn:EI; try discriminate. destruct (mat_invert_ok Ge Gi IQ EI) as ((WI & RI & CI) & HI). rewrite RG in *.
    destruct (mat_vec_ok Gi b) as (w & Ew & Lw & Hw). { rewrite CI, Lb, RT. auto. } rewrite Ew in E. injection E as <-. exists w. split; auto. split. lia.
    intros j Hj. change (length pts) with n. replace (rsum n (fun i => phi (nth i pts []) j * vget y i)) with (nth j b 0).
    2:{ rewrite Hb by lia. rewrite CT. change (nrows Am) with n. apply rsum_ext. intros i Hi. rewrite HT, HA by lia. auto. }
    assert (mv (d + 1) (mget Ge) (vget w) j = nth j b 0) as MW.
    { unfold mv. rewrite (rsum_ext (d + 1) (fun j0 => mget Ge j j0 * vget w j0) (fun k => rsum (d + 1) (fun m => mget Ge j k * mget Gi k m * nth m b 0))).
      2:{ intros k Hk. unfold vget. change (@n0 R RNum) with 0. rewrite Hw by lia. rewrite CI, <- rsum_scal. apply rsum_ext. intros; ring. }
      rewrite rsum_swap. rewrite (rsum_ext (d + 1) _ (fun m => delta j m * nth m b 0)).
      2:{ intros m Hm. rewrite <- HI by lia. unfold mm. rewrite <- rsum_scal_r. apply rsum_ext. intros; ring. }
      rewrite (rsum_single (d + 1) j) by (try lia; intros; rewrite delta_other by auto; ring).
      unfold delta. rewrite Nat.eqb_refl. ring. }
    rewrite <- MW. unfold mv. rewrite (rsum_ext (d + 1) _ (fun k => rsum n (fun i => phi (nth i pts []) j * phi (nth i pts []) k * vget w k) + l_reg s * delta j k * vget w k)).
    2:{ intros k Hk. rewrite GG by lia. rewrite Rmult_plus_distr_r. f_equal. rewrite <- rsum_scal_r. apply rsum_ext. intros i Hi. rewrite HT, !HA by lia. ring. }
    rewrite rsum_plus. f_equal.
    + rewrite rsum_swap. apply rsum_ext. intros i Hi. rewrite lpredict_phi, <- rsum_scal. replace (S d) with (d + 1)%nat by lia. apply rsum_ext. intros; ring.
    + rewrite (rsum_single (d + 1) j) by (try lia; intros; rewrite delta_other by auto; ring). unfold delta. rewrite Nat.eqb_refl. ring.
  - intros Hl Hc. destruct (lu_coercive_succeeds Ge (l_reg s) IQ Hl) as (lu & p & El).
    { rewrite RG. replace (d + 1)%nat with (S d) by lia. auto. }
    { intros x. rewrite RG. unfold quad. rewrite (rsum_ext (d + 1) (fun i => rsum (d + 1) (fun j => x i * mget Ge i j * x j))
        (fun i => rsum n (fun k => phi (nth k pts []) i * x i * rsum (d + 1) (fun j => phi (nth k pts []) j * x j)) + l_reg s * (x i * x i))).
      2:{ intros i Hi. rewrite (rsum_ext (d + 1) (fun j => x i * mget Ge i j * x j) (fun j => rsum n (fun k => phi (nth k pts []) i * x i * (phi (nth k pts []) j * x j)) + l_reg s * x i * delta i j * x j)).
          2:{ intros j Hj. rewrite GG by lia. rewrite Rmult_plus_distr_l, Rmult_plus_distr_r. f_equal; [|ring]. rewrite <- rsum_scal, <- rsum_scal_r. apply rsum_ext. intros k Hk. rewrite HT, !HA by lia. ring. }
          rewrite rsum_plus, rsum_swap. f_equal. apply rsum_ext. intros k Hk. rewrite <- rsum_scal. apply rsum_ext. intros; ring.
          rewrite (rsum_single (d + 1) i) by (try lia; intros; rewrite delta_other by auto; ring). unfold delta. rewrite Nat.eqb_refl. ring. }
      rewrite rsum_plus, rsum_swap, rsum_scal. assert (0 <= rsum n (fun k => rsum (d + 1) (fun i => phi (nth k pts []) i * x i * rsum (d + 1) (fun j => phi (nth k pts []) j * x j)))); [|lra].
      apply rsum_nonneg. intros k Hk. rewrite rsum_scal_r. apply Rle_0_sqr. }
    destruct (mat_invert_succeeds Ge (lu, p) IQ) as (Gi & EGi); auto. lia. destruct (mat_invert_ok Ge Gi IQ EGi) as ((WI & RI & CI) & _).
    destruct (mat_vec_ok Gi b) as (w & Ew & _). lia. exists (lset_w w s). rewrite ET, EGi, Ew. auto.
Qed.

Lemma lin_initialize_ok (s : lmodel R) d pts y : lready s d pts y ->
  (forall s', lin_initialize s = (s', Ok tt) -> exists w, l_w s' = w /\ l_dim s' = d /\ l_data s' = l_data s /\ length w = S d /\ normal_eqs d pts (vget y) (1 / 10 ^ 8) (vget w)) /\
  ((d < 100)%nat -> exists s', lin_initialize s = (s', Ok tt)).
Proof.
  intros Q. set (s1 := lset_reg (nlit 1 (-8)) (lset_w (repeat n0 (l_dim s + 1)) s)). assert (lready s1 d pts y) as Q1 by (destruct Q; constructor; auto).
  destruct (lin_train_ok s1 d pts y Q1) as (T1 & T2). assert (l_reg s1 = 1 / 10 ^ 8) as LR. { unfold s1, lset_reg. cbn [l_reg]. simpl. unfold Rlit. simpl. lra. } rewrite LR in *.
  assert (lin_initialize s = (let '(s2, r) := lin_train s1 in match r with Ok _ => (mkL (l_dim s2) (l_n s2) (l_data s2) (l_w s2) (l_reg s2) (l_read s2) (l_norm s2) true, Ok tt) | Throw e => (s2, Throw e) | UB => (s2, UB) end)) as E.
  { unfold lin_initialize. unfold sbind at 1, sget at 1. rewrite (r_read _ _ _ _ Q), (r_dim _ _ _ _ Q). pose proof (r_d0 _ _ _ _ Q). destruct (Nat.eqb_spec d 0); [lia|]. unfold sthrow_if. cbn [negb].
    do 2 (unfold sbind at 1, sret at 1). unfold sbind at 1, smod at 1. fold s1. unfold sbind at 1. destruct (lin_train s1) as (s2 & [[]|e|]); auto. }
  split.
  - intros s' H. rewrite E in H. destruct (lin_train s1) as (s2 & [[]|e|]) eqn:ET; try discriminate. injection H as <-. destruct (T1 s2 eq_refl) as (w & -> & Lw & N). exists w. cbn [l_w l_dim l_data].
    split; auto. split. apply (r_dim _ _ _ _ Q). auto.
  - intros Hd. destruct T2 as (s2 & ET). lra. { unfold tiny. assert (INR (S d) <= 100). { replace 100 with (INR 100). apply le_INR; lia. simpl; lra. } pose proof (pos_INR (S d)).
      replace (1 / 10 ^ 8 * (1 / 10 ^ 8)) with (100 * (1 / 10 ^ 9 * (1 / 10 ^ 9))) by field. apply Rmult_le_compat_r; lra. }
    rewrite E, ET. eauto.
Qed.

Lemma lin_interpolate_ok (s : lmodel R) d x : l_dim s = d -> length (l_w s) = S d -> length x = d -> lin_interpolate s x = Ok (lpredict d (vget (l_w s)) x).
Proof.
  intros Hd Hw Hx. unfold lin_interpolate. unfold vec_at at 1. rewrite Hw. destruct (Nat.leb_spec (S d) 0); [lia|]. cbn [bind]. rewrite Hd.
  assert (forall m, (m <= d)%nat -> loopR m (fun i f => xi <- vec_at x i ;; w <- vec_at (l_w s) (i + 1) ;; Ok (f +! xi *! w)) (vget (l_w s) 0) = Ok (vget (l_w s) 0 + rsum m (fun j => nth j x 0 * vget (l_w s) (S j)))) as H1.
  { induction m; intros Hm. cbn [loopR rsum]. rewrite Rplus_0_r. auto. cbn [loopR]. rewrite IHm by lia. cbn [bind]. unfold vec_at. rewrite Hx, Hw.
    destruct (Nat.leb_spec d m); [lia|]. cbn [bind]. destruct (Nat.leb_spec (S d) (m + 1)); [lia|]. cbn [bind rsum]. f_equal. simpl. replace (m + 1)%nat with (S m) by lia. unfold vget. simpl. ring. }
  apply H1. lia.
Qed.
