(** * C76: the crowding factor of the optimisation history; C77: the dimension of a design *)
From Coq Require Import Reals Lra Lia Psatz List Arith Bool ZArith.
From Verif Require Import Base StM Num RealNum VecModel VecProofs VecProofs2 VecReal MatModel MatLemmas MatSpec MatProofs MatProofs2 DataProofs DesignModel HistModel.
Import ListNotations.
Local Open Scope R_scope.

(** ** specification *)
(** the sum of the absolute differences of the first d components *)
Definition distance1 (d : nat) (x y : list R) : R := rsum d (fun c => Rabs (nth c x 0 - nth c y 0)).
(** the mean over all pairs of different rows, 0 when there are less than two rows *)
Definition mean_distance (d : nat) (rs : list (list R)) : R :=
  let n := length rs in
  if Nat.ltb n 2 then 0 else rsum n (fun i => rsum n (fun j => distance1 d (nth i rs []) (nth j rs []))) / (INR n * INR (n - 1)).
Definition last_rows (k : nat) (rs : list (list R)) : list (list R) := skipn (length rs - k) rs.

(** ** proofs *)
Lemma rows_len {T} {NT : Num T} (m : mat T) : length (rows m) = nrows m.
Proof. unfold rows. rewrite map_length, seq_length. auto. Qed.
Lemma nth_mrow (m : mat R) i j : (j < ncols m)%nat -> nth j (mrow m i) 0 = mget m i j.
Proof. exact (vget_mrow m i j). Qed.
Lemma loop_add (f : nat -> R) n s : loop n (fun i s => s + f i) s = s + rsum n f.
Proof. induction n; cbn. lra. rewrite IHn. lra. Qed.
Lemma loop_ext {S} n (f g : nat -> S -> S) s : (forall i s, (i < n)%nat -> f i s = g i s) -> loop n f s = loop n g s.
Proof. intros H. induction n; cbn; auto. rewrite IHn by auto. apply H. lia. Qed.
Lemma pair_sum n (D : nat -> nat -> R) : (forall i, D i i = 0) -> (forall i j, D i j = D j i) ->
  rsum n (fun i => rsum (n - S i) (fun k => D i (S i + k)%nat * 2)) = rsum n (fun i => rsum n (D i)).
Proof.
  intros H0 HS. induction n; auto. cbn [rsum]. rewrite Nat.sub_diag. cbn [rsum].
  rewrite (rsum_ext n (fun i => rsum (S n - S i) (fun k => D i (S i + k)%nat * 2)) (fun i => rsum (n - S i) (fun k => D i (S i + k)%nat * 2) + D i n * 2)).
  - rewrite rsum_plus, IHn. rewrite rsum_plus, H0, rsum_scal_r. rewrite (rsum_ext n (D n) (fun i => D i n)) by (intros; apply HS). lra.
  - intros i Hi. replace (S n - S i)%nat with (S (n - S i)) by lia. cbn [rsum]. replace (S i + (n - S i))%nat with n by lia. auto.
Qed.
Lemma half_pairs r : (2 * (r * (r - 1) / 2) = r * (r - 1))%nat.
Proof.
  assert (exists q, (r * (r - 1) = 2 * q)%nat) as [q ->]. { induction r. exists 0%nat. auto. destruct IHr as [q Hq]. exists (q + r)%nat. destruct r; cbn in *; lia. }
  rewrite (Nat.mul_comm 2 q), Nat.div_mul by lia. lia.
Qed.
Definition crowd_of (m : mat R) : R := let r := nrows m in
  let sum := loop r (fun i s => loop_from (S i) r (fun j s => s +! vec_norm L1 (vbuild (ncols m) (fun c => mget m i c -! mget m j c)) *! nofZ 2) s) n0 in
  let pairs := (r * (r - 1) / 2)%nat in if Nat.ltb 0 pairs then sum /! (nofnat pairs *! nofZ 2) else n0.
Lemma crowd_value (m : mat R) : crowd_of m = mean_distance (ncols m) (rows m).
Proof.
  unfold crowd_of. cbv zeta. set (r := nrows m). set (D := fun i j => rsum (ncols m) (fun c => Rabs (mget m i c - mget m j c))).
  assert (forall i j, vec_norm L1 (vbuild (ncols m) (fun c => mget m i c -! mget m j c)) = D i j) as HN.
  { intros i j. unfold vec_norm, vbuild. rewrite map_length, seq_length, nsum_rsum. apply rsum_ext. intros k Hk. unfold vget. rewrite nth_map_seq by auto. reflexivity. }
  rewrite (loop_ext r _ (fun i s => s + rsum (r - S i) (fun k => D i (S i + k)%nat * 2))).
  2:{ intros i s Hi. unfold loop_from. rewrite <- loop_add. apply loop_ext. intros k t Hk. rewrite HN. reflexivity. }
  rewrite loop_add. change (@n0 R RNum) with 0. rewrite Rplus_0_l, pair_sum.
  2:{ intros i. apply rsum_0. intros k _. rewrite Rminus_diag_eq by auto. apply Rabs_R0. } 2:{ intros i j. apply rsum_ext. intros k _. apply Rabs_minus_sym. }
  unfold mean_distance. rewrite rows_len. fold r. pose proof (half_pairs r) as HP. remember (r * (r - 1) / 2)%nat as p eqn:Ep.
  destruct (Nat.ltb_spec r 2) as [H2|H2], (Nat.ltb_spec 0 p) as [H3|H3]; auto.
  - exfalso. destruct r as [|[|r]]; cbn in HP; lia.
  - change (@ndiv R RNum) with Rdiv. change (@nmul R RNum) with Rmult. unfold nofnat. change (@nofZ R RNum) with IZR. rewrite <- INR_IZR_INZ. f_equal.
    + apply rsum_ext. intros i Hi. apply rsum_ext. intros j Hj. unfold D, distance1. apply rsum_ext. intros c Hc. rewrite !nth_rows by auto. rewrite !nth_mrow by auto. auto.
    + rewrite <- mult_INR, <- HP, mult_INR. simpl INR. lra.
  - exfalso. destruct r as [|[|r]]; cbn in HP; lia.
Qed.

(** ** C76 *)
(** the crowding factor is the mean distance between the designs of the last [h_doe] rows *)
Theorem C76_crowding_factor : forall (h : hist R), (0 < h_dim h <= ncols (h_data h))%nat -> (0 < h_doe h <= nrows (h_data h))%nat ->
  hist_crowding h = (mkH (h_dim h) (h_cn h) (h_data h) (mean_distance (h_dim h) (last_rows (h_doe h) (rows (h_data h)))) (h_doe h), Ok tt).
Proof.
  intros h Hd Hn. unfold hist_crowding. rewrite (sbind_ok _ _ _ h h) by reflexivity. cbv zeta.
  destruct (Nat.eqb_spec (nrows (h_data h)) 0); [lia|]. destruct (Nat.eqb_spec (h_dim h) 0); [lia|]. destruct (Nat.eqb_spec (h_doe h) 0); [lia|]. cbn [orb sthrow_if].
  rewrite (sbind_ok _ _ _ h tt) by reflexivity. destruct (Nat.leb_spec (h_doe h) (nrows (h_data h))); [|lia].
  destruct (submat_ok (h_data h) (nrows (h_data h) - h_doe h) (nrows (h_data h) - 1) 0 (h_dim h - 1)) as (m & E & W & N1 & N2 & HM); try lia. rewrite E.
  rewrite (sbind_ok _ _ _ h m) by reflexivity. unfold smod. f_equal. f_equal. change (crowd_of m = mean_distance (h_dim h) (last_rows (h_doe h) (rows (h_data h)))). rewrite crowd_value.
  replace (ncols m) with (h_dim h) by lia. unfold mean_distance, last_rows. rewrite skipn_length, !rows_len. replace (nrows (h_data h) - (nrows (h_data h) - h_doe h))%nat with (h_doe h) by lia. replace (nrows m) with (h_doe h) by lia.
  destruct (Nat.ltb_spec (h_doe h) 2); auto. f_equal. apply rsum_ext. intros i Hi. apply rsum_ext. intros j Hj. unfold distance1. apply rsum_ext. intros c Hc.
  rewrite !nth_rows by lia. rewrite !nth_skipn, !nth_rows by lia. rewrite !nth_mrow by lia. rewrite !HM by lia. auto.
Qed.
Print Assumptions C76_crowding_factor.
(** it is not negative, and zero exactly when all these designs are equal *)
Lemma distance1_nonneg d x y : 0 <= distance1 d x y.
Proof. apply rsum_nonneg. intros. apply Rabs_pos. Qed.
Theorem C76_zero_means_equal : forall d rs, (2 <= length rs)%nat ->
  0 <= mean_distance d rs /\ (mean_distance d rs = 0 <-> forall i j c, (i < length rs)%nat -> (j < length rs)%nat -> (c < d)%nat -> nth c (nth i rs []) 0 = nth c (nth j rs []) 0).
Proof.
  intros d rs H2. unfold mean_distance. destruct (Nat.ltb_spec (length rs) 2); [lia|]. set (n := length rs) in *.
  assert (0 < INR n * INR (n - 1)) as HP by (apply Rmult_lt_0_compat; apply lt_0_INR; lia). pose proof (Rinv_0_lt_compat _ HP) as HI.
  set (S := rsum n (fun i => rsum n (fun j => distance1 d (nth i rs []) (nth j rs [])))).
  assert (0 <= S) as HS. { apply rsum_nonneg. intros. apply rsum_nonneg. intros. apply distance1_nonneg. }
  split. { apply Rmult_le_pos; lra. } split.
  - intros E i j c Hi Hj Hc. assert (S = 0) as E0. { unfold Rdiv in E. apply Rmult_integral in E. destruct E; auto. lra. }
    pose proof (rsum_nonneg_0 _ _ (fun k _ => rsum_nonneg n _ (fun j _ => distance1_nonneg d (nth k rs []) (nth j rs []))) E0 i Hi) as E1. cbv beta in E1.
    pose proof (rsum_nonneg_0 _ _ (fun j _ => distance1_nonneg d (nth i rs []) (nth j rs [])) E1 j Hj) as E2. cbv beta in E2.
    pose proof (rsum_nonneg_0 _ _ (fun k _ => Rabs_pos _) E2 c Hc) as E3. cbv beta in E3. destruct (Req_dec (nth c (nth i rs []) 0) (nth c (nth j rs []) 0)); auto. apply Rminus_eq_contra in H0. apply Rabs_no_R0 in H0. contradiction.
  - intros E. assert (S = 0) as ->; [|unfold Rdiv; ring]. apply rsum_0. intros i Hi. apply rsum_0. intros j Hj. apply rsum_0. intros c Hc. rewrite (E i j c) by auto. rewrite Rminus_diag_eq by auto. apply Rabs_R0.
Qed.
Print Assumptions C76_zero_means_equal.
(** with fewer rows than asked for, the row and column limits are passed in the wrong order: an exception, or the factor 0 whatever
    the rows are *)
Theorem C76_few_rows_refuted : forall (h : hist R), (0 < h_dim h <= ncols (h_data h))%nat -> (0 < nrows (h_data h) < h_doe h)%nat ->
  ((h_dim h < nrows (h_data h))%nat -> snd (hist_crowding h) = Throw InvalidArgument) /\
  ((nrows (h_data h) <= h_dim h)%nat -> hist_crowding h = (mkH (h_dim h) (h_cn h) (h_data h) 0 (h_doe h), Ok tt)).
Proof.
  intros h Hd Hn. unfold hist_crowding. rewrite (sbind_ok _ _ _ h h) by reflexivity. cbv zeta.
  destruct (Nat.eqb_spec (nrows (h_data h)) 0); [lia|]. destruct (Nat.eqb_spec (h_dim h) 0); [lia|]. destruct (Nat.eqb_spec (h_doe h) 0); [lia|]. cbn [orb sthrow_if].
  rewrite (sbind_ok _ _ _ h tt) by reflexivity. destruct (Nat.leb_spec (h_doe h) (nrows (h_data h))); [lia|]. split; intros Hk.
  - unfold sbind, slift. unfold mat_submat. destruct (Nat.leb_spec (nrows (h_data h)) 0); auto. destruct (Nat.leb_spec (ncols (h_data h)) (nrows (h_data h) - 1)); cbn [orb]; auto. destruct (Nat.leb_spec (ncols (h_data h)) (h_dim h - 1)); cbn [orb]; auto.
    destruct (Nat.ltb_spec (h_dim h - 1) (nrows (h_data h) - 1)); [|lia]. cbn. auto.
  - destruct (submat_ok (h_data h) 0 0 (nrows (h_data h) - 1) (h_dim h - 1)) as (m & E & W & N1 & N2 & HM); try lia. rewrite E. rewrite (sbind_ok _ _ _ h m) by reflexivity. unfold smod. do 2 f_equal. rewrite N1. reflexivity.
Qed.
Print Assumptions C76_few_rows_refuted.
(** three designs in two dimensions, of which the last two count *)
Example C76_example : let h := mkH 2 0 (mkMat 3 4 [9; 0; 1;  9; 0; 2;  0; 0; 0;  0; 0; 0]) 0 2 in
  (0 < h_dim h <= ncols (h_data h))%nat /\ (0 < h_doe h <= nrows (h_data h))%nat /\ mean_distance 2 (last_rows 2 (rows (h_data h))) = 3.
Proof.
  cbn [h_dim h_data h_doe nrows ncols]. split. lia. split. lia. unfold mean_distance, last_rows, distance1. cbn. rewrite !Rminus_diag_eq by auto. rewrite !Rabs_R0.
  replace (Rabs (0 - 1)) with 1 by (rewrite Rabs_left; lra). replace (Rabs (0 - 2)) with 2 by (rewrite Rabs_left; lra). replace (Rabs (1 - 0)) with 1 by (rewrite Rabs_pos_eq; lra). replace (Rabs (2 - 0)) with 2 by (rewrite Rabs_pos_eq; lra). replace (1 - 1) with 0 by lra. replace (2 - 2) with 0 by lra. rewrite !Rabs_R0. lra.
Qed.

(** ** C77 *)
(** a design accepts exactly the positive dimensions; its vectors then have that many components, the ones it had are kept *)
Theorem C77_design_dimension : forall {T} {NT : Num T} (s : design T) d,
  (d = 0%nat -> design_setDimension d s = (s, Throw InvalidArgument)) /\
  ((0 < d)%nat -> exists s', design_setDimension d s = (s', Ok tt) /\ ds_dim s' = d /\ length (ds_x s') = d /\ length (ds_grad s') = d /\ length (ds_gradL s') = d /\
     (forall i, (i < d)%nat -> nth i (ds_x s') n0 = nth i (ds_x s) n0) /\ ds_f s' = ds_f s /\ ds_nc s' = ds_nc s /\ ds_con s' = ds_con s /\ ds_ID s' = ds_ID s).
Proof.
  intros T NT s d. unfold design_setDimension. split; intros H.
  - subst. reflexivity.
  - destruct (Nat.eqb_spec d 0); [lia|]. eexists. split; [reflexivity|]. cbn [ds_dim ds_x ds_grad ds_gradL ds_f ds_nc ds_con ds_ID].
    assert (forall v : vec T, length (vec_resize v d n0) = d) as L.
    { intros v. unfold vec_resize. rewrite app_length, firstn_length. destruct (Nat.ltb_spec (length v) d); rewrite ?repeat_length; cbn [length]; lia. }
    repeat split; auto. intros i Hi. unfold vec_resize. destruct (Nat.lt_ge_cases i (length (ds_x s))).
    + rewrite app_nth1 by (rewrite firstn_length; lia). rewrite <- (firstn_skipn (Nat.min (length (ds_x s)) d) (ds_x s)) at 3. rewrite app_nth1 by (rewrite firstn_length; lia). reflexivity.
    + rewrite app_nth2 by (rewrite firstn_length; lia). rewrite (nth_overflow (ds_x s)) by lia.
      destruct (Nat.ltb_spec (length (ds_x s)) d); [apply nth_repeat|lia].
Qed.
Print Assumptions C77_design_dimension.

(** a design of dimension 1 grown to dimension 3 *)
Example C77_example : exists s', design_setDimension 3 (fst (design_setDimension 1 (design_new (T:=R)))) = (s', Ok tt) /\ ds_dim s' = 3%nat.
Proof. eexists. split; reflexivity. Qed.
