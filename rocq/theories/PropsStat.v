(** C73: vector statistics and box membership.  C74: test data, and going back to the whole data set. *)
From Coq Require Import Reals Lra List Arith Lia ZArith Bool Permutation.
From Verif Require Import Base StM Num RealNum RSpec VecModel MatModel MatLemmas MatSpec VecProofs VecReal MatProofs MatProofs2 MatReal BoundsModel DataModel DataSpec DataProofs DataReal
  PropsData.
Import ListNotations.
Local Open Scope R_scope.

(** ** C73 *)
(** the box test answers true exactly for the points of the closed box, and refuses vectors of another size *)
Theorem C73_is_between : forall v lb ub : list R,
  (length lb = length v -> length ub = length v -> exists r, vec_is_between v lb ub = Ok r /\
     (r = true <-> forall i, (i < length v)%nat -> nth i lb 0 <= nth i v 0 <= nth i ub 0)) /\
  (length lb <> length v \/ length ub <> length v -> vec_is_between v lb ub = Throw InvalidArgument).
Proof.
  intros v lb ub. split.
  - intros Hl Hu. unfold vec_is_between. rewrite Hl, Hu, !Nat.eqb_refl. cbn [andb]. eexists. split; [reflexivity|].
    rewrite forallb_forall. split; intros H i.
    + intros Hi. specialize (H i). rewrite in_seq in H. specialize (H ltac:(lia)). apply negb_true_iff, orb_false_iff in H. destruct H as [H1 H2].
      unfold vget in H1, H2. simpl in H1, H2. apply Rltb_false in H1, H2. lra.
    + rewrite in_seq. intros Hi. specialize (H i ltac:(lia)). apply negb_true_iff, orb_false_iff. unfold vget; simpl. split; apply Rltb_false; lra.
  - intros H. unfold vec_is_between. destruct (Nat.eqb_spec (length v) (length lb)) as [E1|]; [|reflexivity]. destruct (Nat.eqb_spec (length v) (length ub)) as [E2|]; [|reflexivity].
    exfalso. destruct H; lia.
Qed.
Print Assumptions C73_is_between.
Example C73_is_between_case : vec_is_between [0; 1] [0; 0] [1; 1] = Ok true /\ vec_is_between [0; 2] [0; 0] [1; 1] = Ok false.
Proof.
  split.
  - destruct (C73_is_between [0; 1] [0; 0] [1; 1]) as [H _]. destruct (H eq_refl eq_refl) as (r & -> & E). apply f_equal. apply E. intros [|[|i]] Hi; simpl in *; try lra; lia.
  - destruct (C73_is_between [0; 2] [0; 0] [1; 1]) as [H _]. destruct (H eq_refl eq_refl) as (r & -> & E). apply f_equal. destruct r; auto.
    pose proof (proj1 E eq_refl 1%nat ltac:(simpl; lia)). simpl in H0. lra.
Qed.

(** sum of a list, written without the model's loop *)
Definition total (l : list R) : R := fold_right Rplus 0 l.
Lemma total_rsum l : total l = rsum (length l) (fun i => nth i l 0).
Proof.
  unfold total. induction l as [|a l IH] using rev_ind. reflexivity. rewrite fold_right_app, app_length. simpl. replace (length l + 1)%nat with (S (length l)) by lia. simpl.
  rewrite app_nth2, Nat.sub_diag by lia. simpl. rewrite (rsum_ext _ _ (fun i => nth i l 0)) by (intros; rewrite app_nth1; auto).
  assert (forall l x, fold_right Rplus x l = fold_right Rplus 0 l + x) as E. { clear. induction l; intros; simpl. ring. rewrite IHl. ring. }
  rewrite E, IH. ring.
Qed.
Lemma mean_value (v : list R) : v <> [] -> vec_mean v = Ok (total v / INR (length v)).
Proof.
  intros H. unfold vec_mean. destruct (Nat.eqb_spec (length v) 0) as [E|]. destruct v; [congruence|discriminate].
  rewrite total_rsum. unfold vec_sum, nofnat, vget; simpl. rewrite nsum_rsum, <- INR_IZR_INZ. reflexivity.
Qed.
(** the mean is the sum of the components over their number, lies between every lower and upper bound of them, and the deviations from it sum to zero *)
Theorem C73_mean : forall v : list R, v <> [] -> exists m, vec_mean v = Ok m /\ m * INR (length v) = total v /\
  (forall a b, (forall x, In x v -> a <= x <= b) -> a <= m <= b) /\ total (map (fun x => x - m) v) = 0.
Proof.
  intros v H. exists (total v / INR (length v)). split. apply mean_value; auto.
  assert (0 < INR (length v)) as Hp. { apply lt_0_INR. destruct v; [congruence|simpl; lia]. }
  assert (total v / INR (length v) * INR (length v) = total v) as E by (field; lra). split; auto.
  assert (forall a b l, (forall x, In x l -> a <= x <= b) -> a * INR (length l) <= total l <= b * INR (length l)) as G.
  { clear. intros a b l. induction l; intros H. simpl. lra. specialize (IHl ltac:(intros; apply H; right; auto)). specialize (H a0 (or_introl eq_refl)).
    cbn [length total fold_right]. rewrite S_INR. unfold total in IHl. lra. }
  split.
  - intros a b Hab. destruct (G a b v Hab) as [G1 G2]. split. apply Rmult_le_reg_r with (INR (length v)); lra. apply Rmult_le_reg_r with (INR (length v)); lra.
  - assert (forall m l, total (map (fun x => x - m) l) = total l - m * INR (length l)) as G'.
    { clear. intros m l. induction l; cbn [total map fold_right length]. simpl; ring. rewrite S_INR. unfold total in IHl. rewrite IHl. ring. }
    rewrite G'. lra.
Qed.
Print Assumptions C73_mean.
Example C73_mean_case : vec_mean [1; 2; 6] = Ok 3.
Proof. rewrite mean_value by discriminate. apply f_equal. unfold total; simpl. field. Qed.
(** the standard deviation is not negative and its square is the mean of the squared distances to the mean; it vanishes exactly for constant vectors *)
Theorem C73_standard_deviation : forall v : list R, v <> [] -> exists m s, vec_mean v = Ok m /\ vec_std v = Ok s /\ 0 <= s /\
  s * s * INR (length v) = total (map (fun x => (x - m) * (x - m)) v) /\ (s = 0 <-> forall x y, In x v -> In y v -> x = y).
Proof.
  intros v H. destruct (C73_mean v H) as (m & Em & Hm & Hb & _). set (q := total (map (fun x => (x - m) * (x - m)) v)).
  assert (0 < INR (length v)) as Hp. { apply lt_0_INR. destruct v; [congruence|simpl; lia]. }
  assert (forall l, 0 <= total (map (fun x => (x - m) * (x - m)) l) /\ (total (map (fun x => (x - m) * (x - m)) l) = 0 -> forall x, In x l -> x = m)) as G.
  { clear. induction l as [|a l [IH1 IH2]]; cbn [map total fold_right]. simpl. split. lra. tauto. unfold total in *. pose proof (Rle_0_sqr (a - m)) as Q. unfold Rsqr in Q. split. lra.
    intros E x [->|Hx]. assert ((x - m) * (x - m) = 0) as Z by lra. apply Rmult_integral in Z. destruct Z; lra. apply IH2; auto. lra. }
  destruct (G v) as [G1 G2]. fold q in G1, G2.
  assert (0 <= q / INR (length v)) as Hq. { apply Rmult_le_pos; auto. apply Rlt_le, Rinv_0_lt_compat; auto. }
  exists m, (sqrt (q / INR (length v))). split; auto. split.
  { unfold vec_std. rewrite Em. cbn [bind]. apply f_equal. unfold nofnat; simpl. rewrite nsum_rsum, <- INR_IZR_INZ. apply f_equal. apply f_equal2; auto.
    unfold q. rewrite total_rsum, map_length. apply rsum_ext. intros i Hi. rewrite (nth_indep _ 0 ((0 - m) * (0 - m))) by (rewrite map_length; auto).
    rewrite (map_nth (fun x => (x - m) * (x - m))). reflexivity. }
  split. apply sqrt_pos. split. rewrite sqrt_sqrt by auto. unfold Rdiv. rewrite Rmult_assoc, Rinv_l, Rmult_1_r by lra. reflexivity. split.
  - intros E x y Hx Hy. assert (q = 0) as Q0. { apply sqrt_eq_0 in E; auto. apply (f_equal (fun t => t * INR (length v))) in E. field_simplify in E; lra. }
    rewrite (G2 Q0 x Hx), (G2 Q0 y Hy). auto.
  - intros E. assert (q = 0) as ->.
    { destruct v as [|a w]; [congruence|]. assert (forall x, In x (a :: w) -> a <= x <= a) as Ha. { intros x Hx. rewrite (E a x); auto. lra. left; auto. }
      specialize (Hb a a Ha). assert (m = a) as -> by lra. unfold q. clear - Ha. induction (a :: w) as [|b u IH]. reflexivity. cbn [map total fold_right].
      unfold total in IH. rewrite IH by (intros; apply Ha; right; auto). pose proof (Ha b (or_introl eq_refl)). assert (b = a) as -> by lra. ring. }
    unfold Rdiv. rewrite Rmult_0_l. apply sqrt_0.
Qed.
Print Assumptions C73_standard_deviation.
Example C73_std_case : [1; 3] <> [] /\ vec_std [1; 3] = Ok 1.
Proof.
  split. discriminate. destruct (C73_standard_deviation [1; 3]) as (m & s & Em & -> & Hs & Hq & _). discriminate.
  rewrite mean_value in Em by discriminate. injection Em as Em. unfold total in *; simpl in *. apply f_equal. assert (m = 2) as -> by lra. nra.
Qed.
Theorem C73_empty_throws : vec_mean (@nil R) = Throw RuntimeError /\ vec_std (@nil R) = Throw RuntimeError.
Proof. split; reflexivity. Qed.
Print Assumptions C73_empty_throws.

(** ** C74 *)
(** test data with d + 1 columns carry the true outputs, with d columns only inputs; the inputs are then scaled by the same box as the training inputs; the training data are left alone *)
Theorem C74_test_data : forall (s : sdata R) d file b, d_dim s = d -> (0 < d)%nat -> table file -> (0 < nrows file)%nat -> ncols file = S d \/ ncols file = d ->
  d_box s = b -> box_ok (Rlit 1 (-9)) d b ->
  exists s1 s2, data_readTest file s = (s1, Ok tt) /\ data_normTest (Rlit 1 (-9)) s1 = (s2, Ok tt) /\ f_testread s2 = true /\ d_nt s2 = nrows file /\
    d_Xrawtest s2 = file /\ rows (d_Xtest s2) = map (unit_row b d) (inputs d (rows file)) /\
    (ncols file = S d -> f_testf s2 = true /\ d_ytest s2 = outputs d (rows file)) /\ (ncols file = d -> f_testf s2 = f_testf s) /\
    d_n s2 = d_n s /\ d_nv s2 = d_nv s /\ d_dim s2 = d /\ d_X s2 = d_X s /\ d_Xraw s2 = d_Xraw s /\ d_y s2 = d_y s /\ d_Xval s2 = d_Xval s /\ d_yval s2 = d_yval s /\ d_box s2 = b.
Proof.
  intros s d file b Hd Hd0 Ht Hn Hc Eb Hb.
  destruct (box_no_zeros _ _ _ Hb) as (dx & Edx & Hdx). pose proof Hb as (Bs & Bd & Bl & Bu & Bz & Bb).
  assert (exists X y tf, data_readTest file s = (set_test file X y tf true (set_nt (nrows file) s), Ok tt) /\ ncols X = d /\ rows X = inputs d (rows file) /\
    (ncols file = S d -> tf = true /\ y = outputs d (rows file)) /\ (ncols file = d -> tf = f_testf s)) as (X & y & tf & E & HXc & HX & Hy & Htf).
  { unfold data_readTest. unfold sbind at 1, sget at 1. unfold sthrow_if. rewrite Hd. destruct (Nat.eqb_spec d 0); [lia|]. unfold sbind at 1, sret at 1. unfold sbind at 1, smod at 1.
    destruct (Nat.eqb_spec (ncols file) (d + 1)) as [E1|E1].
    - destruct (submat_rows file 0 d) as (X & EX & WX & RX & CX & HX); try lia. simpl in EX.
      exists X, (outputs d (rows file)), true. rewrite getCol_rows by lia. unfold sbind, slift, smod.
      rewrite EX. split; [reflexivity|]. repeat split; auto. intros. lia.
    - destruct (Nat.eqb_spec (ncols file) d) as [E2|E2]; [|lia]. exists file, (d_ytest s), (f_testf s). unfold smod. split. reflexivity. split; auto. split.
      + unfold inputs. rewrite <- (map_id (rows file)) at 1. apply map_ext_in. intros r Hr. rewrite firstn_all2; auto.
        apply (In_nth _ _ []) in Hr. destruct Hr as (i & Hi & <-). rewrite rows_length in Hi. rewrite nth_rows by auto. rewrite mrow_length. lia.
      + split; intros; auto. lia. }
  destruct (normalize_rows X b d _ Hb HXc Hd0) as (X' & EX' & WX' & RX' & CX' & HX').
  eexists. exists (set_test file X' y tf true (set_nt (nrows file) s)). split; [exact E|]. split.
  { unfold data_normTest. unfold sbind at 1, sget at 1. unfold sthrow_if. change (d_box (set_test file X y tf true (set_nt (nrows file) s))) with (d_box s). rewrite Eb, Bs. cbn [negb].
    unfold sbind at 1, sret at 1. rewrite Edx. unfold sbind at 1, slift at 1. rewrite Hdx. unfold sbind at 1, sret at 1.
    change (d_Xtest (set_test file X y tf true (set_nt (nrows file) s))) with X. rewrite EX'. reflexivity. }
  cbn -[unit_row inputs outputs rows]. rewrite HX', HX. repeat split; auto; try (apply Hy; auto).
Qed.
Print Assumptions C74_test_data.
(** any other width is refused *)
Theorem C74_wrong_columns_rejected : forall (s : sdata R) file, (0 < d_dim s)%nat -> ncols file <> S (d_dim s) -> ncols file <> d_dim s ->
  snd (data_readTest file s) = Throw RuntimeError.
Proof.
  intros s file Hd H1 H2. unfold data_readTest. unfold sbind at 1, sget at 1. unfold sthrow_if. destruct (Nat.eqb_spec (d_dim s) 0); [lia|]. unfold sbind at 1, sret at 1. unfold sbind at 1, smod at 1.
  destruct (Nat.eqb_spec (ncols file) (d_dim s + 1)); [lia|]. destruct (Nat.eqb_spec (ncols file) (d_dim s)); [lia|]. reflexivity.
Qed.
Print Assumptions C74_wrong_columns_rejected.

(** after a read with a validation split, going back to the full data makes every row of the file a training row, in file order, normalised, and leaves no validation row *)
Theorem C74_revert_to_full_data : forall (s : sdata R) d file perm b, can_read s d file -> d_val s = mat_empty -> 0 < d_ratio s < 1 ->
  Permutation perm (seq 0 (nrows file)) -> d_box s = b -> box_ok (Rlit 1 (-9)) d b ->
  exists s1 s2 s3, data_read file perm s = (s1, Ok tt) /\ data_normalize (Rlit 1 (-9)) s1 = (s2, Ok tt) /\ data_revert (Rlit 1 (-9)) s2 = (s3, Ok tt) /\
    d_n s3 = nrows file /\ d_nv s3 = 0%nat /\ d_dim s3 = d /\ rows (d_X s3) = map (unit_row b d) (inputs d (rows file)) /\ rows (d_Xraw s3) = inputs d (rows file) /\
    d_y s3 = outputs d (rows file) /\ d_yval s3 = [] /\ d_Xval s3 = mat_empty /\
    (f_grad s = true -> rows (d_grad s3) = map (stretch_row b d) (gradients d (rows file))).
Proof.
  intros s d file perm b (Ht & Hn & Hd & Hc & Hgd & Hdim) Hv Hr Hp Eb Hb.
  destruct (val_count_R (nrows file) (d_ratio s)) as (k & Ek & Hk & Hkb). lra.
  assert (k < nrows file)%nat as Hkn. { apply INR_lt. pose proof (lt_0_INR _ Hn). nra. }
  assert ((d_ratio s >! n0) = true) as Hr0 by (simpl; apply Rltb_true; lra).
  assert (table (d_val s)) as Htv. { rewrite Hv. split. reflexivity. simpl; lia. }
  destruct (data_read_split s file perm k d Ht Hd Hc Hgd Hdim Hr0 Ek Hkn Hp Htv) as (s1 & E & A1 & A2 & A3 & A4 & A5 & A6 & A7 & A8 & A9 & A10 & A11 & A12 & A13 & A14 & A15 & A16). { left. rewrite Hv. reflexivity. }
  destruct A1 as (S1 & S2 & S3 & S4 & S5 & S6 & S7).
  assert (nrows (d_X s1) = d_n s1) as Hn1. { rewrite <- (rows_length (d_X s1)), S3. unfold inputs. rewrite map_length. auto. }
  destruct (normalize_data_ok (Rlit 1 (-9)) d s1) as (s2 & E2 & N); auto.
  { rewrite A6, Eb. auto. } { intros H0. apply A13. lia. } { intros Hg. rewrite A4 in Hg. destruct (A16 Hg) as (G1 & G2 & G3). auto. }
  rewrite A6, Eb in N. destruct N.
  set (s2' := set_yval [] (set_Xval mat_empty mat_empty (set_n (nrows (d_raw s2)) (set_work (d_raw s2) (set_nv 0 s2))))).
  assert (d_raw s2 = file) as Er by congruence.
  assert (exists s3, data_assignAll s2' = (s3, Ok tt) /\ assigned s2' s3) as (s3 & E3 & A).
  { apply assignAll_ok; unfold s2'; cbn -[columns_ok]; try rewrite Er; try lia. replace (f_grad s2) with (f_grad s) by congruence. replace (f_dd s2) with (f_dd s) by congruence. rewrite z_dim, S1. auto.
    replace (f_grad s2) with (f_grad s) by congruence. replace (f_dd s2) with (f_dd s) by congruence. auto. }
  assert (shows_training s3 d (rows file)) as (T1 & T2 & T3 & T4 & T5 & T6 & T7).
  { rewrite <- Er. change (d_raw s2) with (d_work s2'). apply (shows_assigned s2' s3 d). destruct A. constructor; auto. cbn. congruence. reflexivity. }
  destruct (normalize_data_ok (Rlit 1 (-9)) d s3) as (s4 & E4 & N4); auto.
  { rewrite (a_box _ _ A). unfold s2'. cbn. rewrite z_box, A6, Eb. auto. }
  { rewrite (a_fr _ _ A). unfold s2'. cbn. congruence. }
  { destruct (a_X _ _ A) as (_ & -> & _). rewrite (a_n _ _ A). auto. }
  { destruct (a_X _ _ A) as (_ & _ & -> & _). rewrite <- T1. symmetry. apply (a_dim _ _ A). }
  { rewrite (a_nv _ _ A). unfold s2'; cbn. lia. }
  { intros Hg. rewrite (a_fg _ _ A) in Hg. destruct (a_g _ _ A Hg) as (G1 & _ & -> & _). split; auto. rewrite <- T1. symmetry. apply (a_dim _ _ A). }
  assert (d_box s3 = b) as Eb3. { rewrite (a_box _ _ A). unfold s2'; cbn. rewrite z_box, A6, Eb. auto. } rewrite Eb3 in N4. 
  exists s1, s2, s4. split; auto. split; auto. split.
  { unfold data_revert. rewrite (sbind_ok _ _ _ s2' tt) by reflexivity. rewrite (sbind_ok _ _ _ s3 tt) by exact E3. exact E4. }
  destruct N4. destruct (a_v0 _ _ A eq_refl) as (V1 & V2 & V3).
  assert (d_nv s3 = 0%nat) as Env by (rewrite (a_nv _ _ A); reflexivity).
  split. { rewrite z_n0, T2. apply rows_length. } split. congruence. split. congruence. split. { destruct z_X0 as (_ & _ & _ & ->). rewrite T3. auto. }
  split. { rewrite z_Xraw0. auto. } split. { rewrite z_y0. auto. } split. { rewrite z_yval0. auto. } split. { rewrite z_Xval2 by auto. auto. }
  intros Hg. assert (f_grad s3 = true) as Hg3. { rewrite (a_fg _ _ A). unfold s2'; cbn. congruence. } destruct (z_grad0 Hg3) as (_ & _ & _ & _ & ->). rewrite T6 by auto. auto.
Qed.
Print Assumptions C74_revert_to_full_data.
(** the hypotheses of the test data theorems are met *)
Example C74_example_test : (0 < 2)%nat /\ table (mkMat 1 3 [1; 1; 7]) /\ box_ok (Rlit 1 (-9)) 2 (mkB 2 [0; 0] [2; 4] true) /\
  map (unit_row (mkB 2 [0; 0] [2; 4] true) 2) (inputs 2 (rows (mkMat 1 3 [1; 1; 7]))) = [[1 / 4; 1 / 8]].
Proof.
  split. lia. split. { unfold table, wf. simpl. lia. } split. apply C34_example. unfold rows, inputs, unit_row. cbn. apply f_equal2; [apply f_equal2; [field|apply f_equal2; [field|reflexivity]]|reflexivity].
Qed.
Example C74_example_revert : exists s1 s2 s3, data_read data_example_file [2; 0; 1]%nat (set_box (mkB 2 [0; 0] [2; 4] true) (set_ratio (1/2) sdata_new)) = (s1, Ok tt) /\
  data_normalize (Rlit 1 (-9)) s1 = (s2, Ok tt) /\ data_revert (Rlit 1 (-9)) s2 = (s3, Ok tt) /\ d_n s3 = 3%nat /\ d_y s3 = [10; 20; 30].
Proof.
  destruct (C74_revert_to_full_data (set_box (mkB 2 [0; 0] [2; 4] true) (set_ratio (1/2) sdata_new)) 2 data_example_file [2; 0; 1]%nat (mkB 2 [0; 0] [2; 4] true))
    as (s1 & s2 & s3 & E1 & E2 & E3 & E4 & _ & _ & _ & _ & E5 & _); auto.
  apply data_example_can_read. simpl; lra. simpl. apply (perm_trans (perm_swap _ _ _)). apply perm_skip. apply perm_swap. apply C34_example.
  exists s1, s2, s3. rewrite E5. auto 10.
Qed.

(** ** C01, scalar bounds: the same as normalising with constant bound vectors *)
Theorem C01_scalar_bounds : forall (v : list R) a b, vec_normalize v (repeat a (length v)) (repeat b (length v)) = Ok (vec_normalizeS v a b).
Proof.
  intros v a b. unfold vec_normalize, vec_normalizeS. rewrite !repeat_length, Nat.ltb_irrefl. cbn [orb]. apply f_equal. unfold vbuild. apply map_ext_in. intros i Hi. apply in_seq in Hi.
  rewrite !vget_repeat by lia. reflexivity.
Qed.
Print Assumptions C01_scalar_bounds.
