(** What the client programs of KrigProg compute, in terms of KrigSpec. *)
From Coq Require Import Reals Lra List Arith Lia ZArith Bool Permutation.
From Verif Require Import Base StM Num RealNum RSpec VecModel MatModel MatLemmas MatSpec VecProofs VecReal MatProofs MatProofs2 MatReal CholProofs CholProofs2 DetSpec LuProofs LuProofs2 LuComplete
  LinSolverModel LinSolverProofs BoundsModel CorrModel CorrProofs CorrSpec PsdKernel CorrObj DataModel DataSpec DataProofs DataReal KrigModel KrigSpec KrigMath KrigProofs KrigProofs2 KrigProofs3 KrigProg KrigProofs4 PropsData.
Import ListNotations.
Local Open Scope R_scope.

Lemma points_length b d tr : length (points b d tr) = length tr.
Proof. apply upts_length. Qed.
Lemma points_row b d tr i : (i < length tr)%nat -> length (nth i (points b d tr) []) = d.
Proof. apply upts_row. Qed.
Lemma setup_regular lin d b eps file hs th ga : setup lin d b eps file hs th ga -> kregular d th ga eps (points b d (rows file)).
Proof.
  intros []. destruct (Req_dec eps 0) as [->|]. split. lra. rewrite points_length, rows_length. auto. apply kregular_eps; auto. lra.
Qed.
Lemma setup_same lin d b eps file file' hs th ga : setup lin d b eps file hs th ga -> same_inputs d file file' -> setup lin d b eps file' hs th ga.
Proof.
  intros [] (H1 & H2 & H3 & H4). constructor; auto; try lia. rewrite H2. unfold points in *. rewrite H4. auto.
Qed.
Lemma same_points b d file file' : same_inputs d file file' -> points b d (rows file') = points b d (rows file).
Proof. intros (_ & _ & _ & H). unfold points. rewrite H. auto. Qed.

(** everything observable of a fitted model *)
Record describes (k : krig R) (lin : bool) (d : nat) (b : bnds R) (eps : R) (file : mat R) (th ga : list R) (c : nat -> R) (w : nat -> R) : Prop := {
  de_lin : lin = true -> normal_eqs d (points b d (rows file)) (output d (rows file)) (1 / 10 ^ 8) c;
  de_kr : kriging d th ga eps (points b d (rows file)) (fun i => output d (rows file) i - trend lin d c (nth i (points b d (rows file)) [])) (k_beta0 k) w (k_s2 k);
  de_int : forall x, length x = d -> krig_interpolate k x = Ok (trend lin d c x + kpredict d th ga (points b d (rows file)) (k_beta0 k) w x);
  de_var : forall x, length x = d -> exists u, kvar_factor d th ga eps (points b d (rows file)) x u /\
     krig_variance k x = Ok (trend lin d c x + kpredict d th ga (points b d (rows file)) (k_beta0 k) w x, k_s2 k * u) }.
Lemma session_full lin d b eps file perm hs th ga : setup lin d b eps file hs th ga ->
  exists k c w, krig_session lin d b eps 0 file perm hs krig_new = (k, Ok tt) /\ describes k lin d b eps file th ga c w.
Proof.
  intros S. pose proof (setup_regular _ _ _ _ _ _ _ _ S) as HR. pose proof (su_par _ _ _ _ _ _ _ _ S) as HP. destruct (session_ok lin d b eps file perm hs th ga S) as (k & c & ys & E & F & _). exists k, c, (vget (k_Rysb k)). split; auto.
  constructor.
  - intros Hl. apply (fitted_normal _ _ _ _ _ _ _ _ _ _ _ F Hl).
  - apply (fitted_kriging _ _ _ _ _ _ _ _ _ _ _ F); auto.
  - intros x Hx. apply (fitted_predict _ _ _ _ _ _ _ _ _ _ _ _ F); auto.
  - intros x Hx. apply (fitted_variance _ _ _ _ _ _ _ _ _ _ _ _ F); auto.
Qed.
(** two descriptions over the same points agree when trend coefficients and outputs agree *)
Lemma describes_pred k lin d b eps file th ga c w c' beta' w' s2' : (0 < nrows file)%nat -> kparams d th ga -> kregular d th ga eps (points b d (rows file)) -> describes k lin d b eps file th ga c w ->
  (forall x, trend lin d c' x = trend lin d c x) ->
  kriging d th ga eps (points b d (rows file)) (fun i => output d (rows file) i - trend lin d c' (nth i (points b d (rows file)) [])) beta' w' s2' ->
  k_s2 k = s2' /\ forall x, length x = d -> krig_interpolate k x = Ok (trend lin d c' x + kpredict d th ga (points b d (rows file)) beta' w' x).
Proof.
  intros Hn HP HR D HT K. assert (0 < length (points b d (rows file)))%nat as Hl by (rewrite points_length, rows_length; auto).
  apply (kriging_ext _ _ _ _ _ _ (fun i => output d (rows file) i - trend lin d c (nth i (points b d (rows file)) []))) in K. 2:{ intros i Hi. rewrite HT. auto. }
  destruct (kriging_unique d th ga eps (points b d (rows file)) HR _ _ _ _ _ _ _ Hl (de_kr _ _ _ _ _ _ _ _ _ _ D) K) as (-> & W & ->). split; auto.
  intros x Hx. rewrite (de_int _ _ _ _ _ _ _ _ _ _ D x Hx), HT. rewrite (kpredict_ext d th ga _ _ w w' x); auto.
Qed.

(** linear combinations *)
Lemma kriging_comb d th ga eps pts a1 a2 y1 beta1 w1 s1 y2 beta2 w2 s2 : (0 < length pts)%nat -> kriging d th ga eps pts y1 beta1 w1 s1 -> kriging d th ga eps pts y2 beta2 w2 s2 ->
  exists s, kriging d th ga eps pts (fun i => a1 * y1 i + a2 * y2 i) (a1 * beta1 + a2 * beta2) (fun i => a1 * w1 i + a2 * w2 i) s.
Proof.
  intros Hn [A1 A2 A3] [B1 B2 B3]. assert (INR (length pts) <> 0) by (apply not_0_INR; lia).
  exists (/ INR (length pts) * rsum (length pts) (fun i => (a1 * y1 i + a2 * y2 i - (a1 * beta1 + a2 * beta2)) * (a1 * w1 i + a2 * w2 i))). constructor.
  - intros i Hi. rewrite (mv_plus _ _ (fun j => a1 * w1 j) (fun j => a2 * w2 j)), !mv_scal, A1, B1 by auto. ring.
  - rewrite rsum_plus, !rsum_scal, A2, B2. ring.
  - rewrite <- Rmult_assoc, Rinv_r, Rmult_1_l by auto. auto.
Qed.
Lemma kpredict_comb d th ga pts a1 a2 beta1 w1 beta2 w2 x :
  kpredict d th ga pts (a1 * beta1 + a2 * beta2) (fun i => a1 * w1 i + a2 * w2 i) x = a1 * kpredict d th ga pts beta1 w1 x + a2 * kpredict d th ga pts beta2 w2 x.
Proof.
  unfold kpredict. rewrite (rsum_ext _ (fun j => kcorr d th ga x (nth j pts []) * (a1 * w1 j + a2 * w2 j)) (fun j => a1 * (kcorr d th ga x (nth j pts []) * w1 j) + a2 * (kcorr d th ga x (nth j pts []) * w2 j))) by (intros; ring).
  rewrite rsum_plus, !rsum_scal. ring.
Qed.
Lemma lpredict_comb d a1 a2 c1 c2 x : lpredict d (fun j => a1 * c1 j + a2 * c2 j) x = a1 * lpredict d c1 x + a2 * lpredict d c2 x.
Proof.
  unfold lpredict. rewrite (rsum_ext d _ (fun j => a1 * (nth j x 0 * c1 (S j)) + a2 * (nth j x 0 * c2 (S j)))) by (intros; ring). rewrite rsum_plus, !rsum_scal. ring.
Qed.
Lemma normal_comb d pts a1 a2 y1 y2 lam c1 c2 : normal_eqs d pts y1 lam c1 -> normal_eqs d pts y2 lam c2 -> normal_eqs d pts (fun i => a1 * y1 i + a2 * y2 i) lam (fun j => a1 * c1 j + a2 * c2 j).
Proof.
  intros H1 H2 j Hj. specialize (H1 j Hj). specialize (H2 j Hj).
  rewrite (rsum_ext _ (fun i => phi (nth i pts []) j * (a1 * y1 i + a2 * y2 i)) (fun i => a1 * (phi (nth i pts []) j * y1 i) + a2 * (phi (nth i pts []) j * y2 i))) by (intros; ring).
  rewrite (rsum_ext _ (fun i => phi (nth i pts []) j * lpredict d (fun j => a1 * c1 j + a2 * c2 j) (nth i pts [])) (fun i => a1 * (phi (nth i pts []) j * lpredict d c1 (nth i pts [])) + a2 * (phi (nth i pts []) j * lpredict d c2 (nth i pts [])))) by (intros; rewrite lpredict_comb; ring).
  rewrite !rsum_plus, !rsum_scal, <- H1, <- H2. ring.
Qed.
Lemma trend_comb lin d a1 a2 c1 c2 x : trend lin d (fun j => a1 * c1 j + a2 * c2 j) x = a1 * trend lin d c1 x + a2 * trend lin d c2 x.
Proof. unfold trend. destruct lin. apply lpredict_comb. ring. Qed.
Lemma trend_unique lin d pts y c c' : (lin = true -> normal_eqs d pts y (1 / 10 ^ 8) c) -> (lin = true -> normal_eqs d pts y (1 / 10 ^ 8) c') -> forall x, trend lin d c' x = trend lin d c x.
Proof. intros H H' x. unfold trend. destruct lin; auto. apply lpredict_ext. intros j Hj. apply (normal_eqs_unique d pts y (1 / 10 ^ 8)); auto. lra. Qed.

(** the linear model *)
Lemma lin_train_frame (s s' : lmodel R) : lin_train s = (s', Ok tt) -> exists w, s' = lset_w w s.
Proof.
  unfold lin_train. unfold sbind at 1, sget at 1. unfold sthrow_if.
  destruct (negb (l_norm s)); [discriminate|]. unfold sbind at 1, sret at 1.
  destruct (negb (l_read s)); [discriminate|]. unfold sbind at 1, sret at 1.
  destruct (Nat.eqb (l_dim s) 0); [discriminate|]. unfold sbind at 1, sret at 1.
  destruct (Nat.eqb (l_n s) 0); [discriminate|]. unfold sbind at 1, sret at 1.
  unfold sbind, slift. repeat match goal with |- context[match ?X with Ok _ => _ | Throw _ => _ | UB => _ end] => destruct X; try discriminate end.
  unfold smod. intros H. injection H as <-. eauto.
Qed.
Lemma lin_initialize_frame (s s' : lmodel R) : lin_initialize s = (s', Ok tt) -> exists w, s' = mkL (l_dim s) (l_n s) (l_data s) w (1 / 10 ^ 8) (l_read s) (l_norm s) true.
Proof.
  unfold lin_initialize. unfold sbind at 1, sget at 1. unfold sthrow_if.
  destruct (negb (l_read s)); [discriminate|]. unfold sbind at 1, sret at 1.
  destruct (Nat.eqb (l_dim s) 0); [discriminate|]. unfold sbind at 1, sret at 1.
  unfold sbind at 1, smod at 1. unfold sbind at 1. destruct (lin_train _) as (s2 & [[]|e|]) eqn:E; try discriminate.
  apply lin_train_frame in E. destruct E as (w & ->). unfold smod. intros H. injection H as <-. exists w. unfold lset_w, lset_reg. cbn [l_dim l_n l_data l_w l_reg l_read l_norm]. replace (@nlit R RNum 1 (-8)) with (1 / 10 ^ 8) by (simpl; unfold Rlit; simpl; lra). reflexivity.
Qed.
Lemma lin_session_ok d b file : (0 < d)%nat -> (d < 100)%nat -> box_ok ztol d b -> table file -> (0 < nrows file)%nat -> ncols file = S d ->
  exists s, lin_session d b file lmodel_new = (s, Ok tt) /\ l_dim s = d /\ length (l_w s) = S d /\ l_reg s = 1 / 10 ^ 8 /\
    normal_eqs d (points b d (rows file)) (output d (rows file)) (1 / 10 ^ 8) (vget (l_w s)) /\ lready s d (points b d (rows file)) (outputs d (rows file)).
Proof.
  intros Hd Hd1 Hb Ht Hn Hc. destruct Hb as (Bs & Hb'). pose proof (conj Bs Hb') as Hb.
  set (s0 := set_box b (@sdata_new R RNum)). assert (dconf s0 d b) as DC. { constructor; auto. cbn. destruct (Rltb_spec 0 0); auto; lra. }
  destruct (read_plain_loaded s0 d b file [] DC Hd Ht Hn Hc) as (s1 & E1 & DL & Nv & _).
  destruct (normalize_loaded s1 d b (rows file) file DL Hb Hd) as (s2 & E2 & N & (A1 & A2 & A3 & A4 & A5 & A6)).
  set (l := mkL d (d_n s1) s2 [] 0 true true false : lmodel R).
  assert (lready l d (points b d (rows file)) (outputs d (rows file))) as Q.
  { constructor; auto; cbn [l l_n l_data]; rewrite ?points_length, ?rows_length; auto.
    - rewrite <- (z_n _ _ _ _ N), A5, rows_length. auto.
    - rewrite A1, rows_length. auto.
    - rewrite outputs_length, rows_length. auto. }
  destruct (lin_initialize_ok l d _ _ Q) as (I1 & I2). destruct (I2 Hd1) as (s & Es). destruct (I1 s Es) as (w & W1 & W2 & W3 & W4 & W5).
  destruct (lin_initialize_frame _ _ Es) as (w0 & Fr).
  exists s. split.
  - unfold lin_session. rewrite (sbind_ok _ _ _ (mkL d 0 sdata_new [] n0 false false false) tt) by reflexivity.
    rewrite (sbind_ok _ _ _ (mkL d 0 s0 [] n0 false false false) tt).
    2:{ unfold lin_setBox, sbind, sassert, in_ldata, szoom, data_setBox, sbind, sassert. rewrite Bs. reflexivity. }
    rewrite (sbind_ok _ _ _ (mkL d (d_n s1) s1 [] n0 true false false) tt).
    2:{ unfold lin_readData, sbind, in_ldata, szoom. cbn [l_data]. rewrite E1. reflexivity. }
    rewrite (sbind_ok _ _ _ l tt). exact Es.
    unfold lin_normalizeData, sbind, in_ldata, szoom, sget. cbn [l_data l_read sassert]. unfold sret. cbn [l_data]. rewrite zero_tol_eq, E2. reflexivity.
  - subst w. split; auto. split; auto. split. rewrite Fr. auto. split; auto.
    rewrite Fr. destruct Q. constructor; auto.
Qed.

(** with a validation split the training rows are those that were not held out *)
Lemma session_split lin d b eps ratio file perm hs th ga : setup lin d b eps file hs th ga -> 0 < eps -> 0 < ratio < 1 -> Permutation perm (seq 0 (nrows file)) ->
  exists k c ys q, krig_session lin d b eps ratio file perm hs krig_new = (k, Ok tt) /\ INR q <= ratio * INR (nrows file) < INR q + 1 /\ (q < nrows file)%nat /\
    fitted k d b lin eps (unpicked (firstn q perm) (rows file)) file c th ga ys.
Proof.
  intros [] He Hr Hp. destruct (krig_config lin d b eps ratio) as (k0 & E0 & KC & Cf & KD); auto; try lra.
  destruct (val_count_R (nrows file) ratio) as (q & Ek & Hk & Hb). lra.
  assert (q < nrows file)%nat as Hqn. { apply INR_lt. pose proof (lt_0_INR _ su_n). nra. }
  assert (length (firstn q perm) = q) as Hl. { rewrite firstn_length, (Permutation_length Hp), seq_length. lia. }
  assert (NoDup (firstn q perm)) as Hnd. { apply NoDup_firstn. apply (Permutation_NoDup (Permutation_sym Hp)), seq_NoDup. }
  assert (forall i, In i (firstn q perm) -> (i < length (rows file))%nat) as Hin.
  { intros i Hi. rewrite rows_length. assert (In i perm) as Hi' by (rewrite <- (firstn_skipn q perm); apply in_or_app; auto).
    apply (Permutation_in _ Hp) in Hi'. apply in_seq in Hi'. lia. }
  destruct (data_read_split (k_data k0) file perm q d) as (s1 & E & A1 & A2 & A3 & A4 & A5 & A6 & A7 & A8 & A9 & A10 & A11 & A12 & A13 & A14 & A15 & A16); auto.
  { rewrite KD. cbn. lia. } { rewrite KD. auto. } { rewrite KD. cbn. auto. } { rewrite KD. cbn. apply Rltb_true; lra. } { rewrite KD. exact Ek. } { rewrite KD. split. reflexivity. simpl; lia. } { left. rewrite KD. auto. }
  assert (dloaded s1 d b (unpicked (firstn q perm) (rows file)) file) as DL.
  { constructor; auto. rewrite unpicked_length; auto. rewrite Hl, rows_length. lia. rewrite A4, KD; auto. rewrite A5, KD; auto. rewrite A6, KD; auto. intros Hv. rewrite A8 in Hv. apply A13; auto. }
  destruct (krig_load_ok k0 d b lin eps file perm s1 _ KC su_box su_d su_lin su_file su_n su_cols E DL) as (k1 & c & th0 & ga0 & ys & s2 & E1 & F1 & _ & _ & _ & P). destruct (P Cf) as (-> & ->).
  destruct (krig_hyper_steps hs _ _ _ _ _ _ _ _ _ _ _ F1 su_hs) as (k2 & th' & ga' & E2 & HL & L2 & F2 & D2).
  rewrite su_last in HL. destruct (app_inv_len _ _ _ _ HL) as (-> & ->). { destruct su_par. lia. }
  exists k2, c, ys, q. split; [|auto]. rewrite krig_session_parts, (sbind_ok _ _ _ _ _ E0), (sbind_ok _ _ _ _ _ E1). auto.
Qed.
(** the in-sample error compares the predictions at the training points with the first outputs of the file *)
Lemma inSample_ok k d b lin eps tr file c th ga ys f : fitted k d b lin eps tr file c th ga ys -> (0 < d)%nat -> table file -> ncols file = S d -> (length tr <= nrows file)%nat ->
  (forall i, (i < length tr)%nat -> krig_interpolate k (nth i (points b d tr) []) = Ok (f i)) ->
  krig_inSampleError k = Ok (rsum (length tr) (fun i => (f i - output d (rows file) i) ^ 2) / INR (length tr)).
Proof.
  intros F Hd Ht Hc Hle Hf. unfold krig_inSampleError. rewrite (ft_init _ _ _ _ _ _ _ _ _ _ _ F). cbn [negb]. pose proof (ft_conf _ _ _ _ _ _ _ _ _ _ _ F) as []. rewrite kc_dim, (ft_raw _ _ _ _ _ _ _ _ _ _ _ F).
  destruct (ft_X _ _ _ _ _ _ _ _ _ _ _ F) as (X1 & X2 & X3). rewrite (ft_dn _ _ _ _ _ _ _ _ _ _ _ F).
  rewrite getCol_rows by lia. cbn [bind]. change (map (fun r => nth d r n0) (rows file)) with (outputs d (rows file)).
  match goal with |- context[loopR _ ?g _] => assert (forall m, (m <= length tr)%nat -> loopR m g 0 = Ok (rsum m (fun i => (f i - output d (rows file) i) ^ 2))) as L end.
  { induction m; intros Hm. auto. cbn [loopR]. rewrite IHm by lia. cbn [bind]. rewrite (getRow_ok _ m) by (auto; lia). cbn [bind].
    rewrite X1. change (upts b d tr) with (points b d tr). rewrite Hf by lia. cbn [bind]. unfold vec_at. rewrite outputs_length, rows_length.
    destruct (Nat.leb_spec (nrows file) m); [lia|]. cbn [bind rsum]. f_equal. simpl. unfold output, vget. simpl. ring. }
  change (@n0 R RNum) with 0. rewrite L by auto. cbn [bind]. unfold nofnat. simpl. rewrite <- INR_IZR_INZ. auto.
Qed.
