(** The training over the reals: selection over the threads, bounds of the hyper-parameters, the model that is left. *)
From Coq Require Import Reals Lra List Arith Lia ZArith Bool Permutation.
From Verif Require Import Base StM Num RealNum RSpec VecModel MatModel MatLemmas MatSpec VecProofs VecReal MatProofs MatProofs2 MatProofs3 MatReal LinSolverModel BoundsModel CorrModel CorrProofs CorrSpec CorrObj
  DataModel DataSpec DataProofs DataReal KrigModel KrigSpec KrigMath KrigProofs KrigProofs2 KrigProofs3 KrigProg KrigProofs4 PropsData KrigProofs5 EaModel EaProofs EaRun EaReal PropsEa TrainModel TrainProofs.
Import ListNotations.
Local Open Scope R_scope.

Lemma sbind_inv {S A B} (m : SM S A) (f : A -> SM S B) s s' b : sbind m f s = (s', Ok b) -> exists s1 a, m s = (s1, Ok a) /\ f a s1 = (s', Ok b).
Proof. unfold sbind. destruct (m s) as [s1 [a|e|]]; intros H; try discriminate. eauto. Qed.
Lemma zoom_inv {S U A} (g : S -> U) (p : U -> S -> S) (m : SM U A) s s' a : szoom g p m s = (s', Ok a) -> exists u, m (g s) = (u, Ok a) /\ s' = p u s.
Proof. unfold szoom. destruct (m (g s)) as [u r]. intros H. injection H as <- ->. eauto. Qed.

(** *** selection *)
Lemma threads_list {T} {NT : Num T} (c : econf T) us ws order : forall g g', train_threads c us ws order g = Ok (Some g') ->
  exists l, Forall2 (fun j i => train_thread c (us j) (ws j) = Ok (Some i)) order l /\ g' = fold_left train_better l g.
Proof.
  induction order as [|j order IH]; intros g g' H; cbn [train_threads] in H.
  - injection H as <-. exists []. split; auto.
  - destruct (train_thread c (us j) (ws j)) as [[i|]|e|] eqn:E; cbn [bind] in H; try discriminate. destruct (IH _ _ H) as (l & L1 & L2). exists (i :: l). split; auto.
Qed.
Lemma better_fold (l : list (ind R)) : forall g, let g' := fold_left train_better l g in
  snd g' <= snd g /\ (forall i, In i l -> snd g' <= i_obj i) /\ (g' = g \/ exists i, In i l /\ g' = (i_genes i, i_obj i) /\ i_obj i < snd g).
Proof.
  induction l as [|i l IH]; intros g; cbn [fold_left].
  - cbv zeta. split. lra. split. intros i []. auto.
  - cbv zeta. destruct (IH (train_better g i)) as (A & B & C). unfold train_better in *. change (i_obj i <! snd g) with (Rltb (i_obj i) (snd g)) in *.
    destruct (Rltb_spec (i_obj i) (snd g)) as [L|L]; cbn [snd] in *.
    + split. lra. split. { intros j [<-|Hj]; auto. } right. destruct C as [->|(j & J1 & J2 & J3)]. exists i. cbn. auto. exists j. cbn. split; auto. split; auto. lra.
    + split; auto. split. { intros j [<-|Hj]; auto. lra. } destruct C as [->|(j & J1 & J2 & J3)]; auto. right. exists j. cbn. auto.
Qed.
Lemma thread_sound (c : econf R) us ws i : (forall k j, 0 <= us k j < 1) -> train_thread c us ws = Ok (Some i) ->
  length (i_genes i) = c_dim c /\ (forall k, (k < c_dim c)%nat -> nth k (c_lo c) 0 <= nth k (i_genes i) 0 <= nth k (c_up c) 0) /\ c_f c (i_genes i) = Ok (i_obj i).
Proof.
  intros Hu H. unfold train_thread in H. destruct (ea_optimize c us ws (ea_new (c_dim c))) as [[e|]|e|] eqn:E; cbn [bind] in H; try discriminate.
  destruct (C50_solution c us ws (c_dim c) e Hu E) as (i' & S1 & S2 & S3 & S4). rewrite S1 in H. cbn [bind] in H. injection H as <-. split; auto.
  apply (C50_genes_in_box c us ws (c_dim c) e Hu E). apply in_or_app. auto.
Qed.
Lemma optimizer_conf (t : trainer R) gens iters c : train_optimizer t gens iters = Ok c ->
  k_read (t_k t) = true /\ k_norm (t_k t) = true /\ k_init (t_k t) = true /\ c_dim c = (2 * k_dim (t_k t))%nat /\ c_lo c = train_lower (k_dim (t_k t)) /\ c_up c = train_upper (k_dim (t_k t)) /\
  c_f c = train_objective (t_val t) (t_k t) /\ c_max c = iters /\ c_gens c = gens /\ iters <> 0%nat.
Proof.
  unfold train_optimizer. destruct (k_read (t_k t)); [|discriminate]. destruct (k_norm (t_k t)); [|discriminate]. destruct (k_init (t_k t)); [|discriminate]. cbn [negb].
  unfold ec_setBounds. cbn [c_dim]. destruct (negb _); [discriminate|]. destruct (negb _); [discriminate|]. destruct (vec_gt _ _) as [[|]|e|]; cbn [bind]; try discriminate.
  unfold ec_setMutation. destruct (_ || _)%bool; [discriminate|]. cbn [bind]. unfold ec_setMax. destruct (Nat.eqb_spec iters 0); [discriminate|]. intros H. injection H as <-. cbn. auto 12.
Qed.

(** bounds: 0..20 and 1..2 *)
Definition trained_range (d : nat) (th ga : list R) : Prop := length th = d /\ length ga = d /\ forall j, (j < d)%nat -> 0 <= nth j th 0 <= 20 /\ 1 <= nth j ga 0 <= 2.
Lemma range_kparams d th ga : trained_range d th ga -> kparams d th ga.
Proof. intros (A & B & C). split; auto. split; auto. intros k Hk. destruct (C k Hk). lra. Qed.
Lemma box_range d h : length h = (2 * d)%nat -> (forall k, (k < 2 * d)%nat -> nth k (train_lower d) 0 <= nth k h 0 <= nth k (train_upper d) 0) -> trained_range d (firstn d h) (skipn d h).
Proof.
  intros L H. split. rewrite firstn_length. lia. split. rewrite skipn_length. lia. intros j Hj.
  assert (forall x y : R, nth j (repeat x d ++ repeat y d) 0 = x) as N1.
  { intros. rewrite app_nth1 by (rewrite repeat_length; auto). rewrite (nth_indep _ 0 x) by (rewrite repeat_length; auto). apply nth_repeat. }
  assert (forall x y : R, nth (d + j) (repeat x d ++ repeat y d) 0 = y) as N2.
  { intros. rewrite app_nth2 by (rewrite repeat_length; lia). rewrite repeat_length. replace (d + j - d)%nat with j by lia. rewrite (nth_indep _ 0 y) by (rewrite repeat_length; auto). apply nth_repeat. }
  pose proof (H j ltac:(lia)) as H1. pose proof (H (d + j)%nat ltac:(lia)) as H2. unfold train_lower, train_upper in *. rewrite !N1 in H1. rewrite !N2 in H2.
  change (@n0 R RNum) with 0 in *. change (@n1 R RNum) with 1 in *. change (@nofZ R RNum 20) with (IZR 20) in *. change (@nofZ R RNum 2) with (IZR 2) in *.
  assert (nth j (firstn d h) 0 = nth j h 0) as ->. { rewrite <- (firstn_skipn d h) at 2. rewrite app_nth1; auto. rewrite firstn_length. lia. }
  assert (nth j (skipn d h) 0 = nth (d + j) h 0) as ->. { rewrite <- (firstn_skipn d h) at 2. rewrite app_nth2; rewrite firstn_length, Nat.min_l by lia. f_equal. lia. lia. }
  auto.
Qed.

(** *** going back to the full data *)
Record full_able (s : sdata R) (d : nat) (b : bnds R) (file : mat R) : Prop := {
  fa_raw : d_raw s = file; fa_dim : d_dim s = d; fa_fg : f_grad s = false; fa_fd : f_dd s = false; fa_box : d_box s = b; fa_read : f_read s = true }.
Lemma revert_ok (s : sdata R) d b file : full_able s d b file -> (0 < d)%nat -> box_ok ztol d b -> table file -> (0 < nrows file)%nat -> ncols file = S d ->
  exists s', data_revert ztol s = (s', Ok tt) /\ after_norm s' d b (rows file) /\ full_able s' d b file /\ d_nv s' = 0%nat.
Proof.
  intros [] Hd Hb Ht Hn Hc. set (s2 := set_yval [] (set_Xval mat_empty mat_empty (set_n (nrows (d_raw s)) (set_work (d_raw s) (set_nv 0 s))))).
  assert (exists s3, data_assignAll s2 = (s3, Ok tt) /\ assigned s2 s3) as (s3 & E3 & A).
  { apply assignAll_ok; unfold s2; cbn -[columns_ok]; try rewrite fa_raw0; try lia. rewrite fa_fg0, fa_fd0, fa_dim0. simpl. lia. rewrite fa_fg0. auto. }
  assert (shows_training s3 d (rows file)) as ST.
  { rewrite <- fa_raw0. change (d_raw s) with (d_work s2). apply (shows_assigned s2 s3 d). destruct A. constructor; auto. auto. reflexivity. }
  pose proof ST as (T1 & T2 & T3 & T4 & T5 & T6 & T7).
  assert (dloaded s3 d b (rows file) file) as DL.
  { constructor; auto. rewrite rows_length; auto. rewrite (a_raw _ _ A). exact fa_raw0. rewrite (a_fr _ _ A). exact fa_read0. rewrite (a_fg _ _ A). exact fa_fg0. rewrite (a_fd _ _ A). exact fa_fd0.
    rewrite (a_box _ _ A). exact fa_box0. apply (a_X _ _ A). destruct (a_X _ _ A) as (_ & _ & -> & _). exact fa_dim0. rewrite (a_nv _ _ A). cbn. lia. }
  destruct (normalize_loaded s3 d b _ file DL Hb Hd) as (s4 & E4 & N & AN). exists s4. split.
  { unfold data_revert. rewrite (sbind_ok _ _ _ s2 tt) by reflexivity. rewrite (sbind_ok _ _ _ s3 tt) by exact E3. exact E4. }
  split; auto. destruct N, DL. split. constructor; try congruence. rewrite z_nv, (a_nv _ _ A). reflexivity.
Qed.

Definition with_hyper (th ga : list R) (k : krig R) : krig R := kset_cf (mkE (ec_b (k_cf k)) th ga) k.
Lemma setHyper_step k d b lin eps tr file c th ga ys h : fitted k d b lin eps tr file c th ga ys -> length h = (2 * d)%nat ->
  in_kcf (fun c => ecf_setHyper c h) k = (with_hyper (firstn d h) (skipn d h) k, Ok tt).
Proof.
  intros F Hh. pose proof (ft_ready _ _ _ _ _ _ _ _ _ _ _ F) as []. destruct (ecf_setHyper_ok (k_cf k) h) as (A & _). lia. rewrite q_cd in A. destruct (A Hh) as (th' & ga' & L1 & L2 & E & ES).
  unfold in_kcf, szoom. rewrite ES. subst h. rewrite firstn_app, L1, Nat.sub_diag, firstn_O, app_nil_r, firstn_all2 by lia. rewrite skipn_app, L1, Nat.sub_diag, skipn_all2 by lia. reflexivity.
Qed.
(** update after setting hyper-parameters *)
Lemma update_with k d b lin eps tr file c th0 ga0 ys th ga : fitted k d b lin eps tr file c th0 ga0 ys -> length th = d -> length ga = d ->
  exists k', krig_update (with_hyper th ga k) = (k', Ok tt) /\ fitted k' d b lin eps tr file c th ga ys /\ k_data k' = k_data k.
Proof.
  intros F L1 L2. destruct (krig_hyper_step _ _ _ _ _ _ _ _ _ _ _ (th ++ ga) F) as (k' & th' & ga' & E & Eh & L' & F' & D'). rewrite app_length. lia.
  destruct (app_inv_len _ _ _ _ Eh) as (<- & <-). lia. exists k'. split; auto.
  pose proof (ft_ready _ _ _ _ _ _ _ _ _ _ _ F) as []. unfold sbind at 1, krig_setHyper in E. unfold sbind at 1, sget at 1 in E. rewrite q_nhyp, app_length, L1, L2 in E. replace (d + d)%nat with (2 * d)%nat in E by lia. rewrite Nat.eqb_refl in E. cbn [negb] in E.
  unfold sthrow_if in E. unfold sbind at 1, sret at 1 in E. rewrite (setHyper_step _ _ _ _ _ _ _ _ _ _ _ _ F) in E by (rewrite app_length; lia).
  rewrite firstn_app, L1, Nat.sub_diag, firstn_O, app_nil_r, firstn_all2 in E by lia. rewrite skipn_app, L1, Nat.sub_diag, skipn_all2 in E by lia. exact E.
Qed.
Lemma revert_with k d b lin eps tr file c th0 ga0 ys th ga : fitted k d b lin eps tr file c th0 ga0 ys -> full_able (k_data k) d b file -> box_ok ztol d b -> table file -> (0 < nrows file)%nat -> ncols file = S d ->
  length th = d -> length ga = d ->
  exists k' ys', (run train_revert; krig_update) (with_hyper th ga k) = (k', Ok tt) /\ fitted k' d b lin eps (rows file) file c th ga ys' /\ d_nv (k_data k') = 0%nat /\ full_able (k_data k') d b file.
Proof.
  intros [F1 F2 F3 F4 F5 F6 F6b F7 F8 F9 F10] FA Hb Ht Hn Hc L1 L2. pose proof F2 as []. pose proof F1 as [].
  destruct (revert_ok _ _ _ _ FA q_d0 Hb Ht Hn Hc) as (s & ER & (X1 & X2 & X3 & X4 & X5 & X6) & FA' & NV).
  set (n := nrows file) in *. assert (length (rows file) = n) as Lr by apply rows_length. rewrite Lr in *.
  set (X := d_X s) in *. assert (mat_isEmpty X = false) as Xne. { unfold mat_isEmpty. rewrite X1, X2. destruct (Nat.eqb_spec n 0); [lia|]. destruct (Nat.eqb_spec d 0); [lia|]. auto. }
  set (cf := mkE (mkCB X n d (mat_zero n n) eps true) th ga).
  set (k1 := fun ys => kset_cf cf (kset_n n (kset_data (set_y ys s) k))).
  assert (exists ys, length ys = n /\ (forall i, (i < n)%nat -> vget ys i = nth i (outputs d (rows file)) 0 - (if lin then lpredict d c (nth i (upts b d (rows file)) []) else 0)) /\
    train_revert (with_hyper th ga k) = krig_resize (k1 ys)) as (ys' & Ly & Hy & EV).
  {
    unfold train_revert. rewrite (sbind_ok _ _ _ (kset_data s (with_hyper th ga k)) tt). 2:{ unfold in_kdata, szoom. change (k_data (with_hyper th ga k)) with (k_data k). rewrite zero_tol_eq, ER. reflexivity. }
    rewrite (sbind_ok _ _ _ (kset_n n (kset_data s (with_hyper th ga k))) tt). 2:{ unfold smod. change (d_n (k_data (kset_data s (with_hyper th ga k)))) with (d_n s). rewrite X5. reflexivity. }
    unfold sbind at 1, sget at 1. change (k_data (kset_n n (kset_data s (with_hyper th ga k)))) with s. change (k_lin (kset_n n (kset_data s (with_hyper th ga k)))) with (k_lin k).
    change (k_uselin (kset_n n (kset_data s (with_hyper th ga k)))) with (k_uselin k).
    rewrite (sbind_ok _ _ _ (kset_cf cf (kset_n n (kset_data s k))) tt).
    2:{ unfold in_kcf, szoom. change (k_cf (kset_n n (kset_data s (with_hyper th ga k)))) with (mkE (ec_b (k_cf k)) th ga). cbn [ec_b ec_theta ec_gamma]. unfold cb_setInput. fold X. rewrite Xne, X1, X2, kc_eps. reflexivity. }
    rewrite kc_lin. destruct lin.
    - destruct (F9 eq_refl) as (Ec & Lw & _). destruct (kc_lconf eq_refl) as (Ld & _). destruct (lin_all_ok (k_lin k) d X Ld Lw X2) as (v & Ev & Lv & Hv).
      exists (vbuild n (fun i => vget (outputs d (rows file)) i - vget v i)). split. apply vbuild_length. split.
      { intros i Hi. rewrite vget_vbuild by auto. rewrite Hv by lia. rewrite X3, Ec. reflexivity. }
      cbn [swhen]. rewrite (sbind_ok _ _ _ (k1 (vbuild n (fun i => vget (outputs d (rows file)) i - vget v i))) tt). reflexivity.
      fold X. rewrite Ev. unfold sbind at 1, slift at 1. rewrite X4. unfold vec_sub. rewrite outputs_length, Lv, X1, Lr, Nat.eqb_refl. unfold sbind at 1, slift at 1.
      unfold in_kdata, szoom. change (k_data (kset_cf cf (kset_n n (kset_data s k)))) with s. unfold data_setOutput. unfold sbind at 1, sget at 1. rewrite vbuild_length, X5, Nat.eqb_refl. unfold sassert. unfold sbind at 1, sret at 1. reflexivity.
    - exists (outputs d (rows file)). split. rewrite outputs_length; auto. split. { intros i Hi. unfold vget. change (@n0 R RNum) with 0. ring. }
      cbn [swhen]. rewrite (sbind_ok _ _ _ (kset_cf cf (kset_n n (kset_data s k))) tt) by reflexivity. unfold k1. rewrite <- X4. destruct s; reflexivity. }
  assert (exists k2, krig_resize (k1 ys') = (k2, Ok tt) /\ kready k2 d (upts b d (rows file)) ys' th ga eps /\ kconf k2 d b lin eps /\ k_data k2 = set_y ys' s /\ k_init k2 = true /\ k_lin k2 = k_lin k) as (k2 & E2 & Q2 & C2 & D2 & I2 & Li2).
  { unfold krig_resize. unfold sbind at 1, sget at 1. change (k_n (k1 ys')) with n. destruct (Nat.eqb_spec n 0); [lia|]. unfold sthrow_if. unfold sbind at 1, sret at 1. eexists. split; [reflexivity|].
    split; [|split; [|auto]].
    - constructor; try (rewrite ?upts_length, ?Lr); auto; try (cbn; auto; fail).
    - constructor; auto.  }
  destruct (krig_update_ok k2 _ _ _ _ _ _ Q2) as (k' & EU & Q' & (P1 & P2 & P3 & P4 & P5 & P6 & P7 & P8 & P9 & P10 & P11 & P12 & P13 & P14 & P15 & P16 & P17 & P18) & So & _).
  exists k', ys'. split. { unfold sbind at 1. rewrite EV, E2. auto. }
  destruct FA' as [f1 f2 f3 f4 f5 f6]. split; [|split].
  - constructor; auto.
    + destruct C2. constructor. rewrite P1; auto. rewrite P7; auto. rewrite P8; auto. rewrite P17; auto. intros _. rewrite P12, P13. destruct Q2. rewrite q_th0, q_ga0. auto. intros Hl. rewrite P6. auto.
    + rewrite P11; auto.
    + destruct Q2. rewrite P5; auto.
    + rewrite P4, D2. exact f1.
    + rewrite P4, D2. rewrite Lr. exact X5.
    + rewrite P4, D2. exact f2.
    + rewrite P4, D2. rewrite Lr. auto.
    + rewrite Lr. exact Hy.
    + rewrite P6, Li2. auto.
  - rewrite P4, D2. exact NV.
  - rewrite P4, D2. constructor; auto.
Qed.

(** *** the program *)
Lemma fitted_describes k d b lin eps file c th ga ys : fitted k d b lin eps (rows file) file c th ga ys -> kparams d th ga -> kregular d th ga eps (points b d (rows file)) ->
  describes k lin d b eps file th ga c (vget (k_Rysb k)).
Proof.
  intros F HP HR. constructor.
  - intros Hl. apply (fitted_normal _ _ _ _ _ _ _ _ _ _ _ F Hl).
  - apply (fitted_kriging _ _ _ _ _ _ _ _ _ _ _ F); auto.
  - intros x Hx. apply (fitted_predict _ _ _ _ _ _ _ _ _ _ _ _ F); auto.
  - intros x Hx. apply (fitted_variance _ _ _ _ _ _ _ _ _ _ _ _ F); auto.
Qed.
Lemma session_split_full lin d b eps ratio file perm hs th ga : setup lin d b eps file hs th ga -> 0 < ratio < 1 -> Permutation perm (seq 0 (nrows file)) ->
  exists k c ys q, krig_session lin d b eps ratio file perm hs krig_new = (k, Ok tt) /\ INR q <= ratio * INR (nrows file) < INR q + 1 /\ (q < nrows file)%nat /\
    fitted k d b lin eps (unpicked (firstn q perm) (rows file)) file c th ga ys /\ full_able (k_data k) d b file /\ d_nv (k_data k) = q /\
    ((0 < q)%nat -> rows (d_Xval (k_data k)) = points b d (picked (firstn q perm) (rows file)) /\ d_yval (k_data k) = outputs d (picked (firstn q perm) (rows file))).
Proof.
  intros [] Hr Hp. destruct (krig_config lin d b eps ratio) as (k0 & E0 & KC & Cf & KD); auto; try lra.
  destruct (val_count_R (nrows file) ratio) as (q & Ek & Hk & Hb). lra.
  assert (q < nrows file)%nat as Hqn. { apply INR_lt. pose proof (lt_0_INR _ su_n). nra. }
  assert (length (firstn q perm) = q) as Hl. { rewrite firstn_length, (Permutation_length Hp), seq_length. lia. }
  assert (NoDup (firstn q perm)) as Hnd. { apply NoDup_firstn. apply (Permutation_NoDup (Permutation_sym Hp)), seq_NoDup. }
  assert (forall i, In i (firstn q perm) -> (i < length (rows file))%nat) as Hin.
  { intros i Hi. rewrite rows_length. assert (In i perm) as Hi' by (rewrite <- (firstn_skipn q perm); apply in_or_app; auto).
    apply (Permutation_in _ Hp) in Hi'. apply in_seq in Hi'. lia. }
  destruct (data_read_split (k_data k0) file perm q d) as (s1 & E & A1 & A2 & A3 & A4 & A5 & A6 & A7 & A8 & A9 & A10 & A11 & A12 & A13 & A14 & A15 & A16); auto.
  { rewrite KD. cbn. lia. } { rewrite KD. auto. } { rewrite KD. cbn. auto. } { rewrite KD. cbn. apply Rltb_true; lra. } { rewrite KD. exact Ek. } { rewrite KD. split. reflexivity. simpl; lia. } { left. rewrite KD. auto. }
  assert (dloaded s1 d b (unpicked (firstn q perm) (rows file)) file) as DL.
  { constructor; auto. rewrite unpicked_length; auto. rewrite Hl, rows_length. lia. rewrite A4, KD; auto. rewrite A5, KD; auto. rewrite A6, KD; auto. intros Hv. rewrite A8 in Hv. apply A13; auto. }
  destruct (krig_load_ok k0 d b lin eps file perm s1 _ KC su_box su_d su_lin su_file su_n su_cols E DL) as (k1 & c & th0 & ga0 & ys & s2 & E1 & F1 & D1 & N1 & _ & P). destruct (P Cf) as (-> & ->).
  destruct (krig_hyper_steps hs _ _ _ _ _ _ _ _ _ _ _ F1 su_hs) as (k2 & th' & ga' & E2 & HL & L2 & F2 & D2).
  rewrite su_last in HL. destruct (app_inv_len _ _ _ _ HL) as (-> & ->). { destruct su_par. lia. }
  exists k2, c, ys, q. split. { rewrite krig_session_parts, (sbind_ok _ _ _ _ _ E0), (sbind_ok _ _ _ _ _ E1). auto. }
  split; auto. split; auto. split; auto. rewrite D2, D1.
  assert (rows (d_val s1) = picked (firstn q perm) (rows file)) as HV. { rewrite A10, KD. reflexivity. }
  assert (length (picked (firstn q perm) (rows file)) = q) as LP by (unfold picked; rewrite map_length; auto).
  destruct N1, DL. split; [|split].
  - constructor; try exact (eq_trans z_raw dl_raw); try exact (eq_trans z_fg dl_fg); try exact (eq_trans z_fd dl_fd); try exact (eq_trans z_box dl_box); try exact (eq_trans z_fr dl_read).
    destruct dl_tr as (A & _). exact (eq_trans z_dim A).
  - exact (eq_trans z_nv A8).
  - intros Hq. destruct (A13 Hq) as (B1 & _ & B3 & _). split.
    + change (d_Xval (set_y ys s2)) with (d_Xval s2). rewrite z_Xval by lia. rewrite B1, HV. unfold points. rewrite firstn_all2; auto. unfold inputs. rewrite map_length. lia.
    + change (d_yval (set_y ys s2)) with (d_yval s2). rewrite z_yval, B3, HV. auto.
Qed.

Lemma search_inv (t t' : trainer R) us ws order : t_warm t = None -> train_search us ws order t = (t', Ok (Some tt)) ->
  let t1 := tset_iters (t_iters t / t_threads t) (if t_hasval t then tset_val true t else t) in
  t_threads t <> 0%nat /\ k_dim (t_k t) <> 0%nat /\ exists c best v k1,
    train_optimizer t1 (train_generations (k_dim (t_k t)) (t_iters t)) (t_iters t / t_threads t) = Ok c /\ train_threads c us ws order ([], ndblmax) = Ok (Some (best, v)) /\
    (k_dim (t_k t) <= length best)%nat /\ in_kcf (fun c => ecf_setHyper c best) (t_k t) = (k1, Ok tt) /\ t' = tset_k k1 t1.
Proof.
  intros W H t1. unfold train_search in H. unfold sbind at 1, sget at 1 in H. rewrite W in H.
  unfold sbind at 1, sthrow_if in H. destruct (Nat.eqb_spec (k_dim (t_k t)) 0) as [|Hd]; [discriminate|]. unfold sret at 1 in H.
  rewrite (sbind_ok _ _ _ (if t_hasval t then tset_val true t else t) tt) in H by (destruct (t_hasval t); reflexivity).
  destruct (Nat.eqb_spec (t_threads t) 0) as [|Hth]; [discriminate|]. split; auto. split; auto.
  rewrite (sbind_ok _ _ _ t1 tt) in H by (unfold t1; destruct (t_hasval t); reflexivity).
  unfold sbind at 1, sget at 1 in H. assert (t_iters t1 = t_iters t / t_threads t)%nat as E1 by (unfold t1; destruct (t_hasval t); reflexivity). rewrite E1 in H.
  assert (t_k t1 = t_k t) as Ek by (unfold t1; destruct (t_hasval t); reflexivity). rewrite Ek in H.
  apply sbind_inv in H. destruct H as (s1 & r & H1 & H). unfold slift in H1.
  destruct (train_optimizer t1 (train_generations (k_dim (t_k t)) (t_iters t)) (t_iters t / t_threads t)) as [c|e|] eqn:EO; cbn [bind] in H1; try discriminate.
  injection H1 as <- H1. destruct r as [[best v]|]; [|discriminate]. exists c, best, v.
  apply sbind_inv in H. destruct H as (s2 & a & H2 & H). unfold slift in H2. injection H2 as <- H2. unfold vec_head in H2. destruct (Nat.ltb_spec (length best) (k_dim (t_k t))); [discriminate|].
  apply sbind_inv in H. destruct H as (s3 & a' & H3 & H). unfold slift in H3. injection H3 as <- _.
  apply sbind_inv in H. destruct H as (s4 & a4 & H4 & H). unfold in_model in H4. apply zoom_inv in H4. destruct H4 as (k1 & H4 & ->). rewrite Ek in H4. destruct a4. exists k1. injection H as <-. auto 10.
Qed.
(** what the candidate chosen by the training is *)
Lemma chosen (t : trainer R) gens iters c us ws order best v : (forall j k i, 0 <= us j k i < 1) -> train_optimizer t gens iters = Ok c -> train_threads c us ws order ([], ndblmax) = Ok (Some (best, v)) ->
  best = [] \/ (length best = (2 * k_dim (t_k t))%nat /\ trained_range (k_dim (t_k t)) (firstn (k_dim (t_k t)) best) (skipn (k_dim (t_k t)) best) /\ train_objective (t_val t) (t_k t) best = Ok v /\ v < ndblmax).
Proof.
  intros Hu HO HT. destruct (optimizer_conf _ _ _ _ HO) as (_ & _ & _ & C1 & C2 & C3 & C4 & _). destruct (threads_list _ _ _ _ _ _ HT) as (l & L1 & L2).
  destruct (better_fold l ([], ndblmax)) as (_ & _ & [E|(i & I1 & I2 & I3)]); rewrite <- L2 in *.
  - injection E as -> _. auto.
  - right. injection I2 as -> ->. assert (exists j, train_thread c (us j) (ws j) = Ok (Some i)) as (j & Hj).
    { clear -L1 I1. induction L1; destruct I1. subst. eauto. auto. }
    destruct (thread_sound c (us j) (ws j) i (Hu j) Hj) as (S1 & S2 & S3). rewrite C1 in *. rewrite C2, C3 in S2. rewrite C4 in S3. split; auto. split; auto. apply box_range; auto.
Qed.

(** a fitted model after training *)
Lemma tail_run (A B : SM (krig R) unit) t t' k' : (run swhen true (in_model A); run in_model B; sret (Some tt)) t = (t', Ok (Some tt)) -> (run A; B) (t_k t) = (k', Ok tt) -> t' = tset_k k' t.
Proof.
  unfold swhen, in_model, szoom, sbind, sret. destruct (A (t_k t)) as [k1 [[]|e|]]; intros H H2; try discriminate. change (t_k (tset_k k1 t)) with k1 in H. destruct (B k1) as [k2 [[]|e|]]; try discriminate. injection H as <-. injection H2 as <-. reflexivity.
Qed.
Lemma train_fitted (t t' : trainer R) us ws order d b lin eps tr file c th ga ys : (forall j k i, 0 <= us j k i < 1) -> t_warm t = None -> fitted (t_k t) d b lin eps tr file c th ga ys -> t_val t = false ->
  (t_hasval t = true -> full_able (k_data (t_k t)) d b file /\ box_ok ztol d b /\ table file /\ (0 < nrows file)%nat /\ ncols file = S d) ->
  krig_train us ws order t = (t', Ok (Some tt)) ->
  exists best v th' ga' ys', best = th' ++ ga' /\ trained_range d th' ga' /\ train_objective (t_hasval t) (t_k t) best = Ok v /\ v < ndblmax /\
    fitted (t_k t') d b lin eps (if t_hasval t then rows file else tr) file c th' ga' ys' /\ t_iters t' = (t_iters t / t_threads t)%nat /\ t_threads t' = t_threads t /\ t_val t' = t_hasval t /\ t_hasval t' = t_hasval t /\ t_warm t' = None /\
    (t_hasval t = true -> d_nv (k_data (t_k t')) = 0%nat) /\
    exists cf vals, train_optimizer (tset_iters (t_iters t / t_threads t) (if t_hasval t then tset_val true t else t)) (train_generations d (t_iters t)) (t_iters t / t_threads t) = Ok cf /\
      Forall2 (fun j i => train_thread cf (us j) (ws j) = Ok (Some i)) order vals /\ (forall i, In i vals -> v <= i_obj i).
Proof.
  intros Hu W F Hv HV H. pose proof (ft_ready _ _ _ _ _ _ _ _ _ _ _ F) as []. unfold krig_train in H. unfold sbind at 1, sget at 1 in H. rewrite (ft_init _ _ _ _ _ _ _ _ _ _ _ F) in H. cbn [negb] in H. unfold sthrow_if in H. unfold sbind at 1, sret at 1 in H.
  apply sbind_inv in H. destruct H as (t2 & r & HS & H). destruct r as [[]|]; [|discriminate].
  destruct (search_inv _ _ _ _ _ W HS) as (_ & _ & cf & best & v & k1 & HO & HT & HB & HH & Et). set (t1 := tset_iters (t_iters t / t_threads t) (if t_hasval t then tset_val true t else t)) in *.
  assert (t_k t1 = t_k t) as Ek by (unfold t1; destruct (t_hasval t); reflexivity). assert (t_val t1 = t_hasval t) as Ev by (unfold t1; destruct (t_hasval t); auto).
  destruct (chosen t1 _ _ cf us ws order best v Hu HO HT) as [->|(B1 & B2 & B3 & B4)].
  { rewrite q_dim in HB. cbn in HB. lia. }
  rewrite Ek, q_dim in *. rewrite Ev in B3. rewrite (setHyper_step _ _ _ _ _ _ _ _ _ _ _ _ F B1) in HH. injection HH as <-.
  pose proof B2 as (L1 & L2 & _).
  assert (exists cf vals, train_optimizer t1 (train_generations d (t_iters t)) (t_iters t / t_threads t) = Ok cf /\
      Forall2 (fun j i => train_thread cf (us j) (ws j) = Ok (Some i)) order vals /\ (forall i, In i vals -> v <= i_obj i)) as HX.
  { destruct (threads_list _ _ _ _ _ _ HT) as (l & Z1 & Z2). exists cf, l. split; auto. split; auto. destruct (better_fold l ([], ndblmax)) as (_ & Z3 & _). rewrite <- Z2 in Z3. exact Z3. }
  assert (t_iters t2 = t_iters t / t_threads t /\ t_threads t2 = t_threads t /\ t_val t2 = t_hasval t /\ t_hasval t2 = t_hasval t /\ t_warm t2 = None)%nat as T2. { rewrite Et. unfold t1. destruct (t_hasval t) eqn:EH; cbn; auto 10. }
  assert (t_k t2 = with_hyper (firstn d best) (skipn d best) (t_k t)) as K2 by (rewrite Et; reflexivity).
  unfold sbind at 1, sget at 1 in H. destruct T2 as (I2 & Th2 & V2 & HV2 & W2). rewrite V2 in H.
  exists best, v, (firstn d best), (skipn d best). destruct (t_hasval t) eqn:EH.
  - destruct (HV eq_refl) as (FA & Hb & Ht & Hn & Hc). destruct (revert_with _ _ _ _ _ _ _ _ _ _ _ (firstn d best) (skipn d best) F FA Hb Ht Hn Hc L1 L2) as (k' & ys' & ER & F' & NV & _).
    rewrite <- K2 in ER. pose proof (tail_run _ _ _ _ _ H ER) as ->.
    exists ys'. split. symmetry; apply firstn_skipn. cbn. rewrite I2, Th2, V2, HV2, W2. auto 15.
  - cbn [swhen] in H. apply sbind_inv in H. destruct H as (t3 & a & H1 & H). injection H1 as <- <-.
    destruct (update_with _ _ _ _ _ _ _ _ _ _ _ (firstn d best) (skipn d best) F L1 L2) as (k' & R2 & F' & _).
    apply sbind_inv in H. destruct H as (t4 & a & H1 & H). unfold in_model in H1. apply zoom_inv in H1. destruct H1 as (u & H1 & ->). rewrite K2, R2 in H1. injection H1 as <- <-. injection H as <-.
    exists ys. split. symmetry; apply firstn_skipn. cbn. rewrite I2, Th2, V2, HV2, W2. split; auto. split; auto. split; auto. split; auto. repeat (split; [auto; fail|]). split. discriminate. auto.
Qed.
