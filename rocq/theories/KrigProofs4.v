(** The client programs of KrigProg. *)
From Coq Require Import Reals Lra List Arith Lia ZArith Bool Permutation.
From Verif Require Import Base StM Num RealNum RSpec VecModel MatModel MatLemmas MatSpec VecProofs VecReal MatProofs MatProofs2 MatProofs3 MatReal CholProofs CholProofs2 DetSpec LuProofs LuProofs2 LuComplete
  LinSolverModel LinSolverProofs BoundsModel CorrModel CorrProofs CorrSpec PsdKernel CorrObj DataModel DataSpec DataProofs DataReal KrigModel KrigSpec KrigMath KrigProofs KrigProofs2 KrigProofs3 KrigProg.
Import ListNotations.
Local Open Scope R_scope.

(** one hyper-parameter update *)
Lemma krig_hyper_step k d b lin eps tr file c th ga ys h : fitted k d b lin eps tr file c th ga ys -> length h = (2 * d)%nat ->
  exists k' th' ga', (run krig_setHyper h; krig_update) k = (k', Ok tt) /\ h = th' ++ ga' /\ length th' = d /\ fitted k' d b lin eps tr file c th' ga' ys /\ k_data k' = k_data k.
Proof.
  intros [F1 F2 F3 F4 F5 F6 F6b F7 F8 F9 F10] Hh. pose proof F2 as []. pose proof F1 as [].
  destruct (ecf_setHyper_ok (k_cf k) h) as (A & _). lia. rewrite q_cd in A. destruct (A Hh) as (th' & ga' & L1 & L2 & E & ES).
  set (k1 := kset_cf (mkE (ec_b (k_cf k)) th' ga') k).
  assert (kready k1 d (upts b d tr) ys th' ga' eps) as Q1. { constructor; auto. }
  destruct (krig_update_ok k1 _ _ _ _ _ _ Q1) as (k' & EU & Q' & (P1 & P2 & P3 & P4 & P5 & P6 & P7 & P8 & P9 & P10 & P11 & P12 & P13 & P14 & P15 & P16 & P17 & P18) & So & _).
  exists k', th', ga'. split.
  { unfold sbind at 1. unfold krig_setHyper. unfold sbind at 1, sget at 1. rewrite q_nhyp, Hh, Nat.eqb_refl. cbn [negb]. unfold sthrow_if. unfold sbind at 1, sret at 1. unfold in_kcf, szoom. rewrite ES. fold k1. auto. }
  split; auto. split; auto. split; [|rewrite P4; auto]. constructor; auto.
  - constructor. rewrite P1; auto. rewrite P7; auto. rewrite P8; auto. rewrite P17; auto. intros _. rewrite P12, P13. auto. intros Hl. rewrite P6. auto.
  - rewrite P11; auto.
  - rewrite P5; auto.
  - rewrite P4; auto.
  - rewrite P4; auto.
  - rewrite P4; auto.
  - rewrite P4; auto.
  - rewrite P6; auto.
Qed.
Lemma krig_hyper_steps hs : forall k d b lin eps tr file c th ga ys, fitted k d b lin eps tr file c th ga ys -> Forall (fun h => length h = (2 * d)%nat) hs ->
  exists k' th' ga', sfor hs (fun h => run krig_setHyper h; krig_update) k = (k', Ok tt) /\ th' ++ ga' = last hs (th ++ ga) /\ length th' = d /\ fitted k' d b lin eps tr file c th' ga' ys /\ k_data k' = k_data k.
Proof.
  induction hs as [|h hs IH]; intros k d b lin eps tr file c th ga ys F Hh.
  - exists k, th, ga. split; auto. split; auto. split. apply (q_lth _ _ _ _ _ _ _ (ft_ready _ _ _ _ _ _ _ _ _ _ _ F)). auto.
  - inversion Hh; subst. destruct (krig_hyper_step _ _ _ _ _ _ _ _ _ _ _ h F) as (k1 & th1 & ga1 & E1 & -> & L1 & F1 & D1); auto.
    destruct (IH k1 d b lin eps tr file c th1 ga1 ys F1) as (k2 & th2 & ga2 & E2 & HL & L2 & F2 & D2); auto.
    exists k2, th2, ga2. split.
    { change (sfor ((th1 ++ ga1) :: hs) ?F k) with (sbind (F (th1 ++ ga1)) (fun _ => sfor hs F) k). rewrite (sbind_ok _ _ _ _ _ E1). auto. }
    split. { rewrite HL. destruct hs; auto. cbn [last]. clear. revert l. induction hs; intros; auto. cbn [last]. apply IHhs. } rewrite D2. auto.
Qed.

(** configuration phase *)
Lemma krig_config lin d b eps ratio : (0 < d)%nat -> box_ok ztol d b -> 0 <= eps < 1 -> 0 <= ratio <= 1 ->
  exists k, (run krig_setLinear lin; run krig_setDimension d; run krig_setBox b; run krig_setEpsilon eps; krig_setRatio ratio) krig_new = (k, Ok tt) /\
    kconf k d b lin eps /\ k_cfinit k = false /\ k_data k = set_ratio ratio (set_box b (set_dim d sdata_new)).
Proof.
  intros Hd (Bs & Bd & Bl & Bu & Bz & Bb) He Hr.
  assert ((eps <! n0) = false) as H1. { simpl. destruct (Rltb_spec eps 0); auto; lra. }
  assert (((eps <! n0) || (n1 <=! eps))%bool = false) as H2. { simpl. destruct (Rltb_spec eps 0); [lra|]. destruct (Rleb_spec 1 eps); auto; lra. }
  assert (((ratio <! n0) || (n1 <! ratio))%bool = false) as H3. { simpl. destruct (Rltb_spec ratio 0); [lra|]. destruct (Rltb_spec 1 ratio); auto; lra. }
  destruct lin; eexists; (split;
  [ unfold krig_setLinear, krig_setDimension, krig_setBox, krig_setEpsilon, krig_setRatio, in_klin, in_kdata, in_kcf, lin_setDimension, lin_setBox, data_setDimension, data_setBox, data_setRatio, in_ldata, szoom;
    unfold krig_new; unfold sbind at 1, smod at 1; kset; kproj; unfold sbind at 1; unfold sbind at 1, smod at 1; kproj; unfold sbind at 1, smod at 1; kproj; unfold smod at 1; kproj;
    unfold sbind at 1; unfold sbind at 1, sget at 1; kproj; rewrite Bs, Bd, Nat.eqb_refl; cbn [negb]; destruct (Nat.eqb_spec d 0) as [|_]; [lia|]; unfold sthrow_if at 1 2 3; do 3 (unfold sbind at 1, sret at 1); cbn [swhen];
    [ unfold sassert; unfold sbind at 1 2, sret at 1; try (unfold smod at 1; kproj; unfold sbind at 1, sret at 1); try (unfold sbind at 1, sret at 1); unfold smod at 1; kproj;
      unfold sbind at 1; unfold sbind at 1, sthrow_if at 1; rewrite H1; unfold sret at 1; kproj; unfold cb_setEpsilon; rewrite H2;
      unfold sbind, sthrow_if; kproj; rewrite H3; unfold sret, smod; kproj; reflexivity ]
  | ]).
  all: split; [|split; auto]. all: constructor; auto; kset; kproj; try discriminate. all: intros; split; auto; constructor; auto; cbn; destruct (Rltb_spec 0 0); auto; lra.
Qed.

Lemma krig_session_parts lin d b eps ratio file perm hs k :
  krig_session lin d b eps ratio file perm hs k =
  sbind (run krig_setLinear lin; run krig_setDimension d; run krig_setBox b; run krig_setEpsilon eps; krig_setRatio ratio)
    (fun _ => sbind (krig_load file perm) (fun _ => sfor hs (fun h => run krig_setHyper h; krig_update))) k.
Proof.
  unfold krig_session, krig_load, sbind. destruct (krig_setLinear lin k) as [k1 [[]|e|]]; auto. destruct (krig_setDimension d k1) as [k2 [[]|e|]]; auto.
  destruct (krig_setBox b k2) as [k3 [[]|e|]]; auto. destruct (krig_setEpsilon eps k3) as [k4 [[]|e|]]; auto. destruct (krig_setRatio ratio k4) as [k5 [[]|e|]]; auto.
  destruct (krig_readData file perm k5) as [k6 [[]|e|]]; auto. destruct (krig_normalizeData k6) as [k7 [[]|e|]]; auto.
Qed.

Lemma dconf_after (s1 s2 : sdata R) d b ys tr file : dloaded s1 d b tr file -> normalized b d s1 s2 -> d_nv s1 = 0%nat -> (d_ratio s1 >! n0) = false -> dconf (set_y ys s2) d b.
Proof.
  intros [] N Hv Hr. destruct dl_tr as (A & _). constructor; unfold set_y; dproj.
  - right. rewrite (z_dim _ _ _ _ N). auto.
  - rewrite (z_box _ _ _ _ N). auto.
  - rewrite (z_fg _ _ _ _ N). auto.
  - rewrite (z_fd _ _ _ _ N). auto.
  - rewrite (z_ratio _ _ _ _ N). auto.
  - rewrite (z_nv _ _ _ _ N). auto.
Qed.

(** re-reading a file into a configured model *)
Lemma krig_load_plain k d b lin eps file perm : kconf k d b lin eps -> dconf (k_data k) d b -> box_ok ztol d b -> (0 < d)%nat -> (lin = true -> (d < 100)%nat) -> table file -> (0 < nrows file)%nat -> ncols file = S d ->
  exists k' c th ga ys, krig_load file perm k = (k', Ok tt) /\ fitted k' d b lin eps (rows file) file c th ga ys /\ dconf (k_data k') d b /\
    (k_cfinit k = true -> th = ec_theta (k_cf k) /\ ga = ec_gamma (k_cf k)) /\ (k_cfinit k = false -> th = repeat 1 d /\ ga = repeat (9 / 5) d).
Proof.
  intros KC DC Hb Hd Hl Ht Hn Hc. destruct (read_plain_loaded (k_data k) d b file perm DC Hd Ht Hn Hc) as (s1 & ER & DL & Nv & Rt).
  destruct (krig_load_ok k d b lin eps file perm s1 (rows file)) as (k' & c & th & ga & ys & s2 & E & F & D & N & P1 & P2); auto.
  exists k', c, th, ga, ys. split; auto. split; auto. split; auto. rewrite D. apply (dconf_after s1 s2 d b ys (rows file) file); auto. rewrite Rt. destruct DC; auto.
Qed.

Lemma setup_default d : kparams d (repeat 1 d) (repeat (9 / 5) d).
Proof.
  split. apply repeat_length. split. apply repeat_length. intros k Hk.
  replace (nth k (repeat 1 d) 0) with 1 by (symmetry; rewrite (nth_indep _ 0 1) by (rewrite repeat_length; auto); apply nth_repeat).
  replace (nth k (repeat (9 / 5) d) 0) with (9 / 5) by (symmetry; rewrite (nth_indep _ 0 (9 / 5)) by (rewrite repeat_length; auto); apply nth_repeat). lra.
Qed.
Lemma app_inv_len {A} (a b c e : list A) : a ++ b = c ++ e -> length a = length c -> a = c /\ b = e.
Proof. revert c. induction a; destruct c; simpl; intros H L; try discriminate; auto. injection H as -> H. destruct (IHa c H) as (-> & ->). lia. auto. Qed.

Lemma session_ok lin d b eps file perm hs th ga : setup lin d b eps file hs th ga ->
  exists k c ys, krig_session lin d b eps 0 file perm hs krig_new = (k, Ok tt) /\ fitted k d b lin eps (rows file) file c th ga ys /\ dconf (k_data k) d b.
Proof.
  intros []. destruct (krig_config lin d b eps 0) as (k0 & E0 & KC & Cf & KD); auto; try lra.
  assert (dconf (k_data k0) d b) as DC. { rewrite KD. constructor; auto; dproj; auto. cbn. destruct (Rltb_spec 0 0); auto; lra. }
  destruct (krig_load_plain k0 d b lin eps file perm KC DC su_box su_d su_lin su_file su_n su_cols) as (k1 & c & th0 & ga0 & ys & E1 & F1 & DC1 & _ & P). destruct (P Cf) as (-> & ->).
  destruct (krig_hyper_steps hs _ _ _ _ _ _ _ _ _ _ _ F1 su_hs) as (k2 & th' & ga' & E2 & HL & L2 & F2 & D2).
  rewrite su_last in HL. destruct (app_inv_len _ _ _ _ HL) as (-> & ->). { destruct su_par. lia. }
  exists k2, c, ys. split; [|rewrite D2; auto]. rewrite krig_session_parts, (sbind_ok _ _ _ _ _ E0), (sbind_ok _ _ _ _ _ E1). auto.
Qed.

(** predictions of a fitted model *)
Lemma fitted_linpart k d b lin eps tr file c th ga ys x : fitted k d b lin eps tr file c th ga ys -> length x = d -> linpart k x = Ok (if lin then lpredict d c x else 0).
Proof.
  intros F Hx. pose proof (ft_conf _ _ _ _ _ _ _ _ _ _ _ F) as []. unfold linpart. rewrite kc_lin. destruct lin; auto.
  destruct (ft_lin _ _ _ _ _ _ _ _ _ _ _ F eq_refl) as (-> & L & _). destruct (kc_lconf eq_refl) as (Ld & _). apply lin_interpolate_ok; auto.
Qed.
Lemma fitted_kriging k d b lin eps tr file c th ga ys : fitted k d b lin eps tr file c th ga ys -> kparams d th ga -> kregular d th ga eps (points b d tr) ->
  kriging d th ga eps (points b d tr) (fun i => output d tr i - (if lin then lpredict d c (nth i (points b d tr) []) else 0)) (k_beta0 k) (vget (k_Rysb k)) (k_s2 k).
Proof.
  intros F HP He. destruct (ksolved_kriging d th ga eps (upts b d tr) HP He k ys) as (K & _). apply (ft_ready _ _ _ _ _ _ _ _ _ _ _ F). apply (ft_solved _ _ _ _ _ _ _ _ _ _ _ F); auto.
  apply (kriging_ext _ _ _ _ _ (vget ys)); auto. intros i Hi. unfold output, points. unfold points in Hi. fold (upts b d tr) in Hi |- *. rewrite upts_length in Hi. rewrite (ft_ys _ _ _ _ _ _ _ _ _ _ _ F) by auto. auto.
Qed.
Lemma fitted_predict k d b lin eps tr file c th ga ys x : fitted k d b lin eps tr file c th ga ys -> kparams d th ga -> kregular d th ga eps (points b d tr) -> length x = d ->
  krig_interpolate k x = Ok ((if lin then lpredict d c x else 0) + kpredict d th ga (points b d tr) (k_beta0 k) (vget (k_Rysb k)) x).
Proof.
  intros F HP He Hx. apply (krig_interpolate_ok d th ga eps (upts b d tr) HP He k ys); auto. apply (ft_ready _ _ _ _ _ _ _ _ _ _ _ F). apply (ft_solved _ _ _ _ _ _ _ _ _ _ _ F); auto.
  apply (fitted_linpart k d b lin eps tr file c th ga ys); auto.
Qed.
Lemma fitted_variance k d b lin eps tr file c th ga ys x : fitted k d b lin eps tr file c th ga ys -> kparams d th ga -> kregular d th ga eps (points b d tr) -> length x = d ->
  exists u, kvar_factor d th ga eps (points b d tr) x u /\ krig_variance k x = Ok ((if lin then lpredict d c x else 0) + kpredict d th ga (points b d tr) (k_beta0 k) (vget (k_Rysb k)) x, k_s2 k * u).
Proof.
  intros F HP He Hx. apply (krig_variance_ok d th ga eps (upts b d tr) HP He k ys); auto. apply (ft_ready _ _ _ _ _ _ _ _ _ _ _ F). apply (ft_solved _ _ _ _ _ _ _ _ _ _ _ F); auto.
  apply (fitted_linpart k d b lin eps tr file c th ga ys); auto.
Qed.
Lemma fitted_normal k d b lin eps tr file c th ga ys : fitted k d b lin eps tr file c th ga ys -> lin = true -> normal_eqs d (points b d (rows file)) (output d (rows file)) (1 / 10 ^ 8) c.
Proof. intros F Hl. destruct (ft_lin _ _ _ _ _ _ _ _ _ _ _ F Hl) as (_ & _ & N). exact N. Qed.

Lemma normal_eqs_unique d pts y lam c c' : 0 < lam -> normal_eqs d pts y lam c -> normal_eqs d pts y lam c' -> forall j, (j <= d)%nat -> c' j = c j.
Proof. intros Hl N N'. apply (normal_unique d pts y lam); auto. apply normal_ridge; auto. Qed.
Lemma normal_eqs_ext d pts y y' lam c : (forall i, (i < length pts)%nat -> y' i = y i) -> normal_eqs d pts y lam c -> normal_eqs d pts y' lam c.
Proof. intros H N j Hj. rewrite (N j Hj). apply rsum_ext. intros i Hi. rewrite H; auto. Qed.

(** *** adding samples *)
Lemma find_row (m : mat R) (x : list R) tol : wf m -> length x = ncols m ->
  (exists i, mat_findRowIndex m x tol = Ok (Z.of_nat i) /\ (i < nrows m)%nat /\ forall j, (j < length x)%nat -> Rabs (nth j (nth i (rows m) []) 0 - nth j x 0) <= tol) \/
  (mat_findRowIndex m x tol = Ok (-1)%Z /\ forall r, In r (rows m) -> ~ forall j, (j < length x)%nat -> Rabs (nth j r 0 - nth j x 0) <= tol).
Proof.
  intros W L. unfold mat_findRowIndex. rewrite L, Nat.eqb_refl. cbn [negb].
  assert (forall i, (i < nrows m)%nat -> (row_matches m x tol i = true <-> forall j, (j < ncols m)%nat -> Rabs (nth j (nth i (rows m) []) 0 - nth j x 0) <= tol)) as RM.
  { intros i Hi. unfold row_matches. rewrite forallb_seq. rewrite nth_rows by auto. assert (forall j, (j < ncols m)%nat -> nth j (mrow m i) 0 = mget m i j) as G.
    { intros j Hj. change (vget (mrow m i) j = mget m i j). unfold mrow. rewrite vget_vbuild; auto. }
    split; intros H j Hj; specialize (H j Hj); rewrite ?G in * by auto; simpl in *; unfold vget in *; simpl in *; destruct (Rltb_spec tol (Rabs (mget m i j - nth j x 0))); simpl in *; auto; try lra; discriminate. }
  destruct (find _ _) as [i|] eqn:E.
  - left. exists i. split; auto. apply find_some in E. destruct E as (Hi & M). apply in_seq in Hi. split. lia. intros j Hj. apply RM; auto; lia.
  - right. split; auto. intros r Hr Hall. apply (In_nth _ _ []) in Hr. destruct Hr as (i & Hi & <-). rewrite rows_length in Hi.
    pose proof (find_none _ _ E i) as F. rewrite (proj2 (RM i Hi)) in F; auto. specialize (F ltac:(apply in_seq; lia)). discriminate.
Qed.

(** state in which samples can be offered *)
Definition offerable (d : nat) (b : bnds R) (lin : bool) (eps : R) (th ga : list R) (w : krig R * mat R) : Prop :=
  table (snd w) /\ (0 < nrows (snd w))%nat /\ ncols (snd w) = S d /\ dconf (k_data (fst w)) d b /\
  exists c ys, fitted (fst w) d b lin eps (rows (snd w)) (snd w) c th ga ys.

Lemma addSample_step d b lin eps th ga k file fmt x perm : box_ok ztol d b -> (0 < d)%nat -> (lin = true -> (d < 100)%nat) -> offerable d b lin eps th ga (k, file) -> length x = S d ->
  ((exists r, In r (rows file) /\ close_row r x) /\ krig_addSample fmt x perm (k, file) = ((k, file), Ok tt)) \/
  ((forall r, In r (rows file) -> ~ close_row r x) /\ exists k' file', krig_addSample fmt x perm (k, file) = ((k', file'), Ok tt) /\ rows file' = rows file ++ [map fmt x] /\ offerable d b lin eps th ga (k', file')).
Proof.
  intros Hb Hd Hl (Ht & Hn & Hc & DC & c & ys & F) Hx. cbn [fst snd] in *.
  assert (@nlit R RNum 1 (-4) = 1 / 10 ^ 4) as LIT. { simpl. unfold Rlit. simpl. lra. }
  assert (length (map fmt x) = S d) as Lm by (rewrite map_length; auto).
  assert (d_dim (k_data k) = d) as Dd by (apply (ft_ddim _ _ _ _ _ _ _ _ _ _ _ F)).
  destruct (find_row file x (1 / 10 ^ 4) (proj1 Ht)) as [(i & E & Hi & M)|(E & M)]. lia.
  - left. split. { exists (nth i (rows file) []). split; auto. apply nth_In. rewrite rows_length; auto. }
    unfold krig_addSample. unfold sbind at 1, sget at 1. rewrite Dd, Hx, Nat.add_1_r, Nat.eqb_refl. cbn [negb]. unfold sthrow_if. unfold sbind at 1, sret at 1. rewrite (ft_raw _ _ _ _ _ _ _ _ _ _ _ F), LIT, E.
    unfold sbind at 1, slift at 1. destruct (Z.eqb_spec (Z.of_nat i) (-1)); [lia|]. reflexivity.
  - right. split; auto.
    pose proof (addRow_step file (map fmt x) (-1) Ht ltac:(lia)) as AR. unfold spec_rowop in AR. change ((-1 =? -1)%Z) with true in AR. cbv beta iota zeta in AR. rewrite Z.leb_refl in AR.
    assert (fits (map fmt x) (rows file) = true) as Fi. { destruct (rows file) as [|r0 rs] eqn:ERow; auto. unfold fits. rewrite Lm. assert (In r0 (rows file)) as In0 by (rewrite ERow; left; auto).
      apply (In_nth _ _ []) in In0. destruct In0 as (q & Hq & <-). rewrite rows_length in Hq. rewrite nth_rows, mrow_length, Hc by auto. apply Nat.eqb_refl. }
    rewrite Fi in AR. cbn [andb] in AR. destruct AR as (file' & EA & Ht' & Hr' & Hc'). { destruct x; simpl in *; try discriminate; lia. }
    rewrite Nat2Z.id in Hr'. unfold insert_at in Hr'. rewrite firstn_all, skipn_all in Hr'.
    assert (nrows file' = S (nrows file)) as Hn'. { rewrite <- (rows_length file'), Hr', app_length, rows_length. simpl. lia. }
    assert (kconf (kset_sol [] [] [] [] 0 0 k) d b lin eps) as KC. { destruct (ft_conf _ _ _ _ _ _ _ _ _ _ _ F). constructor; auto. }
    destruct (krig_load_plain (kset_sol [] [] [] [] 0 0 k) d b lin eps file' perm KC) as (k' & c' & th' & ga' & ys' & EL & F' & DC' & Pt & _); auto; try lia.
    destruct (Pt (ft_cfi _ _ _ _ _ _ _ _ _ _ _ F)) as (-> & ->).
    pose proof (ft_ready _ _ _ _ _ _ _ _ _ _ _ F) as Q. change (k_cf (kset_sol [] [] [] [] 0 0 k)) with (k_cf k) in F'. rewrite (q_th _ _ _ _ _ _ _ Q), (q_ga _ _ _ _ _ _ _ Q) in F'.
    exists k', file'. split.
    + unfold krig_addSample. unfold sbind at 1, sget at 1. rewrite Dd, Hx, Nat.add_1_r, Nat.eqb_refl. cbn [negb]. unfold sthrow_if at 1. unfold sbind at 1, sret at 1. rewrite (ft_raw _ _ _ _ _ _ _ _ _ _ _ F), LIT, E.
      unfold sbind at 1, slift at 1. change ((-1 =? -1)%Z) with true. unfold swhen, sswallow. rewrite Hc, Nat.eqb_refl. cbn [negb]. unfold sthrow_if. unfold sbind at 1, sret at 1. unfold sbind at 1. cbn [snd fst]. rewrite EA.
      unfold sbind at 1, sget at 1. cbn [snd fst]. unfold szoom. cbn [fst]. unfold krig_updateModel. unfold sbind at 1, krig_reset, smod at 1.
      change (@n0 R RNum) with 0. change (kset_sol [] [] [] [] 0 0 k) with (kset_sol [] [] [] [] 0 0 k) in EL. unfold krig_load in EL. rewrite EL. reflexivity.
    + split; auto. split; auto. split. cbn [snd]. lia. split. cbn [snd]. lia. split; auto. exists c', ys'. auto.
Qed.
