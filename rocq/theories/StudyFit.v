(** One surrogate model of a study: initialised, initialised again, trained, and given a sample. *)
From Coq Require Import Reals Lra List Arith Lia ZArith Bool Permutation.
From Verif Require Import Base StM Num RealNum RSpec VecModel MatModel MatLemmas MatSpec VecProofs VecReal MatProofs MatProofs2 MatProofs3 MatReal LinSolverModel BoundsModel CorrModel CorrProofs CorrSpec CorrObj
  DataModel DataSpec DataProofs DataReal KrigModel KrigSpec KrigMath KrigProofs KrigProofs2 KrigProofs3 KrigProg KrigProofs4 PropsData KrigProofs5 EaModel EaProofs EaRun EaReal PropsEa TrainModel TrainProofs TrainReal
  ErfMath AcqModel DesignModel HistModel OptModel RunFileModel StudyModel.
Import ListNotations.
Local Open Scope R_scope.

(** a data object and a model whose settings may be made again *)
Definition dpre (s : sdata R) : Prop := f_grad s = false /\ f_dd s = false /\ (d_ratio s >! n0) = false /\ d_nv s = 0%nat.
Definition kpre (d : nat) (lin : bool) (eps : R) (k : krig R) : Prop :=
  (k_uselin k = true -> lin = true) /\ k_avg k = false /\ cb_eps (ec_b (k_cf k)) = eps /\ (k_cfinit k = true -> length (ec_theta (k_cf k)) = d /\ length (ec_gamma (k_cf k)) = d) /\
  dpre (k_data k) /\ (lin = true -> dpre (l_data (k_lin k)) /\ (d_dim (l_data (k_lin k)) = 0%nat \/ d_dim (l_data (k_lin k)) = d)).
Lemma kpre_new d lin : kpre d lin (1 / 10 ^ 12) krig_new.
Proof.
  assert (dpre (@sdata_new R RNum)) as D. { repeat split; auto. cbn. destruct (Rltb_spec 0 0); auto; lra. }
  split. discriminate. split. reflexivity. split. { change (@nlit R RNum 1 (-12) = 1 / 10 ^ 12). simpl. unfold Rlit. simpl. lra. } split. discriminate. split. exact D. intros _. split. exact D. left. reflexivity.
Qed.
Lemma dconf_pre s d b : dconf s d b -> dpre s.
Proof. intros []. repeat split; auto. Qed.
Lemma fitted_pre k d b lin eps tr file c th ga ys : fitted k d b lin eps tr file c th ga ys -> dconf (k_data k) d b -> kpre d lin eps k.
Proof.
  intros F D. destruct (ft_conf _ _ _ _ _ _ _ _ _ _ _ F). split. congruence. split; auto. split; auto. split; auto. split. eapply dconf_pre; eauto.
  intros L. destruct (kc_lconf L) as (_ & E). split. eapply dconf_pre; eauto. apply E.
Qed.
(** the settings made by initializeSurrogate *)
Lemma settings_again k d b lin eps : kpre d lin eps k -> box_ok ztol d b -> (0 < d)%nat ->
  exists k', (run swhen lin (krig_setLinear true); run krig_setDimension d; krig_setBox b) k = (k', Ok tt) /\ kconf k' d b lin eps /\ dconf (k_data k') d b /\ k_cf k' = k_cf k /\ k_cfinit k' = k_cfinit k.
Proof.
  intros (P1 & P2 & P3 & P4 & P5 & P6) (Bs & Bd & _) Hd.
  set (k1 := if lin then kset_uselin true k else k). rewrite (sbind_ok _ _ _ k1 tt) by (unfold k1; destruct lin; reflexivity).
  assert (k_uselin k1 = lin /\ k_avg k1 = false /\ k_cf k1 = k_cf k /\ k_cfinit k1 = k_cfinit k /\ k_data k1 = k_data k /\ k_lin k1 = k_lin k) as (A1 & A2 & A3 & A4 & A5 & A6).
  { unfold k1. destruct lin; repeat split; auto. destruct (k_uselin k) eqn:E; auto. symmetry. apply P1. reflexivity. }
  clearbody k1. rewrite <- A3, <- A4, <- A5, <- A6 in *. clear P2. rename k1 into k0, A2 into P2.
  set (k2 := kset_data (set_dim d (k_data k0)) (kset_lin (mkL d (l_n (k_lin k0)) (l_data (k_lin k0)) (l_w (k_lin k0)) (l_reg (k_lin k0)) (l_read (k_lin k0)) (l_norm (k_lin k0)) (l_init (k_lin k0))) (kset_dim d k0))).
  rewrite (sbind_ok _ _ _ k2 tt) by reflexivity.
  unfold krig_setBox. rewrite (sbind_ok _ _ _ k2 k2) by reflexivity. rewrite Bs, Bd. change (k_dim k2) with d. rewrite Nat.eqb_refl. destruct (Nat.eqb_spec d 0) as [|_]; [lia|]. cbn [negb sthrow_if]. do 3 rewrite (sbind_ok _ _ _ k2 tt) by reflexivity.
  change (k_uselin k2) with (k_uselin k0). rewrite A1.
  set (k3 := if lin then kset_lin (lset_data (set_box b (l_data (k_lin k2))) (k_lin k2)) k2 else k2).
  rewrite (sbind_ok _ _ _ k3 tt). 2:{ unfold k3. destruct lin; [|reflexivity]. cbn [swhen]. unfold in_klin, lin_setBox, in_ldata, data_setBox, szoom, sassert, sbind. rewrite Bs. reflexivity. }
  assert (k_data k3 = set_dim d (k_data k0) /\ k_dim k3 = d /\ k_uselin k3 = lin /\ k_avg k3 = false /\ k_cf k3 = k_cf k0 /\ k_cfinit k3 = k_cfinit k0 /\ (lin = true -> l_dim (k_lin k3) = d /\ l_data (k_lin k3) = set_box b (l_data (k_lin k0)))) as (C1 & C2 & C3 & C4 & C5 & C6 & C7).
  { unfold k3. destruct lin; repeat split; auto; discriminate. }
  clearbody k3. clear k2.
  exists (kset_data (set_box b (k_data k3)) k3). split. { unfold in_kdata, data_setBox, szoom, sassert, sbind. rewrite Bs. reflexivity. }
  assert (forall s, dpre s -> (d_dim s = 0%nat \/ d_dim s = d) -> dconf (set_box b s) d b) as DC. { intros s (Q1 & Q2 & Q3 & Q4) Q5. constructor; auto. }
  split. { constructor; auto. change (k_cf (kset_data (set_box b (k_data k3)) k3)) with (k_cf k3). congruence.
    change (k_cfinit (kset_data (set_box b (k_data k3)) k3)) with (k_cfinit k3). change (k_cf (kset_data (set_box b (k_data k3)) k3)) with (k_cf k3). rewrite C5, C6. exact P4.
    intros L. change (k_lin (kset_data (set_box b (k_data k3)) k3)) with (k_lin k3). destruct (C7 L) as (E1 & E2). split; auto. rewrite E2. destruct (P6 L). apply DC; auto. }
  split. { change (k_data (kset_data (set_box b (k_data k3)) k3)) with (set_box b (k_data k3)). rewrite C1. apply DC. destruct P5 as (? & ? & ? & ?). split; auto. right. reflexivity. }
  split; auto.
Qed.

(** the file and the model agree: the model is the Kriging model of the rows of the file *)
Record fits (d : nat) (b : bnds R) (lin : bool) (th ga : list R) (m : smodel) : Prop := {
  fm_off : offerable d b lin (1 / 10 ^ 12) th ga (t_k (m_tr m), m_file m); fm_par : kparams d th ga;
  fm_thr : t_threads (m_tr m) = 1%nat; fm_hv : t_hasval (m_tr m) = false; fm_val : t_val (m_tr m) = false; fm_warm : t_warm (m_tr m) = None }.

Lemma rethrow_ok {S A} e (m : SM S A) s s' a : m s = (s', Ok a) -> srethrow e m s = (s', Ok a).
Proof. intros H. unfold srethrow. now rewrite H. Qed.
Lemma krig_load_inv file perm k k' : krig_load file perm k = (k', Ok tt) -> (run srethrow RuntimeError (krig_readData file perm); run krig_normalizeData; krig_initialize) k = (k', Ok tt).
Proof.
  unfold krig_load. intros H. apply sbind_inv in H. destruct H as (k1 & [] & H1 & H). rewrite (sbind_ok _ _ _ k1 tt); auto. apply rethrow_ok. auto.
Qed.
Lemma bind3 {S A B C D} (m1 : SM S A) (m2 : A -> SM S B) (m3 : A -> B -> SM S C) (k : C -> SM S D) s : sbind m1 (fun a => sbind (m2 a) (fun b => sbind (m3 a b) k)) s = sbind (sbind m1 (fun a => sbind (m2 a) (fun b => m3 a b))) k s.
Proof. unfold sbind. destruct (m1 s) as [s1 [a|e|]]; auto. destruct (m2 a s1) as [s2 [b|e|]]; auto. Qed.
Lemma init_any d b q perm m : let lin := ss_lin q in kpre d lin (1 / 10 ^ 12) (t_k (m_tr m)) -> box_ok ztol d b -> (0 < d)%nat -> (lin = true -> (d < 100)%nat) ->
  table (m_file m) -> (0 < nrows (m_file m))%nat -> ncols (m_file m) = S d ->
  t_threads (m_tr m) = 1%nat -> t_hasval (m_tr m) = false -> t_val (m_tr m) = false -> t_warm (m_tr m) = None ->
  exists m' th ga, initSurrogate d b q perm m = (m', Ok tt) /\ m_file m' = m_file m /\ t_iters (m_tr m') = ss_iters q /\ (kparams d th ga -> fits d b lin th ga m') /\
    (k_cfinit (t_k (m_tr m)) = true -> th = ec_theta (k_cf (t_k (m_tr m))) /\ ga = ec_gamma (k_cf (t_k (m_tr m)))) /\ (k_cfinit (t_k (m_tr m)) = false -> th = repeat 1 d /\ ga = repeat (9 / 5) d).
Proof.
  intros lin KP Hb Hd Hl Ht Hn Hc T1 T2 T3 T4. destruct (settings_again _ _ _ _ _ KP Hb Hd) as (k1 & E1 & KC & DC & Cf & Ci).
  destruct (krig_load_plain k1 d b lin _ (m_file m) perm KC DC Hb Hd Hl Ht Hn Hc) as (k2 & c & th & ga & ys & E2 & F2 & DC2 & P1 & P2).
  exists (mkSm (tset_iters (ss_iters q) (tset_k k2 (m_tr m))) (m_file m)), th, ga. split.
  { unfold initSurrogate. rewrite (sbind_ok _ _ _ m m) by reflexivity. destruct (Nat.eqb_spec d 0) as [|_]; [lia|]. cbn [sthrow_if]. rewrite (sbind_ok _ _ _ m tt) by reflexivity.
    rewrite (sbind_ok _ _ _ (mkSm (tset_k k2 (m_tr m)) (m_file m)) tt); [reflexivity|]. unfold in_tr, in_model, szoom. rewrite bind3. fold lin. rewrite (sbind_ok _ _ _ _ _ E1). rewrite (krig_load_inv _ _ _ _ E2). reflexivity. }
  split. reflexivity. split. reflexivity. split. { intros KPar. constructor; auto. split; auto. split; auto. split; auto. split; auto. exists c, ys. exact F2. }
  rewrite <- Cf, <- Ci. auto.
Qed.
Lemma init_new d b q perm file : box_ok ztol d b -> (0 < d)%nat -> (ss_lin q = true -> (d < 100)%nat) -> table file -> (0 < nrows file)%nat -> ncols file = S d ->
  exists m, initSurrogate d b q perm (sm_new file) = (m, Ok tt) /\ m_file m = file /\ t_iters (m_tr m) = ss_iters q /\ fits d b (ss_lin q) (repeat 1 d) (repeat (9 / 5) d) m.
Proof.
  intros Hb Hd Hl Ht Hn Hc. destruct (init_any d b q perm (sm_new file)) as (m & th & ga & E & E1 & E2 & F & _ & P); auto. apply kpre_new. destruct (P eq_refl) as (-> & ->). exists m. split; auto. split; auto. split; auto. apply F, setup_default.
Qed.
Lemma init_again d b q perm th ga m : box_ok ztol d b -> (0 < d)%nat -> (ss_lin q = true -> (d < 100)%nat) -> fits d b (ss_lin q) th ga m ->
  exists m', initSurrogate d b q perm m = (m', Ok tt) /\ m_file m' = m_file m /\ t_iters (m_tr m') = ss_iters q /\ fits d b (ss_lin q) th ga m'.
Proof.
  intros Hb Hd Hl [(Ht & Hn & Hc & DC & c & ys & F) KP T1 T2 T3 T4]. cbn [fst snd] in *. destruct (init_any d b q perm m) as (m' & th' & ga' & E & E1 & E2 & F' & P & _); auto. eapply fitted_pre; eauto.
  pose proof (ft_ready _ _ _ _ _ _ _ _ _ _ _ F) as []. destruct (P (ft_cfi _ _ _ _ _ _ _ _ _ _ _ F)) as (-> & ->). rewrite q_th, q_ga in F'. exists m'. auto.
Qed.
(** a training that completes; a training that throws changes no prediction *)
Lemma train_split (t : trainer R) us ws order d b lin eps tr file c th ga ys t' r : fitted (t_k t) d b lin eps tr file c th ga ys -> (0 < d)%nat -> t_threads t = 1%nat -> t_hasval t = false -> t_val t = false -> t_warm t = None ->
  krig_train us ws order t = (t', r) ->
  (exists k', r = Ok (Some tt) /\ k_data k' = k_data (t_k t) /\ t' = tset_iters (t_iters t / 1) (tset_k k' t)) \/ (r <> Ok (Some tt) /\ t' = tset_iters (t_iters t / 1) t).
Proof.
  intros F Hd T1 T2 T3 T4 H. pose proof (ft_ready _ _ _ _ _ _ _ _ _ _ _ F) as []. unfold krig_train in H. unfold sbind at 1, sget at 1 in H. rewrite (ft_init _ _ _ _ _ _ _ _ _ _ _ F) in H. cbn [negb] in H. unfold sthrow_if in H. unfold sbind at 1, sret at 1 in H.
  set (t1 := tset_iters (t_iters t / 1) t) in *.
  assert (exists t2 r2, train_search us ws order t = (t2, r2) /\ ((t2 = t1 /\ r2 = Ok None) \/ (exists best, t2 = tset_k (with_hyper (firstn d best) (skipn d best) (t_k t)) t1 /\ r2 = Ok (Some tt) /\ length best = (2 * d)%nat) \/ (t2 = t1 /\ isOk r2 = false))) as HS.
  { unfold train_search. unfold sbind at 1, sget at 1. rewrite T4, q_dim. destruct (Nat.eqb_spec d 0) as [|_]; [lia|]. unfold sthrow_if. unfold sbind at 1, sret at 1. rewrite T2. cbn [swhen]. unfold sbind at 1, sret at 1. rewrite T1. cbn [Nat.eqb].
    rewrite (sbind_ok _ _ _ t1 tt) by reflexivity. rewrite (sbind_ok _ _ _ t1 t1) by reflexivity.
    destruct (bind (train_optimizer t1 _ _) _) as [[[best v]|]|e|] eqn:EO; unfold slift at 1; unfold sbind at 1.
    - unfold slift at 1. unfold sbind at 1. change (t_k t1) with (t_k t). rewrite q_dim. unfold vec_head. destruct (Nat.ltb_spec (length best) d) as [L|L]. { eexists _, _. split; [reflexivity|]. auto. }
      unfold slift at 1. unfold sbind at 1. unfold vec_tail. destruct (Nat.ltb_spec (length best) d) as [L'|L']. lia.
      unfold sbind, in_model, szoom. change (t_k t1) with (t_k t). destruct (Nat.eq_dec (length best) (2 * d)) as [E|E].
      + rewrite (setHyper_step _ _ _ _ _ _ _ _ _ _ _ _ F E). eexists _, _. split; [reflexivity|]. right; left. exists best. auto.
      + unfold in_kcf, szoom. destruct (ecf_setHyper_ok (k_cf (t_k t)) best) as (_ & A). { rewrite q_cd; lia. } rewrite q_cd in A. rewrite (A E). eexists _, _. split; [reflexivity|]. right; right. split; auto. unfold t1. destruct t as [[] ? ? ? ? ?]. reflexivity.
    - eexists _, _. split; [reflexivity|]. auto.
    - eexists _, _. split; [reflexivity|]. auto.
    - eexists _, _. split; [reflexivity|]. auto. }
  destruct HS as (t2 & r2 & E & [(-> & ->)|[(best & -> & -> & Lb)|(-> & Er)]]).
  - unfold sbind at 1 in H. rewrite E in H. injection H as <- <-. right. split; auto. discriminate.
  - unfold sbind at 1 in H. rewrite E in H. unfold sbind at 1, sget at 1 in H. change (t_val (tset_k _ t1)) with (t_val t) in H. rewrite T3 in H. cbn [swhen] in H. unfold sbind at 1, sret at 1 in H.
    destruct (update_with _ _ _ _ _ _ _ _ _ _ _ (firstn d best) (skipn d best) F) as (k' & R2 & F' & D'). rewrite firstn_length; lia. rewrite skipn_length; lia.
    unfold sbind, in_model, szoom in H. change (t_k (tset_k ?k t1)) with k in H. rewrite R2 in H. injection H as <- <-. left. exists k'. split; auto.
  - unfold sbind at 1 in H. rewrite E in H. destruct r2 as [a|e|]; try discriminate; injection H as <- <-; right; split; auto; discriminate.
Qed.
Lemma train_done d b lin th ga m us ws m' : (forall j k i, 0 <= us j k i < 1) -> (0 < d)%nat -> fits d b lin th ga m -> trainSurrogate us ws m = (m', Ok (Some tt)) ->
  exists th' ga', trained_range d th' ga' /\ fits d b lin th' ga' m' /\ m_file m' = m_file m.
Proof.
  intros Hu Hd [(Ht & Hn & Hc & DC & c & ys & F) KP T1 T2 T3 T4] H. cbn [fst snd] in *. unfold trainSurrogate, in_tr in H. apply zoom_inv in H. destruct H as (t' & H & ->).
  destruct (train_split _ _ _ _ _ _ _ _ _ _ _ _ _ _ _ _ F Hd T1 T2 T3 T4 H) as [(k' & _ & D & E)|(N & _)]; [|congruence].
  destruct (train_fitted _ t' us ws [0%nat] d b lin _ _ _ c th ga ys Hu T4 F T3) as (best & v & th' & ga' & ys' & _ & Rg & _ & _ & F' & _ & Q1 & Q2 & Q3 & Q4 & _); auto. { congruence. }
  rewrite T2 in F'. exists th', ga'. split; auto. split; [|reflexivity]. constructor; cbn [m_tr m_file]; try congruence.
  - split; auto. split; auto. split; auto. split; [|exists c, ys'; exact F']. cbn [fst]. rewrite E. change (t_k (tset_iters _ (tset_k k' _))) with k'. rewrite D. exact DC.
  - apply range_kparams; auto.
Qed.
Lemma train_fails d b lin th ga m us ws m' r : (0 < d)%nat -> fits d b lin th ga m -> trainSurrogate us ws m = (m', r) -> r <> Ok (Some tt) -> fits d b lin th ga m' /\ m_file m' = m_file m /\ t_k (m_tr m') = t_k (m_tr m).
Proof.
  intros Hd [(Ht & Hn & Hc & DC & c & ys & F) KP T1 T2 T3 T4] H N. cbn [fst snd] in *. unfold trainSurrogate, in_tr, szoom in H. destruct (krig_train us ws [0%nat] (m_tr m)) as [t' r'] eqn:E. injection H as <- <-.
  destruct (train_split _ _ _ _ _ _ _ _ _ _ _ _ _ _ _ _ F Hd T1 T2 T3 T4 E) as [(k' & Er & _)|(_ & ->)]; [congruence|].
  split; [|split; reflexivity]. constructor; cbn [m_tr m_file]; auto. split; auto. split; auto. split; auto. split; auto. exists c, ys. exact F.
Qed.
(** a sample: appended to the file and taken into the model, unless the file has a row like it *)
Lemma add_fits d b lin th ga m fmt x perm : box_ok ztol d b -> (0 < d)%nat -> (lin = true -> (d < 100)%nat) -> fits d b lin th ga m -> length x = S d ->
  exists m', addSample fmt x perm m = (m', Ok tt) /\ fits d b lin th ga m' /\ t_iters (m_tr m') = t_iters (m_tr m) /\
    (((exists r, In r (rows (m_file m)) /\ close_row r x) /\ m' = m) \/ ((forall r, In r (rows (m_file m)) -> ~ close_row r x) /\ rows (m_file m') = rows (m_file m) ++ [map fmt x])).
Proof.
  intros Hb Hd Hl [O KP T1 T2 T3 T4] Hx. unfold addSample, szoom. destruct (addSample_step d b lin _ th ga _ _ fmt x perm Hb Hd Hl O Hx) as [(C & E)|(C & k' & file' & E & Er & O')]; rewrite E; cbn [fst snd].
  - exists m. split. { f_equal. destruct m as [[] ?]. reflexivity. } split. constructor; auto. auto.
  - eexists. split. reflexivity. split. constructor; auto. split; auto.
Qed.
Lemma offered_snoc fmt rs xs rs' x rs2 : offered fmt rs xs rs' -> offered fmt rs' [x] rs2 -> offered fmt rs (xs ++ [x]) rs2.
Proof. induction 1; intros O; cbn [app]; auto. apply offered_dup; auto. apply offered_new; auto. Qed.
(** the predictions of such a model *)
Lemma fits_predict d b lin th ga m x : fits d b lin th ga m -> length x = d ->
  exists c be w s2 u, kriging d th ga (1 / 10 ^ 12) (points b d (rows (m_file m))) (fun i => output d (rows (m_file m)) i - (if lin then lpredict d c (nth i (points b d (rows (m_file m))) []) else 0)) be w s2 /\
    (lin = true -> normal_eqs d (points b d (rows (m_file m))) (output d (rows (m_file m))) (1 / 10 ^ 8) c) /\
    kvar_factor d th ga (1 / 10 ^ 12) (points b d (rows (m_file m))) x u /\
    krig_variance (t_k (m_tr m)) x = Ok ((if lin then lpredict d c x else 0) + kpredict d th ga (points b d (rows (m_file m))) be w x, s2 * u).
Proof.
  intros [(Ht & Hn & Hc & DC & c & ys & F) KP T1 T2 T3 T4] Hx. cbn [fst snd] in *.
  assert (kregular d th ga (1 / 10 ^ 12) (points b d (rows (m_file m)))) as KR. { apply kregular_eps; auto. lra. }
  destruct (fitted_variance _ _ _ _ _ _ _ _ _ _ _ x F KP KR Hx) as (u & U & V). exists c, (k_beta0 (t_k (m_tr m))), (vget (k_Rysb (t_k (m_tr m)))), (k_s2 (t_k (m_tr m))), u.
  split. { eapply fitted_kriging; eauto. } split. { intros L. eapply fitted_normal; eauto. } auto.
Qed.
