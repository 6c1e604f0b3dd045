(** Proofs about the program: functions with different files, and the study a configuration starts. *)
From Coq Require Import Ascii String ZArith Bool Arith Reals Lra List Lia.
From Verif Require Import Base StM Num RealNum VecModel MatModel MatSpec BoundsModel DataProofs DesignModel HistModel HistSpec KrigModel TrainModel TrainReal OptModel OptSpec OptReal OptRun OptRunReal OptStart OptTop RunFileModel StudyModel StudyFit StudySpec StudyStep StudyLoop StudyRun
  StrModel StrSpec StrProofs StrReal ApiModel ApiProofs ApiReal ApiRun DriverModel DriverSpec DriverRead DriverWhole DriverConfig DriverRun MainModel.
Import ListNotations.
Local Open Scope R_scope.

(** *** different files *)
Lemma sbind_ext {S A B} (m m' : SM S A) (k k' : A -> SM S B) s : m s = m' s -> (forall a s1, k a s1 = k' a s1) -> sbind m k s = sbind m' k' s.
Proof. intros E K. unfold sbind. rewrite E. destruct (m' s) as [s1 [a|x|]]; auto. Qed.
Lemma str_eqb_eq (a b : str) : str_eqb a b = true -> a = b.
Proof. revert b. induction a as [|x a IH]; intros [|y b]; cbn; try discriminate; auto. destruct (Ascii.eqb_spec x y) as [->|]; cbn; [|discriminate]. intros H. f_equal. now apply IH. Qed.
Definition different (n : nat -> option str) : Prop := forall j k a, n j = Some a -> n k = Some a -> j = k.
Lemma same_file_eq n j k : different n -> same_file n j k = true -> j = k.
Proof. intros D. unfold same_file. destruct (n j) as [a|] eqn:J; [|discriminate]. destruct (n k) as [b|] eqn:K; [|discriminate]. intros E. apply str_eqb_eq in E. subst b. eauto. Qed.
Lemma set_own m : set_file (m_file m) m = m.
Proof. now destruct m. Qed.
Lemma map_combine_id {A} (f : nat -> A -> A) (l : list A) : forall k, (forall i a, nth_error l i = Some a -> f (k + i)%nat a = a) -> map (fun p => f (fst p) (snd p)) (combine (seq k (length l)) l) = l.
Proof.
  induction l as [|a l IH]; intros k H; cbn [length seq combine map]; auto. cbn [fst snd]. f_equal. { specialize (H 0%nat a eq_refl). now rewrite Nat.add_0_r in H. } apply IH. intros i b E. specialize (H (S i) b E). now rewrite Nat.add_succ_r in H.
Qed.
Lemma sync_id n k s : different n -> sync n k s = s.
Proof.
  intros D. unfold sync. destruct s as [o ob co]. cbn [y_opt y_obj y_con]. f_equal.
  - destruct (same_file n 0 k) eqn:E; auto. apply same_file_eq in E; auto. subst k. cbn [file_at y_obj]. apply set_own.
  - apply (map_combine_id (fun i m => if same_file n (S i) k then set_file (file_at (mkSt o ob co) k) m else m) co 0). intros i m E. destruct (same_file n (S (0 + i)) k) eqn:F; auto. apply same_file_eq in F; auto. subst k. cbn [file_at y_con Nat.add]. rewrite (nth_error_nth _ _ _ E). apply set_own.
Qed.
Lemma shared_id n k m s : different n -> shared n k m s = m s.
Proof. intros D. unfold shared. destruct (m s) as [s1 r]. now rewrite sync_id. Qed.
Lemma eachCon_ext cs : forall i f g s, (forall j oc s1, nth_error cs j = Some oc -> oc_user oc = false -> f (i + j)%nat oc s1 = g (i + j)%nat oc s1) -> eachCon i cs f s = eachCon i cs g s.
Proof.
  induction cs as [|oc cs IH]; intros i f g s H; cbn [eachCon]; auto. apply sbind_ext.
  - destruct (oc_user oc) eqn:U; cbn [negb swhen]; auto. specialize (H 0%nat oc s eq_refl U). now rewrite Nat.add_0_r in H.
  - intros _ s1. apply IH. intros j oc' s2 E U. specialize (H (S j) oc' s2 E U). now rewrite Nat.add_succ_r in H.
Qed.
Lemma stepP_eq n c q fmt dr s : different n -> stepP n c q fmt dr s = studyStep c q fmt dr s.
Proof.
  intros D. unfold stepP, studyStep. apply sbind_ext; auto. intros o s1. assert (forall t s1,
    (get s <-- sget (fun s => s); let e := envOf c dr t s in get d <-- StudyModel.in_opt (beforeUpdate c e); run addObjectiveP n fmt dr d; run addConstraintsP n c fmt dr d; run StudyModel.in_opt (run in_hist (hist_update d); run afterUpdate c e; findOptimum c); sret (Some tt)) s1 =
    (get s <-- sget (fun s => s); let e := envOf c dr t s in get d <-- StudyModel.in_opt (beforeUpdate c e); run addObjective fmt dr d; run addConstraints c fmt dr d; run StudyModel.in_opt (run in_hist (hist_update d); run afterUpdate c e; findOptimum c); sret (Some tt)) s1) as G.
  { intros t s2. apply sbind_ext; auto. intros s3 s4. cbn zeta. apply sbind_ext; auto. intros d s5. apply sbind_ext. { apply shared_id, D. } intros _ s6. apply sbind_ext; auto.
    unfold addConstraintsP, addConstraints. apply eachCon_ext. intros j oc s7 _ _. apply sbind_ext; auto. intros v s8. now apply shared_id. }
  destruct o as [[u|]|x|]; auto.
Qed.
Lemma loopP_eq n c q fmt drs : different n -> forall fuel k s, loopP fuel k n c q fmt drs s = studyLoop fuel k c q fmt drs s.
Proof.
  intros D. induction fuel as [|f IH]; intros k s; cbn [loopP studyLoop]; auto. rewrite stepP_eq by exact D. destruct (studyStep c q fmt (drs k) s) as [s1 [[u|]|x|]]; auto. destruct (Nat.leb _ _); auto.
Qed.
Lemma firstSurrogates_eq g c q perm s : g 0%nat = Ok tt -> (forall i oc, nth_error (c_cons c) i = Some oc -> oc_user oc = false -> g (S i) = Ok tt) -> firstSurrogates g c q perm s = initSurrogates c q perm s.
Proof.
  intros G0 G. unfold firstSurrogates, initSurrogates. rewrite (sbind_ok _ _ _ s tt). 2:{ rewrite G0. reflexivity. } apply sbind_ext; auto. intros _ s1. apply eachCon_ext. intros j oc s2 E U. cbn [Nat.add]. rewrite (sbind_ok _ _ _ s2 tt); auto. rewrite (G j oc E U). reflexivity.
Qed.
Lemma startP_eq g c q perm s : g 0%nat = Ok tt -> (forall i oc, nth_error (c_cons c) i = Some oc -> oc_user oc = false -> g (S i) = Ok tt) -> startP g (Ok tt) false c q perm s = startStudy c q perm s.
Proof.
  intros G0 G. unfold startP, startStudy. apply sbind_ext; auto. intros _ s1. apply sbind_ext. { now apply firstSurrogates_eq. } intros _ s2.
  set (A := smod (set_init true)). set (B := szoom s_cur set_cur (design_setNumberOfConstraints (length (c_cons c)))). set (C := on_cur (ds_set_feas true)). set (D := initHistory c).
  unfold sbind, slift, sthrow_if, StudyModel.in_opt, szoom. cbn [y_opt]. unfold sret. destruct (A (y_opt s2)) as [a1 [[]|x|]]; auto; cbn [y_opt]; destruct (B a1) as [a2 [[]|x|]]; auto; cbn [y_opt]; destruct (C a2) as [a3 [[]|x|]]; auto.
Qed.

(** *** a study from a prepared optimiser *)
Section From.
  Variables (c : cfg R) (q : ssets) (fmt : R -> R).
  Hypothesis (Hs : settings_ok c) (Hm : models_ok c (fun k => ss_lin (q k))).
  Lemma study_begin perm o : data_ok c -> prepared c o -> c_objset c = true -> c_N c <> 0%nat ->
    exists o1 s1, startRun c (Ok tt) o = (o1, Ok tt) /\ startStudy c q perm (studyNew c o) = (s1, Ok tt) /\ y_opt s1 = o1 /\ minv c q fmt [] s1 /\ ready c o1 /\
      Forall2 (start_row c) (rows (c_data c)) (rows (h_data (s_hist o1))) /\ s_iter o1 = s_iter o /\ s_evals o1 = s_evals o /\ s_pts o1 = s_pts o.
  Proof.
    intros Hdat P0 Ho HN. destruct (startRun_ok c o Hs Hdat P0 Ho HN) as (o1 & E1 & R1 & T1 & T2 & T3 & T4 & T5 & _). exists o1.
    assert (exists oa, (run sthrow_if (negb (c_objset c)) RuntimeError; run sthrow_if (negb (c_boxset c)) RuntimeError; run settingsOk c; initSettings c) o = (oa, Ok tt) /\
      (run smod (set_init true); run szoom s_cur set_cur (design_setNumberOfConstraints (length (c_cons c))); run on_cur (ds_set_feas true); initHistory c) oa = (o1, Ok tt)) as (oa & EA & EB).
    { unfold startRun in E1. apply TrainReal.sbind_inv in E1. destruct E1 as (x1 & [] & X1 & E1). apply TrainReal.sbind_inv in E1. destruct E1 as (x2 & [] & X2 & E1). apply TrainReal.sbind_inv in E1. destruct E1 as (x3 & [] & X3 & E1). apply TrainReal.sbind_inv in E1. destruct E1 as (x4 & [] & X4 & E1).
      exists x4. rewrite (sbind_ok _ _ _ _ _ X1), (sbind_ok _ _ _ _ _ X2), (sbind_ok _ _ _ _ _ X3). split; auto. }
    destruct (init_first c q fmt Hs Hm perm oa Hdat) as (s2 & E2 & O2 & I2). exists (mkSt o1 (y_obj s2) (y_con s2)). split; auto. split.
    { unfold startStudy. rewrite (sbind_ok _ _ _ (studyNew c oa) tt). 2:{ apply (in_opt_ok _ (studyNew c o) oa tt EA). } rewrite (sbind_ok _ _ _ s2 tt E2). apply in_opt_ok. rewrite O2. exact EB. }
    split; auto. split. { destruct I2; constructor; auto. } split; auto.
  Qed.
  (** the design vector cannot be saved *)
  Lemma study_unsaved g x rep perm o : g 0%nat = Ok tt -> (forall i oc, nth_error (c_cons c) i = Some oc -> oc_user oc = false -> g (S i) = Ok tt) -> data_ok c -> prepared c o -> c_objset c = true -> c_N c <> 0%nat ->
    exists s1, startP g (Throw x) rep c q perm (studyNew c o) = (s1, Throw x) /\ minv c q fmt [] s1 /\ s_evals (y_opt s1) = s_evals o /\ s_pts (y_opt s1) = s_pts o /\ s_hist (y_opt s1) = s_hist o.
  Proof.
    intros G0 G Hdat P0 Ho HN. destruct (startRun_ok c o Hs Hdat P0 Ho HN) as (o1 & E1 & _). destruct (startRun_stops c x o Hs Ho HN) as (o2 & F1 & F2 & F3 & F4).
    assert (exists oa, (run sthrow_if (negb (c_objset c)) RuntimeError; run sthrow_if (negb (c_boxset c)) RuntimeError; run settingsOk c; initSettings c) o = (oa, Ok tt) /\ s_evals oa = s_evals o /\ s_pts oa = s_pts o /\ s_hist oa = s_hist o /\
      exists ob, (run smod (set_init true); szoom s_cur set_cur (design_setNumberOfConstraints (length (c_cons c)))) oa = (ob, Ok tt)) as (oa & EA & A1 & A2 & A3 & ob & EB).
    { unfold startRun in E1, F1. apply TrainReal.sbind_inv in E1. destruct E1 as (x1 & [] & X1 & E1). rewrite (sbind_ok _ _ _ _ _ X1) in F1. apply TrainReal.sbind_inv in E1. destruct E1 as (x2 & [] & X2 & E1). rewrite (sbind_ok _ _ _ _ _ X2) in F1.
      apply TrainReal.sbind_inv in E1. destruct E1 as (x3 & [] & X3 & E1). rewrite (sbind_ok _ _ _ _ _ X3) in F1. apply TrainReal.sbind_inv in E1. destruct E1 as (x4 & [] & X4 & E1). rewrite (sbind_ok _ _ _ _ _ X4) in F1. unfold sbind, slift in F1. injection F1 as <-.
      exists x4. rewrite (sbind_ok _ _ _ _ _ X1), (sbind_ok _ _ _ _ _ X2), (sbind_ok _ _ _ _ _ X3). split; auto. split; auto. split; auto. split; auto.
      rewrite (sbind_ok _ _ _ x4 tt) in E1 by reflexivity. apply TrainReal.sbind_inv in E1. destruct E1 as (x5 & [] & X5 & E1). apply TrainReal.sbind_inv in E1. destruct E1 as (x6 & [] & X6 & _). exists x6. rewrite (sbind_ok _ _ _ _ _ X5). exact X6. }
    assert (s_evals ob = s_evals oa /\ s_pts ob = s_pts oa /\ s_hist ob = s_hist oa) as (B1 & B2 & B3).
    { apply TrainReal.sbind_inv in EB. destruct EB as (x5 & [] & X5 & EB). unfold smod in X5. injection X5 as <-. unfold szoom in EB. destruct (design_setNumberOfConstraints _ _) as [dd [[]|y|]]; try discriminate EB. injection EB as <-. repeat split. }
    destruct (init_first c q fmt Hs Hm perm oa Hdat) as (s2 & E2 & O2 & I2). exists (mkSt ob (y_obj s2) (y_con s2)). split.
    { unfold startP. rewrite (sbind_ok _ _ _ (studyNew c oa) tt). 2:{ apply (in_opt_ok _ (studyNew c o) oa tt EA). } rewrite (sbind_ok _ _ _ s2 tt). 2:{ rewrite firstSurrogates_eq by assumption. exact E2. }
      rewrite (sbind_ok _ _ _ (mkSt ob (y_obj s2) (y_con s2)) tt). 2:{ apply in_opt_ok. rewrite O2. exact EB. } reflexivity. }
    split. { destruct I2; constructor; auto. } cbn [y_opt]. repeat split; congruence.
  Qed.
End From.

(** *** the study of a configuration *)
Section Study.
  Context (ext : odef -> ufun R) (udf : nat -> ufun R) (data : str -> option (mat R)) (c : config) (s : driver R) (HS : study ext udf c s) (HA : acceptable c).
  Lemma study_prepared : prepared (driver_cfg data s) (p_st (d_opt s)) /\ s_iter (p_st (d_opt s)) = 0%nat /\ s_evals (p_st (d_opt s)) = 0%nat /\ s_pts (p_st (d_opt s)) = [].
  Proof.
    destruct (cfg_is ext udf data c s HS) as (C1 & C2 & C3 & C4 & C5 & C6 & C7 & C8 & C9 & C10).
    destruct HS as (_ & _ & _ & _ & _ & _ & _ & (O1 & O2 & O3 & O4 & O5 & O6 & O7 & O8 & O9 & U1 & U2 & U3 & U4 & U5 & U6 & U7 & U8 & U9) & P1 & P2 & P3 & P4).
    assert (s_trLen (p_st (d_opt s)) = 4 / 5) as TR. { rewrite U4. cbn. unfold Rlit. simpl. field. }
    split; [|auto 10]. unfold prepared, gopt_ready. rewrite C1, C2, C3, C9, ocons_len, P4. cbn [b_lo b_up b_set cbox box_of]. rewrite TR. destruct HA as (D0 & _ & DL & _). rewrite O9.
    assert (forall l j, length (cons_of ext udf (cbox c) (cf_dim c) j l) = length l) as LC by (induction l as [|k l IH]; intros j; cbn; auto). rewrite LC.
    split. { split; [lia|]. split; [exact O8|]. rewrite !map_length. auto. } repeat (split; [assumption || reflexivity|]). lra.
  Qed.
End Study.
