(** Property C101: a study with its surrogate models: the optimiser, the training data and the models grow together. *)
From Coq Require Import Reals Lra List Arith Lia ZArith Bool.
From Verif Require Import Base StM Num RealNum VecModel MatModel MatSpec MatProofs BoundsModel DataModel DataProofs DataReal KrigModel KrigSpec KrigProg KrigProofs3 EaModel EaLive TrainModel TrainReal
  ErfMath AcqModel AcqSpec PropsAcq DesignModel HistModel HistSpec HistProofs OptModel OptProofs OptRun OptSpec OptReal OptRunReal OptStart OptTop RunFileModel RunFileText RunFileProofs StudyModel StudyFit StudySpec StudyStep StudyLoop StudyRun.
Import ListNotations.
Local Open Scope R_scope.

(** the file with the training data of function number k *)
Definition file_of (s : study) (k : nat) : mat R := match k with O => m_file (y_obj s) | S i => m_file (nth i (y_con s) (sm_new mat_empty)) end.
Definition lin_of (q : ssets) (k : nat) : bool := ss_lin (q k).
(** the draws, schedules and simulations of an iteration come from outside *)
Definition same_world (e : env R) (dr : draws) : Prop :=
  e_eval e = dr_eval dr /\ e_u1 e = dr_u1 dr /\ e_u2 e = dr_u2 dr /\ e_s1 e = dr_s1 dr /\ e_s2 e = dr_s2 dr /\ e_mult e = dr_mult dr /\ e_add e = Ok tt.

Lemma minv_files c q fmt os s k tab : minv c q fmt os s -> modelled c k = Some tab -> offered fmt (rows tab) (map (sample_of k) os) (rows (file_of s k)).
Proof.
  intros [I1 I2 I3] H. destruct k as [|i]; cbn [modelled sample_of file_of] in *.
  - injection H as <-. destruct I1 as (th & ga & _ & O). exact O.
  - destruct (nth_error (c_cons c) i) as [oc|] eqn:E; [|discriminate]. destruct (oc_user oc) eqn:U; [discriminate|]. injection H as <-. destruct (I3 i oc E U) as (th & ga & _ & O). exact O.
Qed.
Definition pred_of (s : study) (k : nat) : list R -> R * R := match k with O => predicted (y_obj s) | S i => cpred s i end.
Lemma minv_models c q fmt os s k tab : minv c q fmt os s -> modelled c k = Some tab -> kmodel (c_dim c) (cbox c) (lin_of q k) (rows (file_of s k)) (pred_of s k).
Proof.
  intros [I1 I2 I3] H. destruct k as [|i]; cbn [modelled file_of pred_of] in *.
  - destruct I1 as (th & ga & F & _). eapply fits_model. exact F.
  - destruct (nth_error (c_cons c) i) as [oc|] eqn:E; [|discriminate]. destruct (oc_user oc) eqn:U; [discriminate|]. destruct (I3 i oc E U) as (th & ga & F & _). eapply fits_model. exact F.
Qed.

(** ** whenever a study stops, whatever the reason: it is a run of the optimiser, the files hold the samples given and those of the
    evaluated designs, and every iteration worked with the Kriging models of exactly the samples in the files at that time *)
Theorem C101_study : forall c q fmt perm drs fuel s' r, settings_ok c -> data_ok c -> models_ok c (lin_of q) -> (forall k, draws_ok (drs k)) -> c_objset c = true -> c_N c <> 0%nat ->
  studyRun fuel c q fmt perm drs = Some (s', r) ->
  exists s0 es start new, optSetup c ost_new = (s0, Ok tt) /\ ego fuel c (Ok tt) es s0 = Some (y_opt s', r) /\ (forall i, same_world (es i) (drs i)) /\
    (* the history *)
    Forall2 (start_row c) (rows (c_data c)) start /\ rows (h_data (s_hist (y_opt s'))) = start ++ map outcome_row new /\ outcomes_ok c es 0 start new /\
    optimum_of c (rows (h_data (s_hist (y_opt s')))) (s_gopt (y_opt s')) /\
    (* the files with training data, and the models at the end *)
    (forall k tab, modelled c k = Some tab -> offered fmt (rows tab) (map (sample_of k) new) (rows (file_of s' k))) /\
    (* the iterations *)
    (forall i, (i < s_iter (y_opt s'))%nat -> exists p, acquires c (es i) (p 0%nat) (fun j => p (S j)) /\
       forall k tab, modelled c k = Some tab -> exists rs, offered fmt (rows tab) (map (sample_of k) (firstn i new)) rs /\ kmodel (c_dim c) (cbox c) (lin_of q k) rs (p k)) /\
    (* the end *)
    ((r = Ok tt /\ length new = c_N c /\ s_iter (y_opt s') = c_N c) \/ (isOk r = false /\ (length new < c_N c)%nat /\ s_iter (y_opt s') = S (length new))).
Proof.
  intros c q fmt perm drs fuel s' r Hs Hdat Hm Hd Ho HN H. destruct (study_start c q fmt Hs Hm perm Hdat Ho HN) as (o & o1 & s1 & E0 & E1 & E2 & O1 & I1 & R1 & T1 & T2 & T3).
  unfold studyRun in H. rewrite E0, E2 in H. rewrite <- O1 in R1, T1, T2, T3.
  destruct (study_loop c q fmt Hs Hm drs Hd fuel 0 [] s1 s' r I1 R1 ltac:(lia) H) as (ts & ys & new & n & P0 & P1 & P2 & P3 & P4 & P5 & P6 & P7 & P8 & P9 & P10).
  exists o, (envs c drs ts ys), (rows (h_data (s_hist (y_opt s1)))), new. split; auto. split. { unfold ego. rewrite E1, <- O1. exact P1. } split. { intros i. repeat split. }
  split; auto. split; auto. split; auto. split; auto. split. { intros k tab Hk. exact (minv_files c q fmt new s' k tab P5 Hk). }
  split.
  { intros i Hi. rewrite P2, T3 in Hi. destruct (P4 i ltac:(lia)) as (X & _). cbn [app Nat.add] in X. exists (pred_of (ys i)). split.
    - apply study_acquires. exact Hs.
    - intros k tab Hk. exists (rows (file_of (ys i) k)). split. exact (minv_files _ _ _ _ _ _ _ X Hk). exact (minv_models _ _ _ _ _ _ _ X Hk). }
  destruct P10 as [(-> & L & N)|(NR & L & _)].
  - left. split; auto. split; auto. lia.
  - right. split; auto. lia.
Qed.
Print Assumptions C101_study.

(** ** why a study stops early: a training that was due did not succeed, or the simulation or a constraint failed at an admissible design.
    No study stops because a sample cannot be stored or a prediction fails *)
Theorem C101_early_stop : forall c q fmt perm drs fuel s' r, settings_ok c -> data_ok c -> models_ok c (lin_of q) -> (forall k, draws_ok (drs k)) -> c_objset c = true -> c_N c <> 0%nat ->
  studyRun fuel c q fmt perm drs = Some (s', r) -> r <> Ok tt ->
  exists i, s_iter (y_opt s') = S i /\ (i < c_N c)%nat /\
    ((Nat.modulo (S i) (c_how c) = 1%nat /\ exists sx sa sb o, initSurrogates c q (dr_perm (drs i)) sx = (sa, Ok tt) /\ trainSurrogates c (drs i) sa = (sb, o) /\ isOk o = false /\ r = forget o) \/
     (exists x, admissible c x /\ (isOk (dr_eval (drs i) x) = false \/ exists oc, In oc (c_cons c) /\ isOk (oc_fun oc x) = false))).
Proof.
  intros c q fmt perm drs fuel s' r Hs Hdat Hm Hd Ho HN H NR. destruct (study_start c q fmt Hs Hm perm Hdat Ho HN) as (o & o1 & s1 & E0 & E1 & E2 & O1 & I1 & R1 & T1 & T2 & T3).
  unfold studyRun in H. rewrite E0, E2 in H. rewrite <- O1 in R1, T1, T2, T3.
  destruct (study_loop c q fmt Hs Hm drs Hd fuel 0 [] s1 s' r I1 R1 ltac:(lia) H) as (ts & ys & new & n & P0 & P1 & P2 & P3 & P4 & P5 & P6 & P7 & P8 & P9 & P10).
  destruct P10 as [(-> & _)|(_ & L & sx & Sx & F)]; [contradiction|]. exists (length new). rewrite T3 in *. cbn [Nat.add] in *. split; [lia|]. split; [lia|].
  destruct F as [(D & NT & x & F)|F]; [left|right; exact F]. rewrite Sx in D. split; auto. destruct (P4 (length new) ltac:(lia)) as (_ & _ & TB). cbn [Nat.add] in TB. destruct (TB D) as (sz & sa & oo & EI & _ & ET & Et). exists sz, sa, (ys (length new)), oo. split; auto. split; auto.
  unfold envs in *. cbn [e_train envOf] in *. rewrite Et in *. split. { destruct oo; [discriminate| |]; reflexivity. } destruct F as [(-> & ->)|(-> & ->)]; reflexivity.
Qed.
Print Assumptions C101_early_stop.

(** ** a study whose trainings end does stop *)
Theorem C101_terminates : forall c q fmt perm drs fuel, settings_ok c -> data_ok c -> models_ok c (lin_of q) -> (forall k, draws_ok (drs k)) -> c_objset c = true -> c_N c <> 0%nat -> (c_N c <= fuel)%nat ->
  (forall i sb s, Nat.modulo (S i) (c_how c) = 1%nat -> initSurrogates c q (dr_perm (drs i)) sb = (s, Ok tt) -> (forall k tab, modelled c k = Some tab -> kmodel (c_dim c) (cbox c) (lin_of q k) (rows (file_of s k)) (pred_of s k)) -> snd (trainSurrogates c (drs i) s) <> Ok None) ->
  exists s' r, studyRun fuel c q fmt perm drs = Some (s', r).
Proof.
  intros c q fmt perm drs fuel Hs Hdat Hm Hd Ho HN Hf HT. destruct (study_start c q fmt Hs Hm perm Hdat Ho HN) as (o & o1 & s1 & E0 & E1 & E2 & O1 & I1 & R1 & T1 & T2 & T3).
  unfold studyRun. rewrite E0, E2. rewrite <- O1 in R1, T3. destruct (studyLoop fuel 0 c q fmt drs s1) as [[s' r]|] eqn:E; [eauto|].
  destruct (loop_running c q fmt Hs Hm drs Hd fuel 0 [] s1) as (j & new & sx & sa & sb & D & _ & I & _ & EI & ET); auto; try lia. rewrite T3 in D. cbn [Nat.add] in *.
  exfalso. apply (HT j sx sa D EI). { intros k tab Hk. eapply minv_models; eauto. } rewrite ET. reflexivity.
Qed.
Print Assumptions C101_terminates.

(** ** a training: the model of the same samples, with other hyper-parameters when it completes; a training that throws changes no prediction *)
Theorem C101_training : forall d b q perm file m us ws m' r, box_ok (1 / 10 ^ 9) d b -> (0 < d)%nat -> (ss_lin q = true -> (d < 100)%nat) -> table file -> (0 < nrows file)%nat -> ncols file = S d ->
  (forall j k i, 0 <= us j k i < 1) -> initSurrogate d b q perm (sm_new file) = (m, Ok tt) -> trainSurrogate us ws m = (m', r) ->
  kmodel d b (ss_lin q) (rows file) (predicted m) /\ kmodel d b (ss_lin q) (rows file) (predicted m') /\ m_file m' = file /\ (r <> Ok (Some tt) -> predicted m' = predicted m).
Proof.
  intros d b q perm file m us ws m' r Hb Hd Hl Ht Hn Hc Hu E1 E2. destruct (init_new d b q perm file Hb Hd Hl Ht Hn Hc) as (m1 & E & Ef & _ & F). rewrite E1 in E. injection E as <-.
  pose proof (fits_model _ _ _ _ _ _ F) as K1. rewrite Ef in K1. split; auto.
  assert (r = Ok (Some tt) \/ r <> Ok (Some tt)) as [->|N]. { destruct r as [[[]|]|x|]; auto; right; discriminate. }
  - destruct (train_done _ _ _ _ _ _ _ _ _ Hu Hd F E2) as (th' & ga' & _ & F' & Ef'). pose proof (fits_model _ _ _ _ _ _ F') as K2. rewrite Ef', Ef in K2. split; auto. split; [congruence|]. contradiction.
  - destruct (train_fails _ _ _ _ _ _ _ _ _ _ Hd F E2 N) as (F' & Ef' & Ek). pose proof (fits_model _ _ _ _ _ _ F') as K2. rewrite Ef', Ef in K2. split; auto. split; [congruence|]. intros _. unfold predicted. rewrite Ek. reflexivity.
Qed.
Print Assumptions C101_training.

(** ** an example: two parameters, one discrete, a constraint with a Kriging model and a user defined one, three iterations.  With the
    training interval 1 no training is ever due (C41): the study completes; when the simulation fails it stops in the first iteration *)
Definition con_model : ocon R := mkOC 0 true (1 / 4) false (fun x => Ok (nth 0 x 0)) (mkMat 2 3 [1 / 2; 3 / 4; 1; 1; 1 / 2; 3 / 4]).
Definition con_user : ocon R := mkOC 1 false 3 true (fun x => Ok (nth 1 x 0)) mat_empty.
Definition study_cfg : cfg R := mkCfg 2 [0; 0] [1; 2] 3 1 5 [(1%nat, 1 / 2)] [con_model; con_user] true true true (mkMat 2 3 [1 / 2; 3 / 4; 1; 1; 3; 5]).
Definition study_draws (f : vec R -> Res R) : draws := mkDr (fun _ _ _ _ => 1 / 2) (fun _ _ _ => live_gen (fun _ => 1 / 2)) (fun _ => []) (fun _ => []) (fun _ _ => 1 / 2) (fun _ _ => 1 / 3)
  (seq_schedule 5) [Check 0; Check 1; Write 1; Write 0] f None.
Definition study_sets : ssets := fun _ => mkSS true 100.
Lemma study_settings : settings_ok study_cfg.
Proof.
  unfold settings_ok. cbn [c_dim c_lb c_ub c_disc c_cons c_how c_boxset study_cfg length map fst]. split; [lia|]. split; auto. split; auto.
  split. { intros [|[|i]] Hi; cbn [nth]; try lra. lia. } split. { constructor; [intros []|constructor]. }
  split. { intros i dx [E|[]]. injection E as <- <-. cbn [nth]. repeat split; try lra. lia. } split; auto.
Qed.
Lemma study_data : data_ok study_cfg.
Proof. unfold data_ok. cbn [c_data c_dim study_cfg nrows ncols c_cons]. split; [reflexivity|]. split; [lia|]. split; [lia|]. intros oc [<-|[<-|[]]]; cbn; repeat split; auto. Qed.
Lemma study_models : models_ok study_cfg (lin_of study_sets).
Proof.
  split; auto. split. { intros oc [<-|[<-|[]]]; cbn; intros H; auto; discriminate. } split. { intros [|[|i]] Hi; cbn in *; try lra. lia. } intros k _. cbn. lia.
Qed.
Lemma study_draws_ok f : draws_ok (study_draws f).
Proof. repeat split; intros; cbn; lra. Qed.
Lemma study_stops f : exists s' r, studyRun 3 study_cfg study_sets (fun x => x) (fun _ => []) (fun _ => study_draws f) = Some (s', r).
Proof.
  apply C101_terminates; auto using study_settings, study_data, study_models, study_draws_ok. discriminate. intros i sb s D. cbn in D. discriminate.
Qed.
Example C101_example : exists s' start new, studyRun 3 study_cfg study_sets (fun x => x) (fun _ => []) (fun _ => study_draws (fun x => Ok (nth 0 x 0 + nth 1 x 0))) = Some (s', Ok tt) /\
  length start = 2%nat /\ length new = 3%nat /\ rows (h_data (s_hist (y_opt s'))) = start ++ map outcome_row new /\
  offered (fun x => x) [[1 / 2; 1; 3]; [3 / 4; 1; 5]] (map (sample_of 0) new) (rows (file_of s' 0)) /\ offered (fun x => x) [[1 / 2; 1; 1 / 2]; [3 / 4; 1; 3 / 4]] (map (sample_of 1) new) (rows (file_of s' 1)).
Proof.
  destruct (study_stops (fun x => Ok (nth 0 x 0 + nth 1 x 0))) as (s' & r & E). pose proof (fun k : nat => study_draws_ok (fun x => Ok (nth 0 x 0 + nth 1 x 0))) as Hd.
  destruct (C101_study study_cfg study_sets (fun x => x) (fun _ => []) _ 3 s' r study_settings study_data study_models (fun k : nat => Hd k) eq_refl ltac:(discriminate) E) as (s0 & es & start & new & _ & _ & _ & S1 & S2 & _ & _ & S3 & _ & S4).
  assert (r = Ok tt) as ->.
  { destruct S4 as [(-> & _)|(NR & _)]; auto. destruct (C101_early_stop study_cfg study_sets (fun x => x) (fun _ => []) _ 3 s' r study_settings study_data study_models (fun k : nat => Hd k) eq_refl ltac:(discriminate) E) as (i & _ & _ & [(D & _)|(x & _ & [F|(oc & [<-|[<-|[]]] & F)])]); try discriminate.
    intros ->. discriminate. }
  destruct S4 as [(_ & L & _)|(NR & _)]; [|discriminate]. exists s', start, new. split; auto. split. { apply Forall2_len2 in S1. cbn in S1. auto. } split; auto. split; auto. split. apply (S3 0%nat _ eq_refl). apply (S3 1%nat _ eq_refl).
Qed.
Example C101_stop_example : exists s' r, studyRun 3 study_cfg study_sets (fun x => x) (fun _ => []) (fun _ => study_draws (fun _ => Throw RuntimeError)) = Some (s', r) /\ r <> Ok tt /\ s_iter (y_opt s') = 1%nat /\
  rows (file_of s' 0) = [[1 / 2; 1; 3]; [3 / 4; 1; 5]].
Proof.
  destruct (study_stops (fun _ => Throw RuntimeError)) as (s' & r & E). pose proof (fun k : nat => study_draws_ok (fun _ => Throw RuntimeError)) as Hd.
  destruct (C101_study study_cfg study_sets (fun x => x) (fun _ => []) _ 3 s' r study_settings study_data study_models Hd eq_refl ltac:(discriminate) E) as (s0 & es & start & new & _ & _ & W & _ & _ & OK & _ & S3 & _ & S4).
  assert (new = []) as ->. { destruct new as [|o new]; auto. destruct OK as ((_ & EV & _) & _). destruct (W 0%nat) as (We & _). rewrite We in EV. discriminate. }
  exists s', r. split; auto. cbn [length] in S4. destruct S4 as [(_ & L & _)|(NR & _ & It)]; [discriminate|]. split. { intros ->. discriminate. } split; auto. specialize (S3 0%nat _ eq_refl). assert (forall fmt rs rs2, offered fmt rs [] rs2 -> rs2 = rs) as X by (intros ? ? ? H; inversion H; auto). rewrite (X _ _ _ S3). reflexivity.
Qed.
