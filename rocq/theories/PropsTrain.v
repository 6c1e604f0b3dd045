(** * C67, C75, C91: choosing the hyper-parameters of the Kriging model *)
From Coq Require Import Reals Lra List Arith Lia ZArith Bool Permutation.
From Verif Require Import Base StM Num RealNum RSpec VecModel MatModel MatLemmas MatSpec VecProofs VecReal MatProofs MatReal LinSolverModel BoundsModel CorrModel CorrObj
  DataModel DataSpec DataProofs DataReal KrigModel KrigSpec KrigMath KrigProofs KrigProofs3 KrigProg KrigProofs4 PropsData KrigProofs5 PropsLin PropsKrig EaModel EaProofs EaRun EaReal EaDemo PropsEa DetSpec TrainModel TrainProofs TrainReal TrainEval TrainMore TrainObj EaLive TrainDemo.
Import ListNotations.
Local Open Scope R_scope.

(** ** C67 *)
(** the value of a candidate does not depend on the candidates evaluated before, for any numbers *)
Theorem C67_evaluation_is_a_function : forall {T} {NT : Num T} {NF : NumFun T} (val : bool) (k : krig T) (hs : list (vec T)) (h : vec T),
  snd (train_evaluate val h (fold_left (fun k h => fst (train_evaluate val h k)) hs k)) = snd (train_evaluate val h k).
Proof. intros. apply evaluate_pure. Qed.
Print Assumptions C67_evaluation_is_a_function.

(** validation error: the lowest double for a matrix that is not factorised, otherwise a mean absolute error *)
Theorem C67_validation_objective : forall (k k' : krig R) h v, train_evaluate true h k = (k', Ok v) ->
  (mat_cholesky (corr_matrix k') = Ok None /\ v = - ndblmax) \/ ((exists L, mat_cholesky (corr_matrix k') = Ok (Some L)) /\ 0 <= v).
Proof.
  intros k k' h v H. destruct (validation_result _ _ _ _ H) as [[A B]|(A & B & C)].
  - left. split; auto. rewrite B. change (0 - @ndblmax R RNum = - @ndblmax R RNum). ring.
  - right. split; auto. apply (validationError_nonneg k'); auto.
Qed.
Print Assumptions C67_validation_objective.
(** so a candidate whose factorisation fails beats every candidate whose factorisation succeeds *)
Theorem C67_failing_candidate_preferred : forall (k k1 k2 : krig R) h1 h2 v1 v2, train_evaluate true h1 k = (k1, Ok v1) -> train_evaluate true h2 k = (k2, Ok v2) ->
  mat_cholesky (corr_matrix k1) = Ok None -> (exists L, mat_cholesky (corr_matrix k2) = Ok (Some L)) -> v1 < v2.
Proof.
  intros k k1 k2 h1 h2 v1 v2 H1 H2 F1 [L F2]. pose proof dblmax_pos. destruct (C67_validation_objective _ _ _ _ H1) as [[_ ->]|[[L1 E] _]]; [|congruence].
  destruct (C67_validation_objective _ _ _ _ H2) as [[E _]|[_ HP]]; [congruence|]. lra.
Qed.
Print Assumptions C67_failing_candidate_preferred.
(** the likelihood objective gives the largest double to a failing candidate *)
Theorem C67_likelihood_objective : forall (k k' : krig R) h v, train_evaluate false h k = (k', Ok v) -> mat_cholesky (corr_matrix k') = Ok None -> v = ndblmax.
Proof.
  intros k k' h v H HN. unfold train_evaluate in H. apply sbind_inv in H. destruct H as (k1 & l & H1 & H). unfold sret in H. injection H as -> <-.
  rewrite (likelihood_result _ _ _ _ H1 HN). change (- (1) * (0 - @ndblmax R RNum) = @ndblmax R RNum). ring.
Qed.
Print Assumptions C67_likelihood_objective.
(** with a positive epsilon and exact arithmetic no candidate inside the search box fails *)
Theorem C67_candidates_factorise : forall lin d b eps ratio file perm hs th0 ga0 k th ga val k' v, setup lin d b eps file hs th0 ga0 -> 0 < eps -> 0 < ratio < 1 -> Permutation perm (seq 0 (nrows file)) ->
  krig_session lin d b eps ratio file perm hs krig_new = (k, Ok tt) -> trained_range d th ga ->
  train_evaluate val (th ++ ga) k = (k', Ok v) -> exists L, mat_cholesky (corr_matrix k') = Ok (Some L).
Proof.
  intros lin d b eps ratio file perm hs th0 ga0 k th ga val k' v S He Hr Hp E HT HE.
  destruct (session_split_full lin d b eps ratio file perm hs th0 ga0 S Hr Hp) as (k0 & c & ys & q & E0 & _ & _ & F & _). rewrite E in E0. injection E0 as <-.
  pose proof HT as (L1 & L2 & _). destruct (candidate _ _ _ _ _ _ _ _ _ _ _ th ga F L1 L2) as (k2 & U & F2 & _).
  assert (exists L, mat_cholesky (corr_matrix k2) = Ok (Some L)) as (L & HL).
  { destruct (update_factor _ _ U) as [[D _]|[_ ?]]; auto. exfalso. assert (cs_done (k_sys k2) = true); [|congruence]. apply (v_done _ _ _ _ _ _ _ (ft_solved _ _ _ _ _ _ _ _ _ _ _ F2 (range_kparams _ _ _ HT) (kregular_eps _ _ _ _ _ (range_kparams _ _ _ HT) He))). }
  exists L. rewrite <- HL. f_equal. pose proof (setHyper_step _ _ _ _ _ _ _ _ _ _ _ (th ++ ga) F ltac:(rewrite app_length; lia)) as SH.
  rewrite firstn_app, L1, Nat.sub_diag, firstn_O, app_nil_r, firstn_all2, skipn_app, L1, Nat.sub_diag, skipn_all2 in SH by lia. cbn [app skipn] in SH.
  destruct val; unfold train_evaluate, krig_validationErrorFor, krig_likelihood in HE.
  - sstep HE. injection H as <- <-. do 4 (sstep HE; apply throw_if_inv in H; destruct H as [_ ->]). sstep HE. rewrite SH in H. injection H as <- <-. sstep HE. rewrite U in H. injection H as <- <-.
    sstep HE. injection H as <- <-. destruct (negb _). injection HE as <- _; auto. unfold slift in HE. injection HE as <- _; auto.
  - sstep HE. injection HE as <- _. sstep H. injection H0 as <- <-. do 3 (sstep H; apply throw_if_inv in H0; destruct H0 as [_ ->]). sstep H. rewrite SH in H0. injection H0 as <- <-. sstep H. rewrite U in H0. injection H0 as <- <-.
    sstep H. injection H0 as <- <-. destruct (negb _). injection H as <- _; auto. sstep H. unfold slift in H0. injection H0 as <- _. injection H as <- _; auto.
Qed.
Print Assumptions C67_candidates_factorise.

(** ** C75 *)
(** the starting point of a training: a user session with or without validation samples *)
Definition ready (lin : bool) (d : nat) (b : bnds R) (eps : R) (file : mat R) (hs : list (list R)) (th ga : list R) (iters threads : nat) (hv : bool) (t : trainer R) : Prop :=
  setup lin d b eps file hs th ga /\ 0 < eps /\ exists ratio perm k, (if hv then 0 < ratio < 1 /\ Permutation perm (seq 0 (nrows file)) else ratio = 0) /\
    krig_session lin d b eps ratio file perm hs krig_new = (k, Ok tt) /\ t = mkTr k iters threads false hv None.
Lemma ready_fitted lin d b eps file hs th ga iters threads hv t : ready lin d b eps file hs th ga iters threads hv t ->
  exists tr c ys, fitted (t_k t) d b lin eps tr file c th ga ys /\ (hv = false -> tr = rows file) /\ (hv = true -> full_able (k_data (t_k t)) d b file) /\
   t_iters t = iters /\ t_threads t = threads /\ t_val t = false /\ t_hasval t = hv /\ t_warm t = None.
Proof.
  intros (S & He & ratio & perm & k & H & E & ->). destruct hv.
  - destruct H as [Hr Hp]. destruct (session_split_full _ _ _ _ _ _ _ _ _ _ S Hr Hp) as (k0 & c & ys & q & E0 & _ & _ & F & FA & _). rewrite E in E0. injection E0 as <-. exists (unpicked (firstn q perm) (rows file)), c, ys. cbn. split; auto. split; [try discriminate; auto|]. split; [try discriminate; auto|]. auto 10.
  - subst ratio. destruct (session_ok _ _ _ _ _ perm _ _ _ S) as (k0 & c & ys & E0 & F & _). rewrite E in E0. injection E0 as <-. exists (rows file), c, ys. cbn. split; auto. split; [try discriminate; auto|]. split; [try discriminate; auto|]. auto 10.
Qed.
(** a completed training leaves a model of all rows of the file, also when validation samples had been split off; its
    hyper-parameters are in the search box, and no thread found a better value *)
Theorem C75_trained_model : forall lin d b eps file hs th0 ga0 iters threads hv us ws order t t', ready lin d b eps file hs th0 ga0 iters threads hv t -> (forall j k i, 0 <= us j k i < 1) ->
  krig_train us ws order t = (t', Ok (Some tt)) ->
  exists th ga v, trained_range d th ga /\ krig_getHyper (t_k t') = Ok (th ++ ga) /\ (exists c w, describes (t_k t') lin d b eps file th ga c w) /\
    train_objective hv (t_k t) (th ++ ga) = Ok v /\ v < ndblmax /\
    exists cf vals, c_f cf = train_objective hv (t_k t) /\ Forall2 (fun j i => train_thread cf (us j) (ws j) = Ok (Some i)) order vals /\ forall i, In i vals -> v <= i_obj i.
Proof.
  intros lin d b eps file hs th0 ga0 iters threads hv us ws order t t' HR Hu H. destruct (ready_fitted _ _ _ _ _ _ _ _ _ _ _ _ HR) as (tr & c & ys & F & F0 & FA & _ & _ & Hv & Hh & W). destruct HR as (S & He & _). destruct S.
  destruct (train_fitted t t' us ws order d b lin eps tr file c th0 ga0 ys Hu W F Hv) as (best & v & th & ga & ys' & -> & HT & HO & Hlt & F' & _ & _ & _ & _ & _ & _ & cf & vals & C1 & C2 & C3); auto. { intros Hy. rewrite Hh in Hy. auto 6. }
  assert ((if t_hasval t then rows file else tr) = rows file) as E by (rewrite Hh; destruct hv; auto). rewrite E in F'. rewrite Hh in HO. exists th, ga, v. split; auto. split.
  { apply (fitted_hyper _ _ _ _ _ _ _ _ _ _ _ F'). }
  split. { exists c, (vget (k_Rysb (t_k t'))). apply (fitted_describes _ _ _ _ _ _ _ _ _ ys'); auto. apply range_kparams; auto. apply kregular_eps; auto. apply range_kparams; auto. }
  split; auto. split; auto. exists cf, vals. split; auto. destruct (optimizer_conf _ _ _ _ C1) as (_ & _ & _ & _ & _ & _ & -> & _). rewrite Hh. destruct hv; cbn; auto. rewrite Hv. auto.
Qed.
Print Assumptions C75_trained_model.
(** the order in which the threads finish does not change the value that is reached *)
Theorem C75_thread_order : forall (c : econf R) us ws order order' best v, Permutation order order' -> train_threads c us ws order ([], ndblmax) = Ok (Some (best, v)) ->
  exists best', train_threads c us ws order' ([], ndblmax) = Ok (Some (best', v)).
Proof. exact threads_order. Qed.
Print Assumptions C75_thread_order.
(** every training divides the number of iterations by the number of threads, for good *)
Inductive trainings : nat -> trainer R -> trainer R -> Prop :=
| trainings_0 t : trainings 0 t t
| trainings_S n t t1 t2 us ws order : trainings n t t1 -> (forall j k i, 0 <= us j k i < 1) -> krig_train us ws order t1 = (t2, Ok (Some tt)) -> trainings (S n) t t2.
Lemma trainings_fitted lin d b eps file hs th0 ga0 iters threads n t t' : ready lin d b eps file hs th0 ga0 iters threads false t -> threads <> 0%nat -> trainings n t t' ->
  (exists c th ga ys, fitted (t_k t') d b lin eps (rows file) file c th ga ys) /\ t_iters t' = (iters / threads ^ n)%nat /\ t_threads t' = threads /\ t_val t' = false /\ t_hasval t' = false /\ t_warm t' = None.
Proof.
  intros HR Ht H. induction H.
  - destruct (ready_fitted _ _ _ _ _ _ _ _ _ _ _ _ HR) as (tr & c & ys & F & F0 & FA & I & T & Hv & Hh & W). rewrite (F0 eq_refl) in F. split. eauto. rewrite I. cbn [Nat.pow]. rewrite Nat.div_1_r. auto.
  - destruct (IHtrainings HR) as ((c & th & ga & ys & F) & I & T & Hv & Hh & W).
    destruct (train_fitted t1 t2 us ws order d b lin eps _ file c th ga ys H0 W F Hv) as (best & v & th' & ga' & ys' & _ & _ & _ & _ & F' & I' & T' & V' & H' & W' & _); auto. { intros Hy. congruence. }
    rewrite Hh in *. split. eauto 6. rewrite I', T', V', I, T, Nat.div_div. rewrite Nat.pow_succ_r', Nat.mul_comm. auto. apply Nat.pow_nonzero; auto. auto.
Qed.
Theorem C75_budget : forall lin d b eps file hs th0 ga0 iters threads n t t', ready lin d b eps file hs th0 ga0 iters threads false t -> threads <> 0%nat -> trainings n t t' -> t_iters t' = (iters / threads ^ n)%nat.
Proof. intros. destruct (trainings_fitted _ _ _ _ _ _ _ _ _ _ _ _ _ H H0 H1) as (_ & ? & _). auto. Qed.
Print Assumptions C75_budget.
(** until a training throws *)
Theorem C75_budget_exhausted : forall lin d b eps file hs th0 ga0 iters threads n t t' us ws order, ready lin d b eps file hs th0 ga0 iters threads false t -> threads <> 0%nat -> trainings n t t' ->
  (iters < threads ^ (S n))%nat -> snd (krig_train us ws order t') = Throw InvalidArgument.
Proof.
  intros lin d b eps file hs th0 ga0 iters threads n t t' us ws order HR Ht H HL. destruct (trainings_fitted _ _ _ _ _ _ _ _ _ _ _ _ _ HR Ht H) as ((c & th & ga & ys & F) & I & T & Hv & Hh & W).
  pose proof (ft_ready _ _ _ _ _ _ _ _ _ _ _ F) as []. apply exhausted. split; auto. split; auto. split. apply (ft_init _ _ _ _ _ _ _ _ _ _ _ F). split. lia. split; auto. congruence.
  rewrite I, T. apply Nat.div_lt_upper_bound. apply Nat.pow_nonzero; auto. rewrite Nat.mul_comm, <- Nat.pow_succ_r'. auto.
Qed.
Print Assumptions C75_budget_exhausted.
(** a model trained with validation samples cannot be trained a second time *)
Theorem C75_second_training_throws : forall lin d b eps file hs th0 ga0 iters threads us ws order us' ws' j order' t t', ready lin d b eps file hs th0 ga0 iters threads true t -> (forall j k i, 0 <= us j k i < 1) ->
  krig_train us ws order t = (t', Ok (Some tt)) -> threads <> 0%nat -> snd (krig_train us' ws' (j :: order') t') = Throw InvalidArgument.
Proof.
  intros lin d b eps file hs th0 ga0 iters threads us ws order us' ws' j order' t t' HR Hu H Ht. destruct (ready_fitted _ _ _ _ _ _ _ _ _ _ _ _ HR) as (tr & c & ys & F & F0 & FA & I & T & Hv & Hh & W). destruct HR as (S & He & _). destruct S.
  destruct (train_fitted t t' us ws order d b lin eps tr file c th0 ga0 ys Hu W F Hv) as (best & v & th & ga & ys' & -> & HT & HO & Hlt & F' & I' & T' & V' & H' & W' & NV & _); [intros _; auto 6|auto|].
  rewrite Hh in *. pose proof (ft_ready _ _ _ _ _ _ _ _ _ _ _ F') as []. apply no_validation; auto.
  - split; auto. split; auto. split. apply (ft_init _ _ _ _ _ _ _ _ _ _ _ F'). split. lia. split; auto. congruence.
  - lia.
Qed.
Print Assumptions C75_second_training_throws.
(** a warm start takes any numbers of the file, without looking at the search box, and does not go back to the full data: with
    validation samples the model describes the training rows only *)
Theorem C75_warm_start : forall lin d b eps ratio file perm hs th0 ga0 k iters threads us ws order th ga, setup lin d b eps file hs th0 ga0 -> 0 < ratio < 1 -> Permutation perm (seq 0 (nrows file)) ->
  krig_session lin d b eps ratio file perm hs krig_new = (k, Ok tt) -> length th = d -> length ga = d ->
  exists t' q, krig_train us ws order (mkTr k iters threads false true (Some (th ++ ga))) = (t', Ok (Some tt)) /\ krig_getHyper (t_k t') = Ok (th ++ ga) /\ t_iters t' = iters /\
    INR q <= ratio * INR (nrows file) < INR q + 1 /\ d_n (k_data (t_k t')) = (nrows file - q)%nat /\ rows (d_X (k_data (t_k t'))) = points b d (unpicked (firstn q perm) (rows file)).
Proof.
  intros lin d b eps ratio file perm hs th0 ga0 k iters threads us ws order th ga S Hr Hp E L1 L2.
  destruct (session_split_full lin d b eps ratio file perm hs th0 ga0 S Hr Hp) as (k0 & c & ys & q & E0 & Hq & Hqn & F & _). rewrite E in E0. injection E0 as <-.
  destruct (warm_start (mkTr k iters threads false true (Some (th ++ ga))) us ws order d b lin eps _ file c th0 ga0 ys th ga F) as (t' & ET & F' & I); auto. exists t', q. split; auto.
  pose proof (ft_ready _ _ _ _ _ _ _ _ _ _ _ F') as []. split. { apply (fitted_hyper _ _ _ _ _ _ _ _ _ _ _ F'). }
  split; auto. split; auto. split; [|apply (ft_X _ _ _ _ _ _ _ _ _ _ _ F')].
  rewrite (ft_dn _ _ _ _ _ _ _ _ _ _ _ F'), unpicked_length, rows_length.
  - rewrite firstn_length, (Permutation_length Hp), seq_length. lia.
  - apply NoDup_firstn. apply (Permutation_NoDup (Permutation_sym Hp)), seq_NoDup.
  - intros i Hi. rewrite rows_length. assert (In i perm) as Hi' by (rewrite <- (firstn_skipn q perm); apply in_or_app; auto). apply (Permutation_in _ Hp) in Hi'. apply in_seq in Hi'. lia.
Qed.
Print Assumptions C75_warm_start.

(** the hypotheses are met: two training samples and one validation sample *)
Example C67_example : exists k k1 k2 v1 v2, krig_session false 1 demo_box (1 / 10) (1 / 2) demo_file [2; 0; 1]%nat [] krig_new = (k, Ok tt) /\
  train_evaluate true [-1; 1] k = (k1, Ok v1) /\ train_evaluate true [10; 1] k = (k2, Ok v2) /\ mat_cholesky (corr_matrix k1) = Ok None /\ (exists L, mat_cholesky (corr_matrix k2) = Ok (Some L)) /\ v1 < v2.
Proof.
  destruct demo_session as (k & c & ys & E & F & FA & NV & XV & YV). exists k. destruct (failing_candidate k c _ _ ys _ _ F) as (k1 & _ & HC & _ & EV). specialize (EV ltac:(lia)).
  pose proof (demo_objective k c ys F NV XV YV 10 1 ltac:(lra) ltac:(lra)) as HO. unfold train_objective in HO. destruct (train_evaluate true [10; 1] k) as [k2 r] eqn:E2. cbn [snd] in HO. subst r.
  eexists k1, k2, _, _. split; auto. split. exact EV. split. reflexivity. split; auto.
  assert (exists L, mat_cholesky (corr_matrix k2) = Ok (Some L)) as HL.
  { apply (C67_candidates_factorise false 1 demo_box (1 / 10) (1 / 2) demo_file [2; 0; 1]%nat [] [1] [9 / 5] k [10] [1] true k2 _ demo_setup ltac:(lra) ltac:(lra) demo_permutation E) in E2; auto.
    split; auto. split; auto. intros [|j] Hj; cbn; try lia. lra. }
  split; auto. apply (C67_failing_candidate_preferred k k1 k2 _ _ _ _ EV E2 HC HL).
Qed.
Example C67_likelihood_example : exists k k' v, krig_session false 1 demo_box (1 / 10) 0 like_file [] [] krig_new = (k, Ok tt) /\ train_evaluate false [-1; 1] k = (k', Ok v) /\ mat_cholesky (corr_matrix k') = Ok None.
Proof.
  destruct (session_ok _ _ _ _ _ [] _ _ _ like_setup) as (k & c & ys & E & F & _). exists k. destruct (failing_candidate k c _ _ ys _ _ F) as (k1 & U & HC & DN & _). pose proof (ft_ready _ _ _ _ _ _ _ _ _ _ _ F) as [].
  exists k1. eexists. split; auto. split; auto. unfold train_evaluate, krig_likelihood. unfold sbind at 1. unfold sbind at 1, sget at 1. rewrite q_read, q_norm, q_n. cbn [negb]. change (Nat.eqb (length (upts demo_box 1 (rows like_file))) 0) with false. unfold sthrow_if at 1 2 3. do 3 (unfold sbind at 1, sret at 1).
  rewrite (sbind_ok _ _ _ _ _ (setHyper_step _ _ _ _ _ _ _ _ _ _ _ [-1; 1] F eq_refl)). cbn [firstn skipn]. rewrite (sbind_ok _ _ _ _ _ U). unfold sbind at 1, sget at 1. unfold chol_isDone. rewrite DN. reflexivity.
Qed.
(** a training with validation samples that completes *)
Example C75_example : exists t us ws order t', ready false 1 demo_box (1 / 10) demo_file [] [1] [9 / 5] 1 1 true t /\ (forall j k i, 0 <= us j k i < 1) /\ krig_train us ws order t = (t', Ok (Some tt)).
Proof.
  destruct training_completes as (k & t' & E & H). exists (mkTr k 1 1 false true None), (fun _ => live_us demo_u0 demo_u1), (fun _ _ => live_gen demo_u1), [0%nat], t'. split; [|split; auto].
  - split. apply demo_setup. split. lra. exists (1 / 2), [2; 0; 1]%nat, k. split; auto. split. lra. apply demo_permutation.
  - intros j [|n] i; cbn; unfold demo_u0, demo_u1; lra.
Qed.
(** without validation samples: four iterations and two threads allow two trainings, the third throws *)
Example C75_budget_example : exists t t' us ws order, ready false 1 demo_box (1 / 10) like_file [] [1] [9 / 5] 4 2 false t /\ trainings 2 t t' /\ t_iters t' = 1%nat /\ snd (krig_train us ws order t') = Throw InvalidArgument.
Proof.
  destruct (session_ok _ _ _ _ _ [] _ _ _ like_setup) as (k & c & ys & E & F & _). pose (t := mkTr k 4 2 false false None).
  assert (ready false 1 demo_box (1 / 10) like_file [] [1] [9 / 5] 4 2 false t) as HR. { split. apply like_setup. split. lra. exists 0, [], k. auto. }
  assert (forall j k i, 0 <= (fun _ : nat => live_us demo_u1 demo_u0) j k i < 1) as HU. { intros j [|n] i; cbn; unfold demo_u0, demo_u1; lra. }
  destruct (like_trains k 4 c _ _ ys F ltac:(cbn; lia)) as (t1 & E1 & k1 & th1 & ga1 & ys1 & T1 & F1). rewrite T1 in E1.
  destruct (like_trains k1 2 c _ _ ys1 F1 ltac:(cbn; lia)) as (t2 & E2 & k2 & th2 & ga2 & ys2 & T2 & F2).
  assert (trainings 2 t t2) as H. { eapply trainings_S; [eapply trainings_S; [apply trainings_0|exact HU|exact E1]|exact HU|exact E2]. }
  exists t, t2, (fun _ => live_us demo_u1 demo_u0), (fun _ _ => live_gen demo_u0), [0; 1]%nat. split; auto. split; auto. split. rewrite T2. reflexivity.
  apply (C75_budget_exhausted _ _ _ _ _ _ _ _ _ _ _ _ _ _ _ _ HR ltac:(discriminate) H). cbn. lia.
Qed.

(** ** C91 *)
(** without validation samples the training minimises n/2 ln(s2) + 1/2 ln(det R), the negative concentrated log-likelihood; s2 is the
    process variance of the kriging equations for the same hyper-parameters and R the regularised correlation matrix *)
Theorem C91_likelihood_objective : forall lin d b eps file perm hs th0 ga0 k, setup lin d b eps file hs th0 ga0 -> 0 < eps -> krig_session lin d b eps 0 file perm hs krig_new = (k, Ok tt) ->
  let n := nrows file in let pts := points b d (rows file) in let y := output d (rows file) in
  exists c, (lin = true -> ridge d pts y (1 / 10 ^ 8) c) /\ forall th ga, kparams d th ga ->
    let Rm := kmat d th ga eps pts in let resid i := y i - trend lin d c (nth i pts []) in
    0 < det n Rm /\ (exists beta w s2, kriging d th ga eps pts resid beta w s2) /\
    forall beta w s2, kriging d th ga eps pts resid beta w s2 ->
      train_objective false k (th ++ ga) = Ok (if Rlt_dec 0 s2 then INR n / 2 * ln s2 + 1 / 2 * ln (det n Rm) else ndblmax).
Proof.
  intros lin d b eps file perm hs th0 ga0 k S He E n pts y. destruct (session_ok _ _ _ _ _ perm _ _ _ S) as (k0 & c & ys & E0 & F & _). rewrite E in E0. injection E0 as <-. exists c. split.
  { intros Hl. apply normal_ridge. lra. apply (fitted_normal _ _ _ _ _ _ _ _ _ _ _ F Hl). }
  intros th ga HP Rm resid. destruct (objective_likelihood _ _ _ _ _ _ _ _ _ _ _ th ga F HP He) as (D & be & w & s2 & K & EV). rewrite rows_length in D, EV. split; auto. split. eauto.
  intros be' w' s2' K'. destruct (kriging_unique d th ga eps pts (kregular_eps _ _ _ _ _ HP He) _ _ _ _ _ _ _ ltac:(unfold pts; rewrite points_length, rows_length; apply (su_n _ _ _ _ _ _ _ _ S)) K K') as (_ & _ & ->). exact EV.
Qed.
Print Assumptions C91_likelihood_objective.
(** with validation samples it minimises the mean absolute error of the predictor fitted to the other rows.  The linear trend, when
    it is on, has been fitted to all rows of the file, the validation samples included *)
Theorem C91_validation_objective : forall lin d b eps ratio file perm hs th0 ga0 k, setup lin d b eps file hs th0 ga0 -> 0 < eps -> 0 < ratio < 1 -> Permutation perm (seq 0 (nrows file)) ->
  krig_session lin d b eps ratio file perm hs krig_new = (k, Ok tt) ->
  exists q c, INR q <= ratio * INR (nrows file) < INR q + 1 /\ (lin = true -> ridge d (points b d (rows file)) (output d (rows file)) (1 / 10 ^ 8) c) /\
    let tr := unpicked (firstn q perm) (rows file) in let va := picked (firstn q perm) (rows file) in
    let pts := points b d tr in let xv := points b d va in
    forall th ga, kparams d th ga -> (q = 0%nat -> train_objective true k (th ++ ga) = Throw InvalidArgument) /\
    forall beta w s2, kriging d th ga eps pts (fun i => output d tr i - trend lin d c (nth i pts [])) beta w s2 -> (0 < q)%nat ->
      train_objective true k (th ++ ga) = Ok (rsum q (fun i => Rabs (trend lin d c (nth i xv []) + kpredict d th ga pts beta w (nth i xv []) - output d va i)) / INR q).
Proof.
  intros lin d b eps ratio file perm hs th0 ga0 k S He Hr Hp E.
  destruct (session_split_full lin d b eps ratio file perm hs th0 ga0 S Hr Hp) as (k0 & c & ys & q & E0 & Hq & Hqn & F & _ & NV & HV). rewrite E in E0. injection E0 as <-. exists q, c. split; auto. split.
  { intros Hl. apply normal_ridge. lra. apply (fitted_normal _ _ _ _ _ _ _ _ _ _ _ F Hl). }
  cbv zeta. set (tr := unpicked (firstn q perm) (rows file)) in *. set (va := picked (firstn q perm) (rows file)) in *. intros th ga HP. split.
  - intros ->. pose proof (ft_ready _ _ _ _ _ _ _ _ _ _ _ F) as []. unfold train_objective, train_evaluate, krig_validationErrorFor. unfold sbind at 1, sget at 1. rewrite q_read, q_norm, q_n, NV. cbn [negb].
    destruct (Nat.eqb_spec (length (upts b d tr)) 0); [lia|]. reflexivity.
  - intros be w s2 K H0. pose proof HP as (L1 & L2 & _). destruct (candidate _ _ _ _ _ _ _ _ _ _ _ th ga F L1 L2) as (k' & U & F' & D' & _ & _ & EV). unfold train_objective. rewrite EV by lia. cbn [snd].
    pose proof (kregular_eps d th ga eps (points b d tr) HP He) as HR. rewrite (v_done _ _ _ _ _ _ _ (ft_solved _ _ _ _ _ _ _ _ _ _ _ F' HP HR)).
    pose proof (fitted_kriging _ _ _ _ _ _ _ _ _ _ _ F' HP HR) as K'. pose proof (ft_ready _ _ _ _ _ _ _ _ _ _ _ F') as [].
    assert (0 < length (points b d tr))%nat as Hl. { exact q_n0. }
    destruct (kriging_unique _ _ _ _ _ HR _ _ _ _ _ _ _ Hl K' K) as (-> & W & _). destruct (HV H0) as (XV & YV).
    assert (length va = q) as Lv. { unfold va, picked. rewrite map_length, firstn_length, (Permutation_length Hp), seq_length. lia. }
    rewrite (validation_sum k' (fun i => trend lin d c (nth i (points b d va) []) + kpredict d th ga (points b d tr) (k_beta0 k') w (nth i (points b d va) [])) q); rewrite ?D'; auto.
    + rewrite YV. reflexivity.
    + rewrite XV. intros C. apply (f_equal (@length _)) in C. rewrite points_length in C. cbn in C. lia.
    + rewrite XV, points_length. auto.
    + rewrite YV. unfold outputs. rewrite map_length. auto.
    + intros i Hi. rewrite XV. assert (length (nth i (points b d va) []) = d) as Lx. { unfold points. rewrite (nth_indep _ [] (unit_row b d [])) by (rewrite map_length; unfold inputs; rewrite map_length; lia). rewrite map_nth. unfold unit_row. rewrite map_length, seq_length. auto. }
      rewrite (fitted_predict _ _ _ _ _ _ _ _ _ _ _ _ F' HP HR Lx). f_equal. unfold trend. f_equal. unfold kpredict. f_equal. apply rsum_ext. intros j Hj. f_equal. symmetry. apply W; auto.
Qed.
Print Assumptions C91_validation_objective.
(** the hypotheses are met, with a value that is not 0 *)
Example C91_example : exists k, krig_session false 1 demo_box (1 / 10) (1 / 2) demo_file [2; 0; 1]%nat [] krig_new = (k, Ok tt) /\ exists v, train_objective true k [10; 1] = Ok v /\ 1 / 10 <= v.
Proof.
  destruct demo_session as (k & c & ys & E & F & FA & NV & XV & YV). exists k. split; auto. eexists. split. apply (demo_objective k c ys F NV XV YV); lra.
  change (- (10)) with (-10). pose proof exp_10 as HE. replace (exp (Ropp (IZR 10))) with (exp (-10)) by reflexivity. set (r := exp (-10)) in *. assert (1 / 2 * (1 - r) / (1 + 1 / 10 - r) * (1 + 1 / 10 - r) = 1 / 2 * (1 - r)) as HQ by (field; lra). nra.
Qed.
Example C91_likelihood_example : exists k, krig_session false 1 demo_box (1 / 10) 0 like_file [] [] krig_new = (k, Ok tt) /\ train_objective false k [10; 1] = Ok 0 /\ exists v, train_objective false k [0; 1] = Ok v /\ 1 / 10 <= v.
Proof.
  destruct (session_ok _ _ _ _ _ [] _ _ _ like_setup) as (k & c & ys & E & F & _). exists k. split; auto. change (rows like_file) with [[0; 0]; [1; like_y]] in F. pose proof like_values as [V1 V2]. split.
  - rewrite (like_objective k c _ _ ys F) by lra. f_equal. exact V1.
  - eexists. split. apply (like_objective k c _ _ ys F); lra. apply V2.
Qed.
