(** C102: the test of a surrogate model. *)
From Coq Require Import Ascii String ZArith Bool Arith Permutation Reals Lra Psatz List Lia.
From Verif Require Import Base StM Num RealNum RSpec VecModel MatModel MatLemmas MatSpec VecProofs VecReal MatProofs MatProofs2 LuProofs StrModel StrSpec StrReal ExtModel ExtProofs BoundsModel CorrModel CorrSpec DataModel DataSpec DataProofs DataReal
  KrigModel KrigSpec KrigMath KrigProofs KrigProofs2 KrigProofs3 KrigProg KrigProofs4 KrigProofs5 PropsData PropsStat PropsLin PropsKrig EaModel TrainModel TrainProofs TrainReal TrainDemo
  CsvModel CsvSpec CsvProofs PropsCsv RunFileModel RunFileSpec RunFileText TesterModel TesterSpec TesterFrame TesterProofs TesterProofs2 TesterProofs3 TesterProofs4 TesterProofs5 TesterProofs6 TesterProofs7 TesterDemo TesterDemo2.
Import ListNotations.
Local Open Scope R_scope.

(** what a test needs: the settings of the program (TesterProofs4.test_program) and the two data files *)
Definition test_set_up (nm : str) (d : nat) (b : bnds R) (ftr fte : str) (ratio : option R) (tf : bool) (fs : files) (rs rt : list (list R)) (perm : list nat) : Prop :=
  nm <> [] /\ (0 < d)%nat /\ box_ok ztol d b /\ data_file_name ftr /\ data_file_name fte /\ csv_rows fs ftr (S d) rs /\ csv_rows fs fte (if tf then S d else d) rt /\
  (forall v, ratio = Some v -> 0 < v < 1) /\ (ratio <> None -> Permutation perm (seq 0 (length rs))).

Section Props.
  Context (writable : str -> bool) (fixed : nat -> R -> str) (F : forall p x, fixed_text_of p x (fixed p x)) (W : writable results_file = true).
  Lemma kriging_from (lin : bool) nm d b ftr fte ratio n (var tf : bool) fs rs rt perm us ws ty multi : test_set_up nm d b ftr fte ratio tf fs rs rt perm -> (lin = true -> (d < 100)%nat) -> (forall j k i, 0 <= us j k i < 1) ->
    exists w' r, tester_perform writable fixed perm us ws (mkTt (mkTC d nm b n ftr fte false var) ty true PKriging multi
      (mkTS lmodel_new tested_new (mkTr (kset_ratio ratio (if lin then kset_uselin true krig_new else krig_new)) (100 * 100) 1 false (has_ratio ratio) None) tested_new), fs) = (w', r) /\
      ((exists p tx, trained_kriging d b lin rs p /\ r = Ok (Some (mean_squared_error d b (fun x => fst (p x)) rs)) /\
         (tf = true -> g_error (v_krigtest (q_state (fst w'))) = mean_squared_error d b (fun x => fst (p x)) rt) /\
         snd w' results_file = Some tx /\ result_text d tf var b p rt tx /\ forall f, f <> results_file -> snd w' f = fs f) \/
       ((forall e, r <> Ok (Some e)) /\ snd w' = fs)).
  Proof.
    intros (Hn & Hd & B & N1 & N2 & R1 & R2 & Hr & Hp) Hl Hu. destruct (csv_read _ _ _ _ R1 ltac:(lia)) as (file & C1 & E1 & T1 & W1 & L1).
    destruct (csv_read _ _ _ _ R2 ltac:(destruct tf; lia)) as (tfile & C2 & E2 & T2 & W2 & L2).
    assert (length rs = nrows file) as LR by (rewrite <- E1; apply rows_length). rewrite LR in Hp.
    rewrite perform_kriging; auto; try (destruct B; assumption).
    destruct (kriging_test_run writable fixed F W lin d b ratio file tfile (mkTC d nm b n ftr fte false var) perm us ws fs) as (st' & fs' & r & -> & Q); auto. { destruct tf; auto. }
    assert (Nat.eqb (ncols tfile) (S d) = tf) as Q1. { rewrite W2. destruct tf. apply Nat.eqb_refl. apply Nat.eqb_neq. lia. } rewrite Q1, E1, E2 in Q.
    eexists _, r. split; [reflexivity|]. cbn [fst snd q_state]. destruct Q as [(p & tx & P1 & P2 & P3 & _ & P4 & P5 & P6)|Q]; [left; exists p, tx; auto 10|right; auto].
  Qed.
  (** A test of a Kriging model that completes tests the model of all rows of the training file, reports the error of that model on the
      training file and on the test file, and writes one line for each row of the test file; no other file changes.  A test that does not
      complete writes nothing.  (The error on the test data is logged; [g_error] is what is logged.) *)
  Theorem C102_kriging_test : forall (lin : bool) nm d b ftr fte ratio n (var tf : bool) fs rs rt perm us ws, test_set_up nm d b ftr fte ratio tf fs rs rt perm -> (lin = true -> (d < 100)%nat) -> (forall j k i, 0 <= us j k i < 1) ->
    exists w' r, tester_perform writable fixed perm us ws (tcalls_run writable fixed (test_program nm d b ftr fte (if lin then UniversalKriging else OrdinaryKriging) ratio n var) (tester_new, fs)) = (w', r) /\
      ((exists p tx, trained_kriging d b lin rs p /\ r = Ok (Some (mean_squared_error d b (fun x => fst (p x)) rs)) /\
         (tf = true -> g_error (v_krigtest (q_state (fst w'))) = mean_squared_error d b (fun x => fst (p x)) rt) /\
         snd w' results_file = Some tx /\ result_text d tf var b p rt tx /\ forall f, f <> results_file -> snd w' f = fs f) \/
       ((forall e, r <> Ok (Some e)) /\ snd w' = fs)).
  Proof.
    intros lin nm d b ftr fte ratio n var tf fs rs rt perm us ws S0 Hl Hu. pose proof S0 as (Hn & Hd & B & N1 & N2 & _ & _ & Hr & _).
    change (if lin then UniversalKriging else OrdinaryKriging) with (kriging_type lin). rewrite program_kriging; auto; [|destruct B; assumption|intros v E; specialize (Hr v E); lra].
    apply kriging_from; auto.
  Qed.
  (** Universal Kriging cannot be left: a tester bound to it and then bound to ordinary Kriging tests the universal model. *)
  Theorem C102_ordinary_after_universal_refuted : forall nm d b ftr fte ratio n (var tf : bool) fs rs rt perm us ws, test_set_up nm d b ftr fte ratio tf fs rs rt perm -> (d < 100)%nat -> (forall j k i, 0 <= us j k i < 1) ->
    exists w' r, tester_perform writable fixed perm us ws (tcalls_run writable fixed (test_program nm d b ftr fte UniversalKriging ratio n var ++ [CModel OrdinaryKriging; CBind]) (tester_new, fs)) = (w', r) /\
      ((exists p tx, trained_kriging d b true rs p /\ r = Ok (Some (mean_squared_error d b (fun x => fst (p x)) rs)) /\ snd w' results_file = Some tx /\ result_text d tf var b p rt tx /\ forall f, f <> results_file -> snd w' f = fs f) \/
       ((forall e, r <> Ok (Some e)) /\ snd w' = fs)).
  Proof.
    intros nm d b ftr fte ratio n var tf fs rs rt perm us ws S0 Hl Hu. pose proof S0 as (Hn & Hd & B & N1 & N2 & _ & _ & Hr & _).
    unfold tcalls_run. rewrite fold_left_app. fold (tcalls_run writable fixed (test_program nm d b ftr fte UniversalKriging ratio n var) (tester_new, fs)).
    change UniversalKriging with (kriging_type true). rewrite program_kriging; auto; [|destruct B; assumption|intros v E; specialize (Hr v E); lra].
    match goal with |- context[fold_left _ _ (mkTt ?h _ _ _ _ ?s, _)] => change (fold_left _ _ _) with (mkTt h (Some OrdinaryKriging) true PKriging false s, fs) end.
    destruct (kriging_from true nm d b ftr fte ratio n var tf fs rs rt perm us ws (Some OrdinaryKriging) false S0 (fun _ => Hl) Hu) as (w' & r & E & Q).
    exists w', r. split; [exact E|]. destruct Q as [(p & tx & P1 & P2 & _ & P)|Q]; [left; exists p, tx; auto|right; auto].
  Qed.

  (** A test of a linear model always completes, unless variances are asked for: then it is refused with nothing written.  With a validation
      set the model is the one of the remaining rows, and the training error compares these with other rows of the file. *)
  Theorem C102_linear_split : forall nm d b ftr fte ratio n (var tf : bool) fs rs rt perm us ws, test_set_up nm d b ftr fte ratio tf fs rs rt perm -> (d < 100)%nat ->
    exists w' r tr, tester_perform writable fixed perm us ws (tcalls_run writable fixed (test_program nm d b ftr fte LinearRegression ratio n var) (tester_new, fs)) = (w', r) /\ training_rows ratio perm rs tr /\
      if var then r = Throw LogicError /\ snd w' = fs
      else exists p tx, fitted_linear d b tr p /\ r = Ok (Some (reported_error d b p tr rs)) /\ (tf = true -> g_error (v_lintest (q_state (fst w'))) = mean_squared_error d b p rt) /\
             snd w' results_file = Some tx /\ result_text d tf false b (fun x => (p x, 0)) rt tx /\ forall f, f <> results_file -> snd w' f = fs f.
  Proof.
    intros nm d b ftr fte ratio n var tf fs rs rt perm us ws (Hn & Hd & B & N1 & N2 & R1 & R2 & Hr & Hp) Hl. destruct (csv_read _ _ _ _ R1 ltac:(lia)) as (file & C1 & E1 & T1 & W1 & L1).
    destruct (csv_read _ _ _ _ R2 ltac:(destruct tf; lia)) as (tfile & C2 & E2 & T2 & W2 & L2).
    assert (length rs = nrows file) as LR by (rewrite <- E1; apply rows_length). rewrite LR in Hp.
    rewrite program_linear; auto; [|destruct B; assumption|intros v E; specialize (Hr v E); lra]. rewrite perform_linear; auto; try (destruct B; assumption).
    destruct (linear_test_run writable fixed F W d b ratio file tfile (mkTC d nm b n ftr fte false var) perm fs trainer_new tested_new) as (st' & fs' & r & tr & -> & Tr & Q); auto. { destruct tf; auto. }
    assert (Nat.eqb (ncols tfile) (S d) = tf) as Q1. { rewrite W2. destruct tf. apply Nat.eqb_refl. apply Nat.eqb_neq. lia. } rewrite Q1, E1, E2 in Q. rewrite E1 in Tr.
    eexists _, r, tr. split; [reflexivity|]. split; auto. cbn [h_var] in Q. destruct var; auto. destruct Q as (p & tx & P1 & P2 & P3 & _ & P4 & P5 & P6). exists p, tx. auto 10.
  Qed.
  Theorem C102_linear_test : forall nm d b ftr fte n (tf : bool) fs rs rt perm us ws, test_set_up nm d b ftr fte None tf fs rs rt perm -> (d < 100)%nat ->
    exists w' p tx, tester_perform writable fixed perm us ws (tcalls_run writable fixed (test_program nm d b ftr fte LinearRegression None n false) (tester_new, fs)) = (w', Ok (Some (mean_squared_error d b p rs))) /\
      fitted_linear d b rs p /\ (tf = true -> g_error (v_lintest (q_state (fst w'))) = mean_squared_error d b p rt) /\
      snd w' results_file = Some tx /\ result_text d tf false b (fun x => (p x, 0)) rt tx /\ forall f, f <> results_file -> snd w' f = fs f.
  Proof.
    intros nm d b ftr fte n tf fs rs rt perm us ws H Hl. destruct (C102_linear_split _ _ _ _ _ None n false tf fs rs rt perm us ws H Hl) as (w' & r & tr & E & T & p & tx & P1 & P2 & P). cbn in T. subst tr.
    exists w', p, tx. rewrite E, P2. auto.
  Qed.

  (** After a test that has completed no later test by the same tester completes, whatever is set in between (for testers that use Kriging
      models only, or the linear model only): the results file is as it was or has become empty. *)
  Theorem C102_second_test_refuted : forall (lin : bool) l0 l perm us ws perm' us' ws' fs w e w' r, Forall (kinds lin) (l0 ++ l) ->
    tester_perform writable fixed perm us ws (tcalls_run writable fixed l0 (tester_new, fs)) = (w, Ok (Some e)) ->
    tester_perform writable fixed perm' us' ws' (tcalls_run writable fixed l w) = (w', r) ->
    (forall e', r <> Ok (Some e')) /\ (forall f, f <> results_file -> snd w' f = snd (tcalls_run writable fixed l w) f) /\
    (snd w' results_file = snd (tcalls_run writable fixed l w) results_file \/ snd w' results_file = Some []).
  Proof.
    intros lin l0 l perm us ws perm' us' ws' fs w e w' r K H1 H2. apply Forall_app in K. destruct K as (K0 & K).
    destruct (calls_step writable fixed lin l0 _ K0 (bound_new lin fs)) as (B0 & _). destruct (perform_done writable fixed lin _ _ _ _ _ _ B0 H1) as (B1 & M1).
    destruct (calls_step writable fixed lin l w K B1) as (B2 & M2). exact (perform_never writable fixed W lin _ _ _ _ _ _ B2 (M2 M1) H2).
  Qed.

  (** *** what is accepted and refused *)
  Theorem C102_file_names : forall f w, (data_file_name f ->
      tcall_run writable fixed (CTraining f) w = ((with_conf (fun h => mkTC (h_dim h) (h_name h) (h_box h) (h_iters h) f (h_test h) (h_warm h) (h_var h)) (fst w), snd w), Ok None) /\
      tcall_run writable fixed (CTest f) w = ((with_conf (fun h => mkTC (h_dim h) (h_name h) (h_box h) (h_iters h) (h_train h) f (h_warm h) (h_var h)) (fst w), snd w), Ok None)) /\
    (~ data_file_name f -> tcall_run writable fixed (CTraining f) w = (w, Throw InvalidArgument) /\ tcall_run writable fixed (CTest f) w = (w, Throw InvalidArgument)).
  Proof.
    intros f [q fs]. split; intros H.
    - apply filename_iff in H. unfold tcall_run, tester_setTraining, tester_setTest, on_tester, szoom, sbind, slift. rewrite H. split; reflexivity.
    - apply filename_throws in H. unfold tcall_run, tester_setTraining, tester_setTest, on_tester, szoom, sbind, slift. rewrite H. split; reflexivity.
  Qed.
  Theorem C102_refused : forall q fs perm us ws, let h := q_conf q in
    (b_set (h_box h) = false -> tester_perform writable fixed perm us ws (q, fs) = ((q, fs), Throw RuntimeError)) /\
    (b_set (h_box h) = true -> q_bound q = false \/ h_name h = [] \/ h_dim h = 0%nat -> tester_perform writable fixed perm us ws (q, fs) = ((q, fs), Throw AssertFail)) /\
    (b_set (h_box h) = true -> q_bound q = true -> h_name h <> [] -> (0 < h_dim h)%nat -> ~ data_file_name (h_train h) \/ ~ data_file_name (h_test h) ->
      tester_perform writable fixed perm us ws (q, fs) = ((q, fs), Throw InvalidArgument)).
  Proof.
    intros q fs perm us ws h. unfold tester_perform, sbind, sget, sthrow_if, sassert, sret, slift. cbn [fst]. fold h. split; [|split].
    - intros ->. reflexivity.
    - intros ->. intros [H|[H|H]]; rewrite H; cbn [negb is_empty Nat.ltb Nat.leb]; destruct (q_bound q); try reflexivity; destruct (is_empty (h_name h)); reflexivity.
    - intros Hb Hq Hn Hd H. rewrite Hb, Hq. assert (is_empty (h_name h) = false) as -> by (destruct (h_name h); [congruence|reflexivity]). destruct (Nat.ltb_spec 0 (h_dim h)); [|lia].
      cbn [negb].
      destruct H as [H|H]; apply filename_throws in H; rewrite H; [reflexivity|]. unfold tester_checkFilename at 1. destruct (is_empty _); [reflexivity|]. destruct (existsb _ _); [reflexivity|]. destruct (_ || _); reflexivity.
  Qed.
  (** a ratio is accepted from 0 to 1, once a model is bound; before, the pointer to the model is not set *)
  Theorem C102_ratio : forall m v w, m = LinearRegression \/ m = OrdinaryKriging \/ m = UniversalKriging -> q_multi (fst w) = false ->
    let w1 := tcalls_run writable fixed [CModel m; CBind] w in
    (0 <= v <= 1 -> snd (tcall_run writable fixed (CRatio v) w1) = Ok None) /\ (v < 0 \/ 1 < v -> tcall_run writable fixed (CRatio v) w1 = (w1, Throw InvalidArgument)).
  Proof.
    intros m v [[h ty bd p mu st] fs] Hm Hq w1. cbn [fst q_multi] in Hq. subst mu.
    assert (exists st', w1 = (mkTt h (Some m) true (match m with LinearRegression => PLinear | _ => PKriging end) false st', fs)) as (st' & ->). { unfold w1. destruct Hm as [->|[->| ->]]; eexists; reflexivity. }
    split; intros Hv.
    - assert ((v <! n0) = false /\ (n1 <! v) = false) as (V1 & V2). { cbn. destruct (Rltb_spec v 0); [lra|]. destruct (Rltb_spec 1 v); [lra|auto]. }
      destruct Hm as [->|[->| ->]]; unfold tcall_run, on_tester, tester_setRatio, in_state, train_setRatio, in_model, in_ldata, krig_setRatio, in_kdata, data_setRatio, sbind, szoom, sthrow_if, sget; rewrite V1, V2; cbn; rewrite ?V1, ?V2; reflexivity.
    - assert (((v <! n0) && (n1 <! v))%bool = false /\ ((v <! n0) || (n1 <! v))%bool = true) as (V1 & V2). { cbn. destruct (Rltb_spec v 0), (Rltb_spec 1 v); auto; lra. }
      destruct Hm as [->|[->| ->]]; destruct st' as [sl slt sk skt]; unfold tcall_run, on_tester, tester_setRatio, in_state, train_setRatio, in_model, in_ldata, krig_setRatio, in_kdata, data_setRatio, sbind, szoom, sthrow_if, sget; rewrite V1; cbn [fst snd q_ptr q_state v_lin v_krig]; rewrite V2; cbn.
      + destruct sl; reflexivity.
      + destruct sk as [[] ? ? ? ? ?]; reflexivity.
      + destruct sk as [[] ? ? ? ? ?]; reflexivity.
  Qed.
  (** A tester bound to a gradient or tangent enhanced model (or to NONE) uses a pointer that is not set. *)
  Theorem C102_enhanced_refuted : forall m nm d b ftr fte fs n v perm us ws, m = NoModel \/ m = TangentEnhanced \/ m = GradientEnhanced ->
    nm <> [] -> (0 < d)%nat -> b_set b = true -> data_file_name ftr -> data_file_name fte -> 0 <= v <= 1 ->
    exists w, tcalls_run writable fixed [CName nm; CDim d; CBox b; CTraining ftr; CTest fte; CModel m; CBind] (tester_new, fs) = w /\ snd w = fs /\
      snd (tcall_run writable fixed (CIters n) w) = UB /\ snd (tcall_run writable fixed (CRatio v) w) = UB /\ snd (tcall_run writable fixed (CPerform perm us ws) w) = UB.
  Proof.
    intros m nm d b ftr fte fs n v perm us ws Hm Hn Hd Hb F1 F2 Hv. apply filename_iff in F1. apply filename_iff in F2.
    assert (is_empty nm = false) as He by (destruct nm; [congruence|reflexivity]).
    set (x := (100 * 100)%nat). exists (mkTt (mkTC d nm b x ftr fte false false) (Some m) true PNone false (q_state tester_new), fs). split.
    { unfold tester_new. fold x. erewrite tcalls_cons; [|tstep; rewrite He; cbn [negb]; tfin]. erewrite tcalls_cons; [|tstep; tfin]. erewrite tcalls_cons; [|tstep; rewrite Hb; cbn [negb]; tfin].
      erewrite tcalls_cons; [|tstep; rewrite F1; tfin]. erewrite tcalls_cons; [|tstep; rewrite F2; tfin]. erewrite tcalls_cons; [|tstep; tfin]. destruct Hm as [->|[->| ->]]; (erewrite tcalls_cons; [|tstep; tfin]); reflexivity. }
    split; auto. split. reflexivity. split.
    - tstep. assert ((v <! n0) && (n1 <! v) = false)%bool as ->. { cbn. destruct (Rltb_spec v 0); [lra|]. reflexivity. } reflexivity.
    - unfold tcall_run, tester_perform, sbind, sget, sthrow_if, sassert, sret, slift, szoom. cbn [fst snd q_conf h_box h_name h_dim h_train h_test q_bound q_ptr]. rewrite Hb, He, F1, F2. cbn [negb]. destruct (Nat.ltb_spec 0 d); [|lia]. reflexivity.
  Qed.
  Theorem C102_unbound : forall v w, q_ptr (fst w) = PNone -> 0 <= v <= 1 -> snd (tcall_run writable fixed (CRatio v) w) = UB.
  Proof.
    intros v [q fs] H Hv. cbn [fst] in H. tstep. assert ((v <! n0) && (n1 <! v) = false)%bool as ->. { cbn. destruct (Rltb_spec v 0); [lra|]. reflexivity. } cbn. rewrite H. reflexivity.
  Qed.
End Props.

(** *** examples *)
Lemma demo_set_up ratio perm : (ratio = None \/ ratio = Some (1 / 2)) -> Permutation perm (seq 0 3) -> test_set_up (lit "m") 1 demo_box (lit "train.csv") (lit "test.csv") ratio true demo_files [[0; 0]; [1; 1]; [0; 1 / 2]] [[1 / 4; 1 / 4]; [1 / 2; 1]] perm.
Proof.
  intros Hr Hp. split. discriminate. split. lia. split. apply box01. split. apply demo_name_train. split. apply demo_name_test. split. apply demo_train_rows. split. apply demo_test_rows.
  split; auto. intros v E. destruct Hr as [->| ->]; [discriminate|]. injection E as <-. lra.
Qed.
(** a test that completes *)
Example C102_example : exists w' p tx, tester_perform (fun _ => true) show_fixed [2; 0; 1]%nat demo_us demo_ws (tcalls_run (fun _ => true) show_fixed (test_program (lit "m") 1 demo_box (lit "train.csv") (lit "test.csv") OrdinaryKriging (Some (1 / 2)) 1 true) (tester_new, demo_files)) =
    (w', Ok (Some (mean_squared_error 1 demo_box (fun x => fst (p x)) [[0; 0]; [1; 1]; [0; 1 / 2]]))) /\
  trained_kriging 1 demo_box false [[0; 0]; [1; 1]; [0; 1 / 2]] p /\ snd w' results_file = Some tx /\ result_text 1 true true demo_box p [[1 / 4; 1 / 4]; [1 / 2; 1]] tx.
Proof.
  assert (forall j k i, 0 <= demo_us j k i < 1) as Hu. { intros j k i. unfold demo_us. destruct k; cbn; unfold demo_u0, demo_u1; lra. }
  pose proof (demo_set_up (Some (1 / 2)) [2; 0; 1]%nat (or_intror eq_refl) demo_permutation) as S0.
  destruct (C102_kriging_test (fun _ => true) show_fixed show_fixed_ok eq_refl false _ _ _ _ _ _ 1 true true _ _ _ _ demo_us demo_ws S0 ltac:(discriminate) Hu) as (w' & r & E & [(p & tx & P1 & P2 & _ & P3 & P4 & _)|(N & _)]).
  { exists w', p, tx. rewrite E, P2. auto. }
  exfalso. change OrdinaryKriging with (kriging_type false) in E. rewrite program_kriging in E; try reflexivity; try discriminate; try apply demo_name_train; try apply demo_name_test. 2:{ intros v Q. injection Q as <-. lra. }
  rewrite perform_kriging in E; try reflexivity; try discriminate; try apply demo_name_train; try apply demo_name_test. 2:{ cbn. lia. }
  destruct (csv_read _ _ _ _ demo_test_rows ltac:(lia)) as (tfile & C2 & E2 & T2 & W2 & L2).
  assert (mat_readFromCSV (lit "train.csv") false demo_files = (demo_files, Ok demo_file)) as C1.
  { apply C93_matrix. split; auto. destruct demo_train_rows as (t & lines & A1 & A2 & A3 & A4 & _). exists t, lines, [[0; 0]; [1; 1]; [0; 1 / 2]]. split; auto. split; auto. split; auto. split; auto. apply (has_rows_rows demo_file). reflexivity. }
  destruct (demo_completes (fun _ => true) show_fixed show_fixed_ok eq_refl tfile (mkTC 1 (lit "m") demo_box 1 (lit "train.csv") (lit "test.csv") false true) demo_files) as (w & e & X); auto. { discriminate. }
  cbn [has_ratio] in E. cbv iota in E. rewrite X in E. injection E as _ <-. apply (N e). reflexivity.
Qed.
(** the training error of a linear model with a validation set is not the error of the model on its training rows *)
Theorem C102_linear_error_refuted : exists w' tr p e, tester_perform (fun _ => true) show_fixed [0; 1; 2]%nat demo_us demo_ws (tcalls_run (fun _ => true) show_fixed (test_program (lit "m") 1 demo_box (lit "train.csv") (lit "test.csv") LinearRegression (Some (1 / 2)) 1 false) (tester_new, demo_files)) = (w', Ok (Some e)) /\
  training_rows (Some (1 / 2)) [0; 1; 2]%nat [[0; 0]; [1; 1]; [0; 1 / 2]] tr /\ fitted_linear 1 demo_box tr p /\ e <> mean_squared_error 1 demo_box p tr.
Proof.
  destruct (C102_linear_split (fun _ => true) show_fixed show_fixed_ok eq_refl _ _ _ _ _ _ 1 false true _ _ _ [0; 1; 2]%nat demo_us demo_ws (demo_set_up (Some (1 / 2)) [0; 1; 2]%nat (or_intror eq_refl) (Permutation_refl _)) ltac:(lia)) as (w' & r & tr & E & T & p & tx & P1 & P2 & _).
  exists w', tr, p, (reported_error 1 demo_box p tr [[0; 0]; [1; 1]; [0; 1 / 2]]). rewrite E, P2. split; auto. split; auto. split; auto.
  destruct T as (q & Hq & ->). assert (q = 1%nat) as ->. { cbn [length INR] in Hq. assert (INR q < 2) as Q1 by lra. assert (0 < INR q) as Q2 by lra. change 0 with (INR 0) in Q2. apply INR_lt in Q2. change 2 with (INR 2) in Q1. apply INR_lt in Q1. lia. }
  change (unpicked (firstn 1 [0; 1; 2]%nat) [[0; 0]; [1; 1]; [0; 1 / 2]]) with [[1; 1]; [0; 1 / 2]] in *. clear - P1. destruct P1 as (cl & N & P).
  assert (points demo_box 1 [[1; 1]; [0; 1 / 2]] = [[1]; [0]]) as EP. { unfold points, inputs, unit_row. cbn. repeat f_equal; field. } rewrite EP in N.
  pose proof (N 0%nat ltac:(lia)) as N0. pose proof (N 1%nat ltac:(lia)) as N1. cbn in N0, N1. unfold output, lpredict in N0, N1. cbn in N0, N1.
  unfold reported_error, mean_squared_error. cbn [length rsum nth].
  assert (scaled demo_box 1 [1; 1] = [1]) as -> by (unfold scaled, unit_row; cbn; f_equal; field). assert (scaled demo_box 1 [0; 1 / 2] = [0]) as -> by (unfold scaled, unit_row; cbn; f_equal; field).
  rewrite (P [1]), (P [0]) by reflexivity. unfold lpredict. cbn. intros H. set (a := cl 0%nat) in *. set (c := cl 1%nat) in *. lra.
Qed.
Print Assumptions C102_kriging_test.
Print Assumptions C102_ordinary_after_universal_refuted.
Print Assumptions C102_linear_split.
Print Assumptions C102_linear_test.
Print Assumptions C102_second_test_refuted.
Print Assumptions C102_file_names.
Print Assumptions C102_refused.
Print Assumptions C102_ratio.
Print Assumptions C102_enhanced_refuted.
Print Assumptions C102_unbound.
Print Assumptions C102_linear_error_refuted.
