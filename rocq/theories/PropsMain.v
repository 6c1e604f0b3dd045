(** Property C103: the program: its argument, its configuration file, the study it runs and its exit status. *)
From Coq Require Import Ascii String ZArith Bool Arith Reals Lra List Lia.
From Verif Require Import Base StM Num RealNum VecModel MatModel MatSpec MatProofs BoundsModel DataProofs DesignModel HistModel HistSpec KrigModel KrigProg TrainModel TrainReal OptModel OptSpec OptReal OptRun OptRunReal OptStart OptTop RunFileModel StudyModel StudyFit StudySpec StudyStep StudyLoop StudyRun PropsStudy
  StrModel StrSpec StrProofs StrReal ApiModel ApiProofs ApiReal ApiRun DriverModel DriverSpec DriverText DriverRead DriverWhole DriverConfig DriverRun DriverFail PropsDriver MainModel MainSpec MainProofs MainProofs2.
Import ListNotations.
Local Open Scope R_scope.

Section Box.
  Context (c : cfg R) (q : ssets) (fmt : R -> R) (Hs : settings_ok c) (Hm : models_ok c (fun k => ss_lin (q k))) (drs : nat -> draws) (Hd : forall k, draws_ok (drs k)).
  Lemma study_box : forall fuel k os s s' r, minv c q fmt os s -> ready c (y_opt s) -> studyLoop fuel k c q fmt drs s = Some (s', r) -> b_lo (go_box (s_gopt (y_opt s'))) = c_lb c /\ b_up (go_box (s_gopt (y_opt s'))) = c_ub c.
  Proof.
    induction fuel as [|fuel IH]; intros k os s s' r HI HR H; cbn [studyLoop] in H; [discriminate|].
    destruct (studyStep c q fmt (drs k) s) as [s1 r1] eqn:ES. destruct (step_cases c q fmt Hs Hm (drs k) os s s1 r1 (Hd k) HI HR ES) as [(_ & -> & _)|(t & y & J1 & TB & EI & NN & IT & C)]; [discriminate|].
    destruct C as [(-> & Et & o & I1 & R1 & _)|(NR & _ & _ & Eg & _)].
    - destruct (Nat.leb _ _). { injection H as <- _. split; apply R1. } exact (IH _ _ _ _ _ I1 R1 H).
    - assert (s1 = s') as <-. { destruct r1 as [[[]|]|x|]; try discriminate; congruence. } rewrite Eg. split; apply HR.
  Qed.
End Box.
(** a design the study may choose: inside the box, discrete parameters on their grids *)
Definition choosable (c : config) (x : list R) : Prop :=
  in_box (map ps_lb (cf_params c)) (map ps_ub (cf_params c)) x /\ forall i p, nth_error (cf_params c) i = Some p -> grid_point p (nth i x 0).
(** the objective function or a constraint fails at the design *)
Definition fails_at (ext : odef -> ufun R) (udf : nat -> ufun R) (c : config) (x : list R) : Prop :=
  isOk (ext (cf_obj c) x) = false \/ exists i k, nth_error (cf_cons c) i = Some k /\ isOk (constraint_value ext udf i k x) = false.

Section Program.
  Context (files : str -> option str) (writable : str -> bool) (ext : odef -> ufun R) (udf : nat -> ufun R) (data : str -> option (mat R)) (fmt : R -> R) (perm : nat -> list nat) (drs : nat -> draws).
  Notation program := (rodeo files writable ext udf data fmt perm drs).

  (** ** refusals: no argument, a name that does not end in .xml, no such file, a configuration that cannot be read or is of another type:
      exit status 1, and no study is started.  Further arguments are ignored *)
  Theorem C103_no_argument fuel : program fuel [] = Some (None, Exits 1).
  Proof. reflexivity. Qed.
  Theorem C103_more_arguments fuel f rest : program fuel (f :: rest) = program fuel [f].
  Proof. reflexivity. Qed.
  Lemma named fuel f rest : xml_name f -> program fuel (f :: rest) = match configure files ext udf f with
    | (s, Ok _) => match driver_study writable data fmt perm drs fuel s with Some (y, r) => Some (y, ending_of r) | None => None end | (_, r) => Some (None, ending_of r) end.
  Proof. intros X. cbn [rodeo]. rewrite (xml_true f X). reflexivity. Qed.
  Theorem C103_wrong_name fuel f rest : plain f -> ~ xml_name f -> program fuel (f :: rest) = Some (None, Exits 1).
  Proof.
    intros P X. cbn [rodeo]. destruct (isXMLFile f) as [[|]|x|] eqn:E.
    - destruct (X (xml_only f E)). - reflexivity.
    - exfalso. unfold isXMLFile in E. destruct (Nat.leb_spec 4 (length f)); [|discriminate E]. revert E. generalize (skipn (length f - 4) f) as a. generalize (lit ".xml") as b. intros b a. revert b. induction a as [|z a IH]; intros [|y b] E; cbn [equal_nocase] in E; try discriminate E. destruct (negative z || negative y)%bool; [discriminate E|]. destruct (Ascii.eqb _ _); [eauto|discriminate E].
    - exfalso. unfold isXMLFile in E. destruct (Nat.leb_spec 4 (length f)); [|discriminate E]. assert (plain (skipn (length f - 4) f)) as PS. { intros z I. apply P. rewrite <- (firstn_skipn (length f - 4) f). apply in_or_app. now right. }
      assert (plain (lit ".xml")) as PX by (intros z [<-|[<-|[<-|[<-|[]]]]]; cbn; lia). destruct (equal_nocase_plain _ _ PS PX) as (r & Er & _). { rewrite skipn_length. cbn. lia. } congruence.
  Qed.
  Theorem C103_missing_file fuel f rest : xml_name f -> files f = None -> program fuel (f :: rest) = Some (None, Exits 1).
  Proof.
    intros X E. rewrite named by exact X. destruct (configure files ext udf f) as [s r] eqn:EC. destruct (C84_missing files ext udf f s r EC (or_intror E)) as [->| ->]; reflexivity.
  Qed.
  (** a reading that stops, or a problem that is no optimisation *)
  Theorem C103_unread fuel f rest s r : xml_name f -> configure files ext udf f = (s, r) -> r <> Ok tt \/ d_isopt s = false ->
    exists e, program fuel (f :: rest) = Some (None, e) /\ e <> Exits 0 /\ (forall x, r = Throw x -> x <> AssertFail -> e = Exits 1) /\ (r = Ok tt -> e = Exits 1).
  Proof.
    intros X EC H. rewrite named by exact X. rewrite EC. destruct r as [[]|x|].
    - destruct H as [H|H]; [contradiction|]. unfold driver_study. rewrite H. exists (Exits 1). repeat split; auto; discriminate.
    - exists (ending_of (Throw x)). split; auto. split. { destruct x; discriminate. } split; [|discriminate]. intros y [= <-] N. destruct x; try reflexivity. contradiction.
    - exists Undefined. repeat split; auto; discriminate.
  Qed.

  (** ** the study *)
  Context (f text : str) (blks : list str) (c : config) (rest : list str).
  Context (X : xml_name f) (Ef : files f = Some text) (L : laid_out text blks) (D : describes text blks c) (A : acceptable c) (RN : runnable udf data c) (W : writable (od_dv (cf_obj c)) = true) (Hd : forall k, draws_ok (drs k)).
  Lemma has_increments : forall p, In p (cf_params c) -> ps_discrete p = true -> 0 < ps_inc p.
  Proof.
    intros p Ip Dp. destruct D as (gs & ps & os & pts & _ & _ & _ & _ & _ & _ & _ & _ & _ & _ & _ & FD & _). assert (exists t, describes_parameter t p) as (t & _ & _ & _ & _ & _ & _ & x & _ & H). { clear -FD Ip. induction FD as [|t q pts qs H F IH]; [destruct Ip|]. destruct Ip as [<-|Ip]; eauto. } rewrite Dp in H. lra.
  Qed.
  Lemma linked_ordinary : forall k, In k (cf_cons c) -> cs_user k = true -> od_model (cs_def k) = MOrdinary.
  Proof.
    intros k Ik U. destruct D as (gs & ps & os & pts & _ & _ & _ & _ & _ & _ & _ & _ & _ & _ & _ & _ & _ & FC). assert (exists t, describes_constraint t k) as (t & H). { clear -FC Ik. induction FC as [|t q bs qs H F IH]; [destruct Ik|]. destruct Ik as [<-|Ik]; eauto. }
    destruct H as (_ & _ & _ & _ & _ & _ & _ & _ & _ & _ & H). rewrite U in H. apply H.
  Qed.
  Lemma saved_name : od_dv (cf_obj c) <> [].
  Proof. destruct D as (gs & ps & os & pts & _ & _ & _ & _ & _ & _ & _ & _ & _ & _ & _ & _ & (_ & _ & _ & (_ & N) & _) & _). exact N. Qed.
  Lemma saved : saveStart writable (od_dv (cf_obj c)) = Ok tt.
  Proof. unfold saveStart. rewrite W. pose proof saved_name. destruct (od_dv (cf_obj c)); [contradiction|reflexivity]. Qed.
  Definition sim (s : driver R) (k : nat) : draws := simulate (p_obj (d_opt s)) (drs k).
  (** the program is a study from the prepared optimiser *)
  Lemma program_study fuel : exists s o1 s1, configure files ext udf f = (s, Ok tt) /\ study ext udf c s /\ program fuel (f :: rest) = match studyLoop fuel 0 (driver_cfg data s) (driver_sets s) fmt (sim s) s1 with Some (s2, r) => Some (Some s2, ending_of r) | None => None end /\
    (exists oo, startRun (driver_cfg data s) (Ok tt) oo = (o1, Ok tt)) /\ y_opt s1 = o1 /\ minv (driver_cfg data s) (driver_sets s) fmt [] s1 /\ ready (driver_cfg data s) o1 /\ Forall2 (start_row (driver_cfg data s)) (rows (c_data (driver_cfg data s))) (rows (h_data (s_hist o1))) /\ s_iter o1 = 0%nat /\ s_evals o1 = 0%nat /\ s_pts o1 = [].
  Proof.
    pose proof (xml_nonempty f X) as Nf. destruct (config_reads files ext udf text blks f c Nf Ef (laid_out_blocks _ _ L) D A) as (s & E & S). exists s. rewrite <- configure_read in E by exact Nf.
    destruct (study_prepared ext udf data c s S A) as (P0 & Q1 & Q2 & Q3). destruct (cfg_is ext udf data c s S) as (C1 & C2 & C3 & C4 & C5 & C6 & C7 & C8 & C9 & C10).
    destruct (study_begin (driver_cfg data s) (driver_sets s) fmt (main_settings ext udf data c s S A RN has_increments) (main_models ext udf data c s S A RN linked_ordinary) perm (p_st (d_opt s)) (main_data ext udf data c s S RN) P0 C7) as (o1 & s1 & E1 & E2 & R).
    { rewrite C4. apply A. } exists o1, s1. split; [exact E|]. split; [exact S|]. split.
    { rewrite named by exact X. rewrite E. unfold driver_study. pose proof S as (I1 & I2 & _). rewrite I1, I2. cbn [negb]. rewrite (main_repeated ext udf data c s S RN).
      pose proof S as (_ & _ & _ & _ & _ & O2 & _). rewrite O2. cbn [df_def]. rewrite saved.
      rewrite startP_eq. 2:{ apply (main_guard ext udf data c s S A RN 0%nat (cf_obj c) eq_refl). } 2:{ intros i oc Hi U. apply (main_cons ext udf data c s S) in Hi. destruct Hi as (k & K & ->). rewrite ocon_user in U. apply (main_guard ext udf data c s S A RN (Datatypes.S i) (cs_def k)). cbn. now rewrite K, U. }
      rewrite E2. rewrite loopP_eq by apply (main_different ext udf data c s S RN). unfold sim. destruct (studyLoop fuel 0 _ _ _ _ _) as [[s2 r]|]; reflexivity. }
    destruct R as (R1 & R2 & R3 & R4 & R5 & R6 & R7). split; [eauto|]. rewrite Q1 in R5. rewrite Q2 in R6. rewrite Q3 in R7. auto 10.
  Qed.

  Ltac split_every D0 := assert (NZ : (1000 * 100)%nat <> 0%nat) by discriminate; generalize dependent (1000 * 100)%nat; intros every; intros.
  (** C103_program with more about the model that is trained *)
  Lemma program_end fuel y e : program fuel (f :: rest) = Some (y, e) ->
    exists s s' start new, y = Some s' /\ configure files ext udf f = (s, Ok tt) /\ set_up ext udf c s /\
      let st := y_opt s' in let rs := rows (h_data (s_hist st)) in
      (* the history and the reported optimum *)
      rs = start ++ map outcome_row new /\ Forall2 (start_row (driver_cfg data s)) (rows (data_of data (od_train (cf_obj c)))) start /\ Forall (evaluated ext udf c) new /\
      (exists fe i, reports (cf_dim c) (length (cf_cons c)) (box_of (map ps_lb (cf_params c)) (map ps_ub (cf_params c))) rs i fe (go_d (s_gopt st)) /\
        if fe : bool then best_feasible (cf_dim c) rs i else (forall j, ~ HistSpec.candidate (cf_dim c) rs j) /\ best_any (cf_dim c) rs i) /\
      (* the files with training data *)
      (forall k d tab, model_def c k = Some d -> training_table (cf_dim c) data (od_train d) tab -> offered fmt tab (map (sample_of k) new) (rows (file_at s' k))) /\
      (* the end *)
      ((e = Exits 0 /\ length new = cf_N c) \/
       (e <> Exits 0 /\ (length new < cf_N c)%nat /\
        ((exists m, length new = (m * (1000 * 100))%nat /\ exists sx sa sb o, initSurrogates (driver_cfg data s) (driver_sets s) (dr_perm (drs (length new))) sx = (sa, Ok tt) /\ minv (driver_cfg data s) (driver_sets s) fmt new sa /\ trainSurrogates (driver_cfg data s) (sim s (length new)) sa = (sb, o) /\ isOk o = false /\ e = ending_of (forget o)) \/
         (exists x, choosable c x /\ fails_at ext udf c x)))).
  Proof.
    destruct (program_study fuel) as (s & o1 & s1 & EC & S & EP & (oo & ES) & O1 & I1 & R1 & T0 & T1 & T2 & T3). rewrite EP. clear EP. destruct (studyLoop fuel 0 _ _ _ _ s1) as [[s2 r]|] eqn:E; [|discriminate]. intros [= <- <-].
    pose proof (main_settings ext udf data c s S A RN has_increments) as Hs. pose proof (main_models ext udf data c s S A RN linked_ordinary) as Hm. destruct (cfg_is ext udf data c s S) as (C1 & C2 & C3 & C4 & C5 & C6 & C7 & C8 & C9 & C10).
    assert (HN : cf_N c <> 0%nat) by (apply A). rewrite <- O1 in R1, T0, T1, T2, T3.
    assert (Hsim : forall k, draws_ok (sim s k)) by (intros k; exact (Hd k)).
    destruct (study_loop (driver_cfg data s) (driver_sets s) fmt Hs Hm (sim s) Hsim fuel 0 [] s1 s2 r I1 R1 ltac:(lia) E) as (ts & ys & new & n & P0 & P1 & P2 & P3 & P4 & P5 & P6 & P7 & P8 & P9 & P10).
    exists s, s2, (rows (h_data (s_hist (y_opt s1)))), new. split; [reflexivity|]. split; [exact EC|]. split; [now apply study_set_up|]. cbn zeta. split; [exact P7|]. split; [rewrite <- C10; exact T0|].
    split. { apply (evaluated_all ext udf data c s S A) with (2 := P6). intros k. unfold envs, sim. cbn [e_eval envOf dr_eval simulate]. destruct S as (_ & _ & _ & _ & _ & _ & _ & (_ & _ & _ & _ & O5 & _) & _). rewrite O5. reflexivity. }
    split. { destruct (study_box (driver_cfg data s) (driver_sets s) fmt Hs Hm (sim s) Hsim fuel 0 [] s1 s2 r I1 R1 E) as (B1 & B2). destruct P9 as (fe & i & A1 & A2). exists fe, i. rewrite C1, C9, ocons_len in A1. rewrite C1 in A2. split; [|exact A2]. unfold reports in *. cbn [b_lo b_up box_of]. rewrite B1, B2, C2, C3 in A1. exact A1. }
    split. { intros k d tab Hk (m & Em & Wm & Nm & Cm & ->). pose proof (main_modelled ext udf data c s S k d Hk) as Hk'. pose proof (minv_files _ _ _ _ _ _ _ P5 Hk') as F. cbn [app] in F. unfold data_of in F. rewrite Em in F. exact F. }
    destruct P10 as [(-> & Ln & N)|(NR & Ln & sx & Sx & F)].
    - left. split; [reflexivity|]. lia.
    - right. split. { destruct r as [[]|x|]; [discriminate|destruct x; discriminate|discriminate]. } split; [lia|]. destruct F as [(D0 & NT & x & F)|F]; [left|right].
      + rewrite Sx, T1, C8 in D0. cbn [Nat.add] in D0. destruct (P4 (length new) ltac:(lia)) as (_ & _ & TB). cbn [Nat.add] in TB. unfold due in TB. rewrite T1, C8 in TB. cbn [Nat.add] in TB. destruct (TB D0) as (sx0 & sa & o & EI & MI & ET & Et).
        split_every D0. exists (Datatypes.S (length new) / every)%nat. split. { pose proof (Nat.div_mod (Datatypes.S (length new)) every NZ) as DM. rewrite D0 in DM. lia. }
        exists sx0, sa, (ys (length new)), o. split; [exact EI|]. split; [cbn [app] in MI; rewrite firstn_all in MI; exact MI|]. split; [exact ET|]. unfold envs in NT, F. cbn [e_train envOf Nat.add] in NT, F. rewrite Et in NT, F. split. { destruct o as [a| |]; [discriminate NT| |]; reflexivity. } destruct F as [(-> & ->)|(-> & ->)]; reflexivity.
      + destruct F as (x & (Bx & Gr) & F). rewrite C2, C3, C5 in *. assert (length x = cf_dim c) as LX by (now apply (len_box c A)). exists x. split. { split; [exact Bx|]. intros i p Ep Dp. destruct (nth_lo c i p Ep) as (<- & <-). apply Gr. apply disc_in. exists p. auto. }
        destruct F as [F|(oc & I & F)]; [left|right].
        * unfold envs, sim in F. cbn [e_eval envOf dr_eval simulate] in F. destruct S as (_ & _ & _ & _ & _ & _ & _ & (_ & _ & _ & _ & O5 & _) & _). rewrite O5 in F. rewrite fobj_eval_ok in F by exact LX. exact F.
        * apply In_nth_error in I. destruct I as (i & I). apply (main_cons ext udf data c s S) in I. destruct I as (k & K & ->). exists i, k. split; [exact K|]. rewrite (ocon_fun ext udf data c) in F by exact LX. unfold constraint_value. fold (con_fun ext udf i k). destruct (con_fun ext udf i k x); auto.
  Qed.
  (** the program has ended: what it read, what the history, the reported optimum and the files with training data hold, and its exit status:
      0 exactly when all evaluations were made.  It ends early only because a training was due (for the first evaluation and after every
      100000) and failed, or because a function failed at a design it chose *)
  Theorem C103_program fuel y e : program fuel (f :: rest) = Some (y, e) ->
    exists s s' start new, y = Some s' /\ configure files ext udf f = (s, Ok tt) /\ set_up ext udf c s /\
      let st := y_opt s' in let rs := rows (h_data (s_hist st)) in
      (* the history and the reported optimum *)
      rs = start ++ map outcome_row new /\ Forall2 (start_row (driver_cfg data s)) (rows (data_of data (od_train (cf_obj c)))) start /\ Forall (evaluated ext udf c) new /\
      (exists fe i, reports (cf_dim c) (length (cf_cons c)) (box_of (map ps_lb (cf_params c)) (map ps_ub (cf_params c))) rs i fe (go_d (s_gopt st)) /\
        if fe : bool then best_feasible (cf_dim c) rs i else (forall j, ~ HistSpec.candidate (cf_dim c) rs j) /\ best_any (cf_dim c) rs i) /\
      (* the files with training data *)
      (forall k d tab, model_def c k = Some d -> training_table (cf_dim c) data (od_train d) tab -> offered fmt tab (map (sample_of k) new) (rows (file_at s' k))) /\
      (* the end *)
      ((e = Exits 0 /\ length new = cf_N c) \/
       (e <> Exits 0 /\ (length new < cf_N c)%nat /\
        ((exists m, length new = (m * (1000 * 100))%nat /\ exists sx sa sb o, initSurrogates (driver_cfg data s) (driver_sets s) (dr_perm (drs (length new))) sx = (sa, Ok tt) /\ trainSurrogates (driver_cfg data s) (sim s (length new)) sa = (sb, o) /\ isOk o = false /\ e = ending_of (forget o)) \/
         (exists x, choosable c x /\ fails_at ext udf c x)))).
  Proof.
    intros H. destruct (program_end fuel y e H) as (s & s' & start & new & H1 & H2 & H3 & H4 & H5 & H6 & H7 & H8 & H9). exists s, s', start, new. repeat (split; [assumption|]). destruct H9 as [H9|(N1 & N2 & [(n & E & sx & sa & sb & o & T1 & _ & T2 & T3)|F])]; [now left|right|right]; (split; [exact N1|]); (split; [exact N2|]); [left|now right].
    exists n. split; [exact E|]. exists sx, sa, sb, o. auto.
  Qed.
  Lemma program_running fuel : (cf_N c <= fuel)%nat -> program fuel (f :: rest) = None ->
    exists s i new sx sa sb, configure files ext udf f = (s, Ok tt) /\ study ext udf c s /\ length new = (i * (1000 * 100))%nat /\ (length new < cf_N c)%nat /\ minv (driver_cfg data s) (driver_sets s) fmt new sa /\
      initSurrogates (driver_cfg data s) (driver_sets s) (dr_perm (drs (length new))) sx = (sa, Ok tt) /\ trainSurrogates (driver_cfg data s) (sim s (length new)) sa = (sb, Ok None).
  Proof.
    intros Hf. destruct (program_study fuel) as (s & o1 & s1 & EC & S & EP & (oo & ES) & O1 & I1 & R1 & T0 & T1 & T2 & T3). rewrite EP. clear EP. destruct (studyLoop fuel 0 _ _ _ _ s1) as [[s2 r]|] eqn:E; [discriminate|]. intros _.
    pose proof (main_settings ext udf data c s S A RN has_increments) as Hs. pose proof (main_models ext udf data c s S A RN linked_ordinary) as Hm. destruct (cfg_is ext udf data c s S) as (C1 & C2 & C3 & C4 & C5 & C6 & C7 & C8 & C9 & C10).
    assert (HN : cf_N c <> 0%nat) by (apply A). rewrite <- O1 in R1, T1. assert (Hsim : forall k, draws_ok (sim s k)) by (intros k; exact (Hd k)).
    destruct (loop_running (driver_cfg data s) (driver_sets s) fmt Hs Hm (sim s) Hsim fuel 0 [] s1) as (j & new & sx & sa & sb & D0 & LN & MI & EJ & EI & ET); auto; try lia.
    unfold due in D0. rewrite T1 in LN. rewrite T1, C8 in D0. rewrite C4 in LN. cbn [Nat.add app] in *. assert (exists i, j = (i * (1000 * 100))%nat) as (i & Ej).
    { clear -D0. split_every D0. exists (Datatypes.S j / every)%nat. pose proof (Nat.div_mod (Datatypes.S j) every NZ) as DM. rewrite D0 in DM. lia. }
    exists s, i, new, sx, sa, sb. rewrite EJ. auto 12.
  Qed.
  (** it does end, after at most as many iterations as evaluations were asked for, if the trainings of the models end *)
  Theorem C103_finishes fuel : (cf_N c <= fuel)%nat ->
    (forall s i sx sa, configure files ext udf f = (s, Ok tt) -> initSurrogates (driver_cfg data s) (driver_sets s) (dr_perm (drs (i * (1000 * 100)))) sx = (sa, Ok tt) -> snd (trainSurrogates (driver_cfg data s) (sim s (i * (1000 * 100))) sa) <> Ok None) ->
    exists y e, program fuel (f :: rest) = Some (y, e).
  Proof.
    intros Hf HT. destruct (program fuel (f :: rest)) as [[y e]|] eqn:E; [eauto|]. destruct (program_running fuel Hf E) as (s & i & new & sx & sa & sb & EC & _ & LN & _ & _ & EI & ET). rewrite LN in *. exfalso. apply (HT s i sx sa EC EI). now rewrite ET.
  Qed.

End Program.
(** the file for the design vector cannot be written: exit status 1; nothing has been evaluated, the files with training
    data are as they were *)
Theorem C103_unwritable files writable ext udf data fmt perm drs f text blks c rest fuel :
  xml_name f -> files f = Some text -> laid_out text blks -> describes text blks c -> acceptable c -> runnable udf data c -> writable (od_dv (cf_obj c)) = false ->
  exists s, rodeo files writable ext udf data fmt perm drs fuel (f :: rest) = Some (Some s, Exits 1) /\ s_evals (y_opt s) = 0%nat /\ s_pts (y_opt s) = [] /\
    forall k d tab, model_def c k = Some d -> training_table (cf_dim c) data (od_train d) tab -> rows (file_at s k) = tab.
Proof.
  intros X Ef L D A RN W. pose proof (xml_nonempty f X) as Nf. destruct (config_reads files ext udf text blks f c Nf Ef (laid_out_blocks _ _ L) D A) as (s & E & S). rewrite <- configure_read in E by exact Nf.
  destruct (study_prepared ext udf data c s S A) as (P0 & Q1 & Q2 & Q3). destruct (cfg_is ext udf data c s S) as (C1 & C2 & C3 & C4 & C5 & C6 & C7 & C8 & C9 & C10).
  destruct (study_unsaved (driver_cfg data s) (driver_sets s) fmt (main_settings ext udf data c s S A RN (has_increments text blks c D)) (main_models ext udf data c s S A RN (linked_ordinary text blks c D)) (guard_at data s) RuntimeError
    (repeated_name [] (p_cons (d_opt s))) perm (p_st (d_opt s))) as (s1 & E1 & I1 & Z1 & Z2 & Z3); auto.
  { apply (main_guard ext udf data c s S A RN 0%nat (cf_obj c) eq_refl). }
  { intros i oc Hi U. apply (main_cons ext udf data c s S) in Hi. destruct Hi as (k & K & ->). rewrite ocon_user in U. apply (main_guard ext udf data c s S A RN (Datatypes.S i) (cs_def k)). cbn. now rewrite K, U. }
  { apply (main_data ext udf data c s S RN). } { rewrite C4. apply A. }
  exists s1. split.
  { rewrite named by exact X. rewrite E. unfold driver_study. pose proof S as (I1' & I2' & _ & _ & _ & O2 & _). rewrite I1', I2', O2. cbn [negb df_def]. unfold saveStart. rewrite W. pose proof (saved_name text blks c D) as N. destruct (od_dv (cf_obj c)); [contradiction|]. cbn [is_empty]. rewrite E1. reflexivity. }
  split; [congruence|]. split; [congruence|].
  intros k d tab Hk (m & Em & Wm & Nm & Cm & ->). pose proof (main_modelled ext udf data c s S k d Hk) as Hk'. pose proof (minv_files _ _ _ _ _ _ _ I1 Hk') as F. unfold data_of in F. rewrite Em in F. cbn [map] in F. inversion F; auto.
Qed.
Print Assumptions C103_unwritable.
Print Assumptions C103_program.
Print Assumptions C103_finishes.
Print Assumptions C103_wrong_name.
Print Assumptions C103_missing_file.
Print Assumptions C103_unread.

(** ** the objective function asks for a model with derivatives: undefined behaviour; its training data cannot be read: exit status 1.
    Nothing has been evaluated *)
Lemma startP_stops g v rep c q perm s o1 r : startRun c r (y_opt s) = (o1, r) -> r <> Ok tt -> g 0%nat = r -> exists s1, startP g v rep c q perm s = (s1, r) /\ y_opt s1 = o1.
Proof.
  intros E Nr G. unfold startRun in E. unfold startP. unfold StudyModel.in_opt at 1. unfold sbind at 1, szoom at 1. unfold sbind in E.
  unfold sbind at 1. destruct (sthrow_if (negb (c_objset c)) RuntimeError (y_opt s)) as [a1 [[]|x1|]] eqn:E1. 2,3: injection E as <- <-; eexists; split; reflexivity.
  unfold sbind at 1. destruct (sthrow_if (negb (c_boxset c)) RuntimeError a1) as [a2 [[]|x2|]] eqn:E2. 2,3: injection E as <- <-; eexists; split; reflexivity.
  unfold sbind at 1. destruct (settingsOk c a2) as [a3 [[]|x3|]] eqn:E3. 2,3: injection E as <- <-; eexists; split; reflexivity.
  destruct (initSettings c a3) as [a4 [[]|x4|]] eqn:E4. 2,3: injection E as <- <-; eexists; split; reflexivity.
  unfold firstSurrogates. rewrite G. unfold slift in E. destruct r as [[]|x|]; [contradiction| |]; injection E as <-; eexists; (split; [reflexivity|reflexivity]).
Qed.
Section First.
  Context (files : str -> option str) (writable : str -> bool) (ext : odef -> ufun R) (udf : nat -> ufun R) (data : str -> option (mat R)) (fmt : R -> R) (perm : nat -> list nat) (drs : nat -> draws).
  Context (f text : str) (blks : list str) (c : config) (rest : list str).
  Context (X : xml_name f) (Ef : files f = Some text) (L : laid_out text blks) (D : describes text blks c) (A : acceptable c).
  Lemma first_stops fuel r : r <> Ok tt -> (forall fo, f_box fo = Some (DriverConfig.cbox c) -> f_dim fo = cf_dim c -> f_file fo = od_train (cf_obj c) -> driver_surrogate data fo (od_model (cf_obj c)) = r) ->
    exists s, rodeo files writable ext udf data fmt perm drs fuel (f :: rest) = Some (Some s, ending_of r) /\ s_evals (y_opt s) = 0%nat /\ s_pts (y_opt s) = [].
  Proof.
    intros Nr G. pose proof (xml_nonempty f X) as Nf. destruct (config_reads files ext udf text blks f c Nf Ef (laid_out_blocks _ _ L) D A) as (s & E & S). rewrite <- configure_read in E by exact Nf.
    destruct (cfg_is ext udf data c s S) as (C1 & C2 & C3 & C4 & C5 & C6 & C7 & C8 & C9 & C10). pose proof A as (D0 & N0 & DL & FB & _). rewrite Forall_forall in FB.
    destruct (startRun_fails (driver_cfg data s) r (p_st (d_opt s))) as (st & ES & Z1 & Z2); auto; try congruence. { rewrite C1. lia. }
    { intros i Hi. rewrite C1, DL in Hi. rewrite C2, C3. destruct (nth_error (cf_params c) i) as [p|] eqn:Ep; [|apply nth_error_None in Ep; lia]. destruct (nth_lo c i p Ep) as (-> & ->). apply FB. eapply nth_error_In; eauto. }
    destruct (startP_stops (guard_at data s) (match d_objf s with Some d => saveStart writable (od_dv (df_def d)) | None => Throw InvalidArgument end) (repeated_name [] (p_cons (d_opt s))) (driver_cfg data s) (driver_sets s) perm (studyNew (driver_cfg data s) (p_st (d_opt s))) st r ES Nr) as (s1 & E1 & E2).
    { destruct S as (I1 & I2 & _ & _ & _ & E2 & _ & (O1 & O2 & O3 & O4 & O5 & O6 & O7 & O8 & O9 & U) & _). unfold guard_at. rewrite O5, E2. cbn [df_def]. apply G; reflexivity. }
    exists s1. split.
    - rewrite named by exact X. rewrite E. unfold driver_study. pose proof S as (I1 & I2 & _). rewrite I1, I2. cbn [negb]. rewrite E1. destruct r as [[]|x|]; [contradiction|reflexivity|reflexivity].
    - rewrite E2, Z1, Z2. destruct S as (I1 & I2 & _ & _ & _ & _ & _ & (O1 & O2 & O3 & O4 & O5 & O6 & O7 & O8 & O9 & U) & _). split; apply U.
  Qed.
  Theorem C103_derivatives fuel : has_gradients (od_model (cf_obj c)) -> exists s, rodeo files writable ext udf data fmt perm drs fuel (f :: rest) = Some (Some s, Undefined) /\ s_evals (y_opt s) = 0%nat /\ s_pts (y_opt s) = [].
  Proof.
    intros G. apply (first_stops fuel UB); [discriminate|]. intros fo B1 B2 B3. unfold driver_surrogate. rewrite B1, B2, (gradients_unbound _ G). pose proof A as (D0 & _). destruct (Nat.eqb_spec (cf_dim c) 0); [contradiction|reflexivity].
  Qed.
  Theorem C103_no_table fuel : kriging (od_model (cf_obj c)) -> data (od_train (cf_obj c)) = None -> exists s, rodeo files writable ext udf data fmt perm drs fuel (f :: rest) = Some (Some s, Exits 1) /\ s_evals (y_opt s) = 0%nat /\ s_pts (y_opt s) = [].
  Proof.
    intros G N. apply (first_stops fuel (Throw RuntimeError)); [discriminate|]. intros fo B1 B2 B3. unfold driver_surrogate. rewrite B1, B2, B3, N, (kriging_bound _ G). pose proof A as (D0 & _). destruct (Nat.eqb_spec (cf_dim c) 0); [contradiction|reflexivity].
  Qed.
End First.
Print Assumptions C103_derivatives.
Print Assumptions C103_no_table.

(** ** a program run to the end: one parameter, training samples (0, 0) and (1, y), two evaluations of f(x) = x, the nugget 1e-12 *)
From Verif Require Import VecReal BoundsModel KrigSpec KrigProofs EaLive TrainDemo StudyFit StudyStep DriverParts DriverDemo MainDemo.
Definition beam_lines : list string :=
  ["<general_settings>"; "<name>beam</name> <type>Optimization</type>"; "<dimension>1</dimension>"; "<number_of_function_evaluations>2</number_of_function_evaluations>"; "</general_settings>";
   "<optimization_parameters>"; "<parameter>"; "<name>x</name> <type>real</type>"; "<lower_bound>0</lower_bound> <upper_bound>1</upper_bound>"; "</parameter>"; "</optimization_parameters>";
   "<objective_function>"; "<name>f</name>"; "<design_vector_filename>dv.dat</design_vector_filename>"; "<executable_filename>f.exe</executable_filename>"; "<training_data_filename>f.csv</training_data_filename>";
   "<output_filename>f.out</output_filename>"; "</objective_function>"]%string.
Definition beam_text : str := text_of beam_lines.
Definition beam_param : pspec := mkPS (lit "x") false 0 1 0.
Definition beam_obj : odef := mkOD (lit "f") (lit "dv.dat") (lit "f.exe") [] (lit "f.out") [] (lit "f.csv") false MOrdinary.
Definition beam : config := mkCF (lit "beam") 1 2 None None [beam_param] beam_obj None [].
Lemma beam_laid_out : laid_out beam_text [].
Proof. apply (laid_out_calc _ (map trim_line (lines_of beam_text) ++ [])); [symmetry; apply app_nil_r|]. apply skip_many; [apply neither_calc; vm_compute; reflexivity|constructor]. Qed.
Lemma beam_described : describes beam_text [] beam.
Proof.
  exists (sec_in beam_text "general_settings"), (sec_in beam_text "optimization_parameters"), (sec_in beam_text "objective_function"), (match extractContents (sec_in beam_text "optimization_parameters") (lit "parameter") with Ok l => l | _ => [] end).
  split; [apply section_calc; vm_compute; reflexivity|]. split; [apply section_calc; vm_compute; reflexivity|]. split; [apply section_calc; vm_compute; reflexivity|].
  split; [rdb|]. split. { eexists. split; [txt|]. apply same_word_lit; vm_compute; reflexivity. } split; [txt|].
  split; [apply (int_calc _ _ 1%Z); [reflexivity|vm_compute; reflexivity]|]. split; [apply (int_calc _ _ 2%Z); [reflexivity|vm_compute; reflexivity]|].
  split; [apply (int_calc _ _ (-10000000)%Z); [reflexivity|vm_compute; reflexivity]|]. split; [apply (int_calc _ _ (-10000000)%Z); [reflexivity|vm_compute; reflexivity]|].
  split; [apply PropsStr.C58_contents; vm_compute; reflexivity|]. split.
  { match goal with |- Forall2 _ ?l _ => assert (exists a, l = [a]) as (a & E) by (eexists; vm_compute; reflexivity) end. rewrite E. vm_compute in E. injection E as <-. constructor; [|constructor].
    split; [txt|]. split; [discriminate|]. split. { eexists. split; [txt|wrd]. } split; [nmv|]. split; [nmv|]. split; [cbn; lra|]. exists (/ 10 ^ 13)%R. split; [left; split; [apply missing_calc; vm_compute; reflexivity|reflexivity]|reflexivity]. }
  split; [|constructor].
  split; [rdb|]. split; [apply (int_calc _ _ (-10000000)%Z); [reflexivity|vm_compute; reflexivity]|]. split; [req|]. split; [req|]. split; [req|]. split; [req|]. split; [req|].
  split. { exists []. split; [txt|]. now left. } split; [reflexivity|]. now split.
Qed.
Lemma beam_acceptable : acceptable beam.
Proof.
  split; [discriminate|]. split; [discriminate|]. split; [reflexivity|]. split; [repeat constructor; cbn; lra|]. split; [repeat constructor; cbn; intuition discriminate|]. split; [discriminate|].
  intros i k E _. destruct i; discriminate E.
Qed.
Definition beam_files (n : str) : option str := if str_eqb n (lit "Study.XML") then Some beam_text else None.
Definition beam_table : mat R := mkMat 2 2 [0; 1; 0; small_y (1 / 10 ^ 12)].
Definition beam_data (n : str) : option (mat R) := if str_eqb n (lit "f.csv") then Some beam_table else None.
Definition beam_ext : odef -> ufun R := fun _ x => Ok (nth 0 x 0).
Definition beam_draws : draws := mkDr (fun _ _ => live_us demo_u1 small_u) (fun _ _ _ => live_gen small_u) (fun _ => []) (fun _ => []) (fun _ _ => 1 / 3) (fun _ _ => 2 / 3) [] [] (fun _ => Ok 0) None.
Lemma beam_xml : xml_name (lit "Study.XML").
Proof. exists (lit "Study"), (lit ".XML"). split; [reflexivity|]. apply same_word_lit; vm_compute; reflexivity. Qed.
Lemma beam_runnable : runnable (fun _ _ => Ok 0) beam_data beam.
Proof.
  constructor.
  - intros p [<-|[]]. cbn. split; [lra|discriminate].
  - intros [|[|i]] d E; cbn in E; try discriminate E. injection E as <-. split; [now left|]. split; [discriminate|]. exists (rows beam_table), beam_table. repeat split; cbn; auto; lia.
  - intros [|[|j]] [|[|k]] d e E1 E2; cbn in E1, E2; try discriminate; auto.
  - constructor.
  - intros rs r [|i] k _ _ E; discriminate E.
Qed.
Lemma beam_draws_ok : draws_ok beam_draws.
Proof. pose proof ln2_bounds. repeat split; intros; cbn; try lra; destruct i; cbn; unfold demo_u1, small_u; lra. Qed.
Lemma init_iters c q perm s s' : c_cons c = [] -> initSurrogates c q perm s = (s', Ok tt) -> t_iters (m_tr (y_obj s')) = ss_iters (q 0%nat).
Proof.
  intros N H. unfold initSurrogates in H. rewrite N in H. cbn [eachCon] in H. apply TrainReal.sbind_inv in H. destruct H as (s1 & [] & H & H'). unfold sret in H'. injection H' as <-.
  unfold in_obj, szoom in H. destruct (initSurrogate _ _ _ _ (y_obj s)) as [m r] eqn:E. injection H as <- ->. cbn [y_obj].
  unfold initSurrogate in E. apply TrainReal.sbind_inv in E. destruct E as (m1 & a1 & _ & E). apply TrainReal.sbind_inv in E. destruct E as (m2 & a2 & _ & E). apply TrainReal.sbind_inv in E. destruct E as (m3 & a3 & _ & E).
  unfold in_tr, szoom, smod in E. injection E as <-. reflexivity.
Qed.

Lemma beam_training s sx sa k : study beam_ext (fun _ _ => Ok 0) beam s -> minv (driver_cfg beam_data s) (driver_sets s) (fun x => x) [] sa ->
  initSurrogates (driver_cfg beam_data s) (driver_sets s) (dr_perm beam_draws) sx = (sa, Ok tt) -> exists sb, trainSurrogates (driver_cfg beam_data s) (sim (fun _ => beam_draws) s k) sa = (sb, Ok (Some tt)).
Proof.
  intros S MI EI. destruct (cfg_is beam_ext (fun _ _ => Ok 0) beam_data beam s S) as (C1 & C2 & C3 & C4 & C5 & C6 & C7 & C8 & C9 & C10). change (c_cons (driver_cfg beam_data s) = []) in C9.
  pose proof (main_set beam_ext (fun _ _ => Ok 0) beam s S 0%nat beam_obj eq_refl) as Q. apply init_iters in EI; [|exact C9]. rewrite Q in EI. cbn [ss_iters] in EI.
  destruct (mi_obj _ _ _ _ _ MI) as (th & ga & [(Ht & Hn & Hc & DC & c & ys & F) KP T1 T2 T3 T4] & OF). cbn [map fst snd] in *.
  assert (rows (m_file (y_obj sa)) = [[0; 0]; [1; small_y (1 / 10 ^ 12)]]) as RW. { rewrite C10 in OF. assert (forall fmt rs rs2, offered fmt rs [] rs2 -> rs2 = rs) as X by (intros ? ? ? H; inversion H; auto). rewrite (X _ _ _ OF). reflexivity. }
  rewrite RW, Q in F. unfold StudyModel.cbox in F. rewrite C1, C2, C3 in F. cbn [ss_lin] in F.
  assert (t_iters (m_tr (y_obj sa)) <> 0%nat) as NI. { rewrite EI. discriminate. }
  unfold trainSurrogates. rewrite C9. unfold in_obj, trainSurrogate, in_tr, sbind, szoom. destruct (y_obj sa) as [t mf] eqn:Ey. cbn [m_tr m_file] in *. destruct t as [kk it tn vl hv w]. cbn [t_k t_iters t_threads t_val t_hasval t_warm] in *. subst tn hv vl w.
  destruct (small_trains (1 / 10 ^ 12) ltac:(split; lra) kk it mf c th ga ys NI F) as (t' & ET). eexists. match goal with |- context [krig_train ?a ?b ?o ?t] => change (krig_train a b o t) with (krig_train (fun _ => live_us demo_u1 small_u) (fun _ _ => live_gen small_u) [0%nat] (mkTr kk it 1 false false None)) end. rewrite ET. reflexivity.
Qed.
Lemma few n i : n = (i * (1000 * 100))%nat -> (n < 2)%nat -> n = 0%nat.
Proof. intros -> H. destruct i; [reflexivity|]. exfalso. assert (2 <= 1000 * 100)%nat as G by (apply (Nat.le_trans _ (2 * 1)); [lia|apply Nat.mul_le_mono; lia]). generalize dependent (1000 * 100)%nat. intros. nia. Qed.
Lemma beam_study s : configure beam_files beam_ext (fun _ _ => Ok 0) (lit "Study.XML") = (s, Ok tt) -> study beam_ext (fun _ _ => Ok 0) beam s.
Proof.
  intros E. rewrite configure_read in E by discriminate. destruct (config_reads beam_files beam_ext (fun _ _ => Ok 0) beam_text [] (lit "Study.XML") beam) as (s' & E' & S); [discriminate|reflexivity|exact (laid_out_blocks _ _ beam_laid_out)|exact beam_described|exact beam_acceptable|].
  assert (s' = s) as <- by congruence. exact S.
Qed.
Example C103_example : exists s new, rodeo beam_files (fun _ => true) beam_ext (fun _ _ => Ok 0) beam_data (fun x => x) (fun _ => []) (fun _ => beam_draws) 2 [lit "Study.XML"; lit "-v"] = Some (Some s, Exits 0) /\ length new = 2%nat /\ Forall (evaluated beam_ext (fun _ _ => Ok 0) beam) new /\
  offered (fun x => x) [[0; 0]; [1; small_y (1 / 10 ^ 12)]] (map (sample_of 0) new) (rows (file_at s 0)).
Proof.
  pose proof (fun k : nat => beam_draws_ok) as Hd. set (drs := fun _ : nat => beam_draws) in *.
  destruct (rodeo beam_files (fun _ => true) beam_ext (fun _ _ => Ok 0) beam_data (fun x => x) (fun _ => []) drs 2 [lit "Study.XML"; lit "-v"]) as [[y e]|] eqn:E.
  - destruct (program_end beam_files (fun _ => true) beam_ext (fun _ _ => Ok 0) beam_data (fun x => x) (fun _ => []) drs (lit "Study.XML") beam_text [] beam [lit "-v"] beam_xml eq_refl beam_laid_out beam_described beam_acceptable beam_runnable eq_refl Hd 2 y e E)
      as (s & s' & start & new & -> & EC & SU & H4 & H5 & H6 & H7 & H8 & H9).
    destruct H9 as [(-> & LN)|(NE & LN & [(i & EL & sx & sa & sb & o & EI & MI & ET & NO & _)|(x & _ & [F|(i & k & K & _)])])].
    + exists s', new. split; [reflexivity|]. split; [exact LN|]. split; [exact H6|]. apply (H8 0%nat beam_obj); [reflexivity|]. exists beam_table. repeat split; cbn; auto; lia.
    + exfalso. apply few in EL; [|exact LN]. destruct new; [|discriminate EL]. pose proof (beam_study s EC) as S. destruct (beam_training s sx sa 0 S MI EI) as (sb' & ET'). cbn [length] in ET. unfold drs in ET. rewrite ET' in ET. injection ET as _ <-. discriminate NO.
    + discriminate F.
    + destruct i; discriminate K.
  - exfalso. destruct (program_running beam_files (fun _ => true) beam_ext (fun _ _ => Ok 0) beam_data (fun x => x) (fun _ => []) drs (lit "Study.XML") beam_text [] beam [lit "-v"] beam_xml eq_refl beam_laid_out beam_described beam_acceptable beam_runnable eq_refl Hd 2 (le_n 2) E)
      as (s & i & new & sx & sa & sb & EC & S & EL & LN & MI & EI & ET). apply few in EL; [|exact LN]. destruct new; [|discriminate EL]. destruct (beam_training s sx sa 0 S MI EI) as (sb' & ET'). cbn [length] in ET. unfold drs in ET. rewrite ET' in ET. discriminate ET.
Qed.
Example C103_unwritable_example : exists s, rodeo beam_files (fun n => negb (str_eqb n (lit "dv.dat"))) beam_ext (fun _ _ => Ok 0) beam_data (fun x => x) (fun _ => []) (fun _ => beam_draws) 2 [lit "Study.XML"] = Some (Some s, Exits 1) /\ rows (file_at s 0) = [[0; 0]; [1; small_y (1 / 10 ^ 12)]].
Proof.
  destruct (C103_unwritable beam_files (fun n => negb (str_eqb n (lit "dv.dat"))) beam_ext (fun _ _ => Ok 0) beam_data (fun x => x) (fun _ => []) (fun _ => beam_draws) (lit "Study.XML") beam_text [] beam [] 2 beam_xml eq_refl beam_laid_out beam_described beam_acceptable beam_runnable eq_refl) as (s & E & _ & _ & F).
  exists s. split; [exact E|]. apply (F 0%nat beam_obj); [reflexivity|]. exists beam_table. repeat split; cbn; auto; lia.
Qed.
Example C103_derivatives_example : exists s, rodeo (fun _ => Some tangent_text) (fun _ => true) beam_ext (fun _ _ => Ok 0) beam_data (fun x => x) (fun _ => []) (fun _ => beam_draws) 9 [lit "a.xml"] = Some (Some s, Undefined).
Proof.
  destruct (C103_derivatives (fun _ => Some tangent_text) (fun _ => true) beam_ext (fun _ _ => Ok 0) beam_data (fun x => x) (fun _ => []) (fun _ => beam_draws) (lit "a.xml") tangent_text [] tangent_config []) with (fuel := 9%nat) as (s & E & _); eauto using tangent_laid_out, tangent_described, tangent_acceptable.
  - exists (lit "a"), (lit ".xml"). split; [reflexivity|]. apply same_word_lit; vm_compute; reflexivity.
  - now left.
Qed.
Example C103_refusals_example : rodeo beam_files (fun _ => true) beam_ext (fun _ _ => Ok 0) beam_data (fun x => x) (fun _ => []) (fun _ => beam_draws) 9 [lit "Study.txt"] = Some (None, Exits 1) /\
  rodeo beam_files (fun _ => true) beam_ext (fun _ _ => Ok 0) beam_data (fun x => x) (fun _ => []) (fun _ => beam_draws) 9 [lit "other.xml"] = Some (None, Exits 1).
Proof.
  split.
  - apply C103_wrong_name. { intros z I. repeat (destruct I as [<-|I]; [vm_compute; lia|]). destruct I. } intros H. apply xml_true in H. vm_compute in H. discriminate H.
  - apply C103_missing_file; [|reflexivity]. exists (lit "other"), (lit ".xml"). split; [reflexivity|]. apply same_word_lit; vm_compute; reflexivity.
Qed.
