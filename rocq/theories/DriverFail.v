(** What a reading that stops leaves behind, runs that stop at once, configurations determined by their texts. *)
From Coq Require Import Ascii String ZArith Bool Arith Reals Lra List Lia.
From Verif Require Import Base Num RealNum StM VecModel MatModel BoundsModel BoundsProofs DataProofs DesignModel HistModel KrigModel OptModel OptSpec OptReal OptStart OptTop StrModel StrSpec StrProofs KeyModel PropsStr ApiModel ApiProofs DriverModel DriverSpec DriverText DriverKeys DriverParts DriverProofs DriverRead DriverWhole DriverConfig DriverRun.
Import ListNotations.

(** *** what every step keeps *)
Definition keeps {S A} (P : S -> Prop) (m : SM S A) : Prop := forall s, P s -> P (fst (m s)).
Section Keeps.
  Context {S A B : Type} (P : S -> Prop).
  Lemma keeps_bind (m : SM S A) (k : A -> SM S B) : keeps P m -> (forall a, keeps P (k a)) -> keeps P (sbind m k).
  Proof. intros H1 H2 s Hs. unfold sbind. specialize (H1 s Hs). destruct (m s) as [s1 [a|e|]]; cbn in *; auto. now apply H2. Qed.
  Lemma keeps_lift (r : Res A) : keeps P (slift r). Proof. intros s Hs. exact Hs. Qed.
  Lemma keeps_ret (a : A) : keeps P (sret a). Proof. intros s Hs. exact Hs. Qed.
  Lemma keeps_get (f : S -> A) : keeps P (sget f). Proof. intros s Hs. exact Hs. Qed.
  Lemma keeps_if b e : keeps P (sthrow_if b e). Proof. intros s Hs. destruct b; exact Hs. Qed.
  Lemma keeps_assert b : keeps P (sassert b). Proof. intros s Hs. destruct b; exact Hs. Qed.
  Lemma keeps_when (b : bool) (m : SM S unit) : keeps P m -> keeps P (swhen b m). Proof. intros H s Hs. destruct b; [now apply H|exact Hs]. Qed.
  Lemma keeps_mod f : (forall s, P s -> P (f s)) -> keeps P (smod f). Proof. intros H s Hs. now apply H. Qed.
  Lemma keeps_for (l : list A) (f : A -> SM S unit) : (forall a, keeps P (f a)) -> keeps P (sfor l f).
  Proof. intros H. induction l as [|a l IH]; cbn [sfor]; [intros s Hs; exact Hs|]. intros s Hs. unfold sbind. specialize (H a s Hs). destruct (f a s) as [s1 [u|e|]]; cbn in *; auto. Qed.
End Keeps.
Section Stages.
  Context (files : str -> option str) (ext : odef -> ufun R) (udf : nat -> ufun R).
  Lemma keeps_opt {A} (P : driver R -> Prop) (m : SM (popt R) A) : (forall o s, P s -> P (w_d_opt o s)) -> keeps P (on_opt m).
  Proof. intros H s Hs. unfold on_opt, szoom. destruct (m (d_opt s)) as [o r]. cbn. now apply H. Qed.
  (** a property of the flag "configuration read" *)
  Section Flag.
    Context (P : driver R -> Prop).
    Definition untouched : Prop := (forall x s, P s -> P (w_d_gk x s)) /\ (forall x s, P s -> P (w_d_ok x s)) /\ (forall x s, P s -> P (w_d_ck x s)) /\ (forall x s, P s -> P (w_d_params x s)) /\
      (forall x s, P s -> P (w_d_box x s)) /\ (forall x s, P s -> P (w_d_iters x s)) /\ (forall x s, P s -> P (w_d_objf x s)) /\ (forall x s, P s -> P (w_d_conf x s)) /\ (forall x s, P s -> P (w_d_threads x s)) /\
      (forall x s, P s -> P (w_d_names x s)) /\ (forall x s, P s -> P (w_d_disc x s)) /\ (forall x s, P s -> P (w_d_opt x s)) /\ (forall x s, P s -> P (w_d_keysinit x s)) /\ (forall s, P s -> P (w_d_isopt true s)).
    Context (U : untouched).
    Ltac step := repeat first [ apply keeps_bind; [|intros ?] | apply keeps_lift | apply keeps_ret | apply keeps_get | apply keeps_if | apply keeps_assert | apply keeps_when | apply keeps_for; intros ? |
      apply keeps_opt; [apply U|..] | apply keeps_mod; intros ? ?; repeat (apply U); assumption ].
    Lemma keeps_keys sel put input : (forall x s, P s -> P (put x s)) -> keeps P (read_into sel put input).
    Proof. intros H s Hs. unfold read_into. destruct (read_keys input (sel s)) as [l r]. cbn. now apply H. Qed.
    Lemma keeps_general : keeps P (readGeneralSettings files).
    Proof. unfold readGeneralSettings, setStudyDimension, setStudyName, setStudyEvaluations, setStudyInner, setStudyThreads. step; try (apply keeps_keys; apply U); step. Qed.
    Lemma keeps_params : keeps P (readOptimizationParameters files).
    Proof. unfold readOptimizationParameters. step. match goal with |- context [is_empty ?x] => destruct (is_empty x) end; step. Qed.
    Lemma keeps_box : keeps P setDriverBox.
    Proof. unfold setDriverBox. step. match goal with |- context [bnds_setStd ?a ?b ?c] => destruct (bnds_setStd a b c) end. step. Qed.
    Lemma keeps_objective : keeps P (readObjectiveFunction files ext).
    Proof. unfold readObjectiveFunction. step; try (apply keeps_keys; apply U); step. Qed.
    Lemma keeps_constraint i t : keeps P (readConstraint ext udf i t).
    Proof. unfold readConstraint. step; try (apply keeps_keys; apply U); step. Qed.
    Lemma keeps_constraints l : forall i, keeps P (readConstraintsFrom ext udf i l).
    Proof. induction l as [|t l IH]; intros i; cbn [readConstraintsFrom]; [apply keeps_ret|]. apply keeps_bind; [apply keeps_constraint|]. intros _. apply IH. Qed.
    Lemma keeps_rest : keeps P (rest files ext udf).
    Proof.
      unfold rest. apply keeps_bind; [apply keeps_params|intros _]. apply keeps_bind; [apply keeps_box|intros _]. apply keeps_bind; [apply keeps_objective|intros _]. apply keeps_bind; [|intros _].
      { unfold readConstraintFunctions. apply keeps_bind; [apply keeps_get|]. intros s. apply keeps_constraints. }
      unfold setBoxes, setStudyNames, setStudyDiscrete. step.
    Qed.
  End Flag.
  Lemma unread_keep : untouched (fun s => d_isread s = false).
  Proof. repeat split; intros; assumption. Qed.
  (** the flag is set by a reading that succeeds and only then *)
  Lemma reading_flag s s' r : d_isread s = false -> readConfigurationFile files ext udf s = (s', r) -> (d_isread s' = true <-> r = Ok tt).
  Proof.
    intros I. unfold readConfigurationFile. fold setBoxes. fold (rest files ext udf). unfold sbind at 1. cbn [sget]. unfold sbind at 1. destruct (negb (d_fileset s)); cbn [sthrow_if].
    { intros [= <- <-]. rewrite I. split; discriminate. }
    unfold sret, sbind at 1, initializeKeywords, smod at 1.
    match goal with |- sbind _ _ ?x = _ -> _ => assert (J : d_isread x = false) by exact I; generalize dependent x end. clear s I. intros s J H.
    assert (G : forall (m : SM (driver R) unit), (forall s, d_isread s = false -> d_isread (fst (m s)) = false) -> d_isread s = false -> sbind m (fun _ => smod (w_d_isread true)) s = (s', r) -> (d_isread s' = true <-> r = Ok tt)).
    { intros m K I H'. unfold sbind in H'. specialize (K s I). destruct (m s) as [s1 [[]|e|]]; cbn in *; injection H' as <- <-; [split; reflexivity|rewrite K; split; discriminate|rewrite K; split; discriminate]. }
    apply (G (run readGeneralSettings files; get s <-- sget (fun s => s); swhen (d_isopt s) (rest files ext udf))); auto.
    { intros s0 I0. apply (keeps_bind (fun s => d_isread s = false)); [apply keeps_general, unread_keep| |exact I0]. intros _. apply keeps_bind; [apply keeps_get|]. intros s1. apply keeps_when. apply keeps_rest, unread_keep. }
    revert H. unfold sbind. destruct (readGeneralSettings files s) as [s1 [[]|e|]]; auto.
  Qed.
End Stages.

(** *** a text describes at most one configuration *)
Lemma section_unique t k a b : section t k a -> section t k b -> a = b.
Proof. intros A B. apply C58_extract in A. apply C58_extract in B. congruence. Qed.
Lemma Forall2_unique {A B} (P : A -> B -> Prop) l : (forall a b b', P a b -> P a b' -> b = b') -> forall m m', Forall2 P l m -> Forall2 P l m' -> m = m'.
Proof. intros H. induction l as [|a l IH]; intros m m' F F'; inversion F; inversion F'; subst; f_equal; eauto. Qed.
Lemma parameter_unique t q q' : describes_parameter t q -> describes_parameter t q' -> q = q'.
Proof.
  intros A B. apply readParameter_reads in A. apply readParameter_reads in B. destruct A as (p & E & A1 & A2 & A3 & A4 & A5). destruct B as (p' & E' & B1 & B2 & B3 & B4 & B5). assert (p' = p) by congruence. subst p'.
  destruct q, q'. cbn in *. congruence.
Qed.
Lemma objective_unique t d it d' it' : describes_objective t d it -> describes_objective t d' it' -> d = d' /\ it = it'.
Proof.
  intros A B. split.
  - apply describes_objective_iff in A. apply describes_objective_iff in B. destruct A as (_ & _ & A), B as (_ & _ & B). congruence.
  - destruct A as (_ & A & _), B as (_ & B & _). revert A B. apply int_value_unique. apply nolt_b. reflexivity.
Qed.
Lemma constraint_unique t c c' : describes_constraint t c -> describes_constraint t c' -> c = c'.
Proof. intros A B. assert (N : t <> []) by (destruct A as (N & _); exact N). apply constraint_part_iff in A; auto. apply constraint_part_iff in B; auto. destruct A as (_ & A), B as (_ & B). congruence. Qed.
Lemma describes_unique text blks c c' : describes text blks c -> describes text blks c' -> c = c'.
Proof.
  intros (gs & ps & os & pts & SG & SP & SO & RD & TY & VN & J1 & J2 & J3 & J4 & BP & FD & DO & FC) (gs' & ps' & os' & pts' & SG' & SP' & SO' & RD' & TY' & VN' & J1' & J2' & J3' & J4' & BP' & FD' & DO' & FC').
  destruct c as [name d N oi ot qs def it cs], c' as [name' d' N' oi' ot' qs' def' it' cs']. cbn [cf_name cf_dim cf_N cf_inner cf_threads cf_params cf_obj cf_iters cf_cons] in *.
  rewrite <- (section_unique _ _ _ _ SG SG') in *. rewrite <- (section_unique _ _ _ _ SP SP') in *. rewrite <- (section_unique _ _ _ _ SO SO') in *. apply C58_contents in BP. apply C58_contents in BP'. assert (pts' = pts) by congruence. subst pts'.
  destruct (objective_unique _ _ _ _ _ DO DO') as (<- & <-). rewrite <- (Forall2_unique _ _ constraint_unique _ _ FC FC'). rewrite <- (Forall2_unique _ _ parameter_unique _ _ FD FD'). rewrite <- (text_value_unique _ _ _ _ VN VN').
  assert (forall k o o', existsb (Ascii.eqb lt) (lit k) = false -> int_value gs k o -> int_value gs k o' -> o = o') as IU. { intros k o o' E. apply int_value_unique. now apply nolt_b. }
  pose proof (IU "dimension"%string _ _ eq_refl J1 J1') as X1. pose proof (IU "number_of_function_evaluations"%string _ _ eq_refl J2 J2') as X2. pose proof (IU "max_number_of_inner_iterations"%string _ _ eq_refl J3 J3') as X3. pose proof (IU "number_of_threads"%string _ _ eq_refl J4 J4') as X4.
  assert (d' = d) as -> by (apply Nat2Z.inj; congruence). assert (N' = N) as -> by (apply Nat2Z.inj; congruence). now rewrite X3, X4.
Qed.

(** *** blocks that are not laid out as usual *)
Lemma step_cons_acc st l : exists bs, snd (step_t st l) = snd st ++ bs.
Proof. destruct st as [[i c] a]. unfold step_t. destruct (contains _ l), (contains _ l); cbn; eauto using app_nil_r. all: try (eexists; reflexivity); exists []; now rewrite app_nil_r. Qed.
Lemma steps_acc ls : forall st, exists bs, snd (fold_left step_t ls st) = snd st ++ bs.
Proof.
  induction ls as [|l ls IH]; intros st; cbn [fold_left]; [exists []; now rewrite app_nil_r|]. destruct (IH (step_t st l)) as (b1 & E1). destruct (step_cons_acc st l) as (b2 & E2). exists (b2 ++ b1). now rewrite E1, E2, app_assoc.
Qed.
Lemma one_line_empty text ls l : text_lines text ls -> In l ls -> has con_open (trim_line l) -> has con_close (trim_line l) -> In [] (constraintBlocks text).
Proof.
  intros T I O C. apply text_lines_fun in T. subst ls. unfold constraintBlocks. rewrite fold_steps. apply (in_map trim_line) in I. apply in_split in I. destruct I as (a & b & E). rewrite E. rewrite fold_left_app. cbn [fold_left].
  destruct (fold_left step_t a (false, [], [])) as [[i c] acc]. apply contains_has in O, C. assert (step_t (i, c, acc) (trim_line l) = (false, [], acc ++ [[]])) as ->. { unfold step_t. now rewrite O, C. }
  destruct (steps_acc b (false, [], acc ++ [[]])) as (bs & ->). cbn [snd]. rewrite !in_app_iff. left. right. now left.
Qed.
Lemma unclosed_dropped text ls ts bs o body : text_lines text ls -> Forall2 trimmed ls (ts ++ o :: body) -> con_blocks ts bs -> has con_open o -> absent con_close o -> Forall neither body -> constraintBlocks text = bs.
Proof.
  intros T F B O C N. rewrite (lines_fold _ _ _ T F). rewrite fold_left_app. destruct (con_blocks_fold _ _ B [] []) as (c' & E). cbn [app] in E. replace (fold_left step_t ts (false, [], [])) with (false, c', bs) by (symmetry; exact E). cbn [fold_left]. apply contains_has in O. apply contains_absent in C. unfold step_t at 2. rewrite O, C. now rewrite (step_body _ N).
Qed.

(** *** a second reading *)
Section Again.
  Context (files : str -> option str) (ext : odef -> ufun R) (udf : nat -> ufun R) (text : str).
  Lemma config_form f s' : f <> [] -> files f = Some text -> readConfigurationFile files ext udf (started f) = (s', Ok tt) -> d_isopt s' = true ->
    exists gs name d N oi ot l, section text "general_settings" gs /\ general_ok gs name d N oi ot /\ length l = d /\ d_params s' = l /\ d_fname s' = f /\ d_fileset s' = true /\ d_isread s' = true /\
      exists ps pts, section text "optimization_parameters" ps /\ blocks (lit "parameter") ps pts /\ Forall2 (fun t p => readParameter t = Ok p) pts l.
  Proof.
    intros NF FT H IO. apply read_form in H. destruct H as (s1 & H1 & s2 & H2 & ->). change (d_isopt (w_d_isread true s2)) with (d_isopt s2) in IO. destruct (d_isopt s1) eqn:I1.
    2:{ injection H2 as <-. congruence. }
    apply (general_inv files text) in H1; [|split; assumption|reflexivity|reflexivity|exact I1]. destruct H1 as (gs & name & d & N & oi & ot & o & SG & G & EO & ->).
    pose proof (general_before files text f gs name d N oi ot o NF FT G EO) as B. apply (rest_inv files ext udf text _ _ _ _ _ _ _ B eq_refl) in H2. destruct H2 as (l & os & def & it & cs & RO & ->).
    destruct RO as ((ps & pts & SP & BP & FP) & L & _). exists gs, name, d, N, oi, ot, l. split; [exact SG|]. split; [exact G|]. split; [exact L|]. split; [reflexivity|]. split; [reflexivity|]. split; [reflexivity|]. split; [reflexivity|]. eauto.
  Qed.
  Lemma read_again f s s' r : f <> [] -> files f = Some text -> readConfigurationFile files ext udf (started f) = (s, Ok tt) -> d_isopt s = true -> readConfigurationFile files ext udf s = (s', r) ->
    r = Throw InvalidArgument /\ d_isread s' = true /\ d_isopt s' = true.
  Proof.
    intros NF FT H IO H2. destruct (config_form _ _ NF FT H IO) as (gs & name & d & N & oi & ot & l & SG & G & L & P & F & FS & IR & ps & pts & SP & BP & FP). clear H.
    unfold readConfigurationFile in H2. fold setBoxes in H2. fold (rest files ext udf) in H2. unfold sbind at 1 in H2. cbn [sget] in H2. rewrite FS in H2. cbn [negb] in H2. unfold sbind at 1 in H2. cbn [sthrow_if] in H2. unfold sret, sbind at 1, initializeKeywords, smod at 1 in H2.
    match type of H2 with sbind _ _ ?x = _ => set (s1 := x) in H2; assert (A1 : d_fname s1 = f) by exact F; assert (A2 : d_gk s1 = new_keys general_keys) by reflexivity; assert (A3 : d_params s1 = l) by exact P; assert (A4 : d_isread s1 = true) by exact IR; clearbody s1 end. clear s P F FS IR IO.
    assert (RF : reads_from files text s1). { split; rewrite A1; assumption. }
    pose proof G as (RD & (ty & VT & SW) & VN & I1 & I2 & I3 & I4 & D0 & N0 & T0). pose proof (setDimension_fst d (d_opt s1) D0) as EO.
    pose proof (general_reads files text s1 gs name d N oi ot _ RF A2 SG G EO) as ER. set (o := fst _) in ER. unfold sbind at 1 in H2. rewrite ER in H2.
    assert (NE : gs <> []) by (apply (gs_nonempty gs ty (lit "optimization") VT SW); discriminate).
    assert (FK : Forall (fun p => kres gs p = Ok tt) general_keys).
    { apply general_keys_read; [exact NE|]. split; [|repeat split; eauto]. apply readable_of. repeat constructor; eauto. apply RD. apply in_b. reflexivity. }
    assert (KD : key_int (gkeys gs) "dimension" = Ok (Z.of_nat d)). { apply dim_key; [apply in_b; reflexivity|exact FK|]. exists (Some (Z.of_nat d)). auto. }
    assert (exists s2, Gst gs name N oi ot o s1 = s2 /\ d_isopt s2 = true /\ d_isread s2 = true /\ d_params s2 = l /\ d_gk s2 = gkeys gs /\ reads_from files text s2) as (s2 & E2 & B1 & B2 & B3 & B4 & B5).
    { eexists. split; [reflexivity|]. split; [reflexivity|]. split; [exact A4|]. split; [exact A3|]. split; [reflexivity|]. exact RF. }
    rewrite E2 in H2. clear E2 ER. unfold sbind at 1 in H2. cbn [sget] in H2. rewrite B1 in H2. cbn [swhen] in H2.
    unfold rest in H2. unfold sbind at 1 2 in H2.
    pose proof (proj2 (params_iff files text s2 (w_d_params (d_params s2 ++ l) s2) B5)) as EP. rewrite EP in H2 by (exists ps, pts, l; auto). unfold sbind at 1 in H2.
    assert (setDriverBox (w_d_params (d_params s2 ++ l) s2) = (w_d_params (d_params s2 ++ l) s2, Throw InvalidArgument)) as EB.
    { unfold setDriverBox. rewrite get_b. cbn [d_gk w_d_params d_params]. rewrite B4. destruct (gkeys gs) as [|k0 kt] eqn:EK; [discriminate EK|]. cbn [is_empty]. rewrite <- EK in *. unfold sbind at 1. cbn [sthrow_if]. unfold sret. unfold sbind at 1. rewrite KD. cbn [slift]. unfold sbind at 1. rewrite B3.
      destruct (Z.eqb_spec (Z.of_nat d) (Z.of_nat (length (l ++ l)))) as [X|X]; [exfalso; rewrite app_length in X; lia|]. reflexivity. }
    rewrite EB in H2. injection H2 as <- <-. auto.
  Qed.
End Again.

(** *** runs that stop at once *)
Lemma startRun_fails c r s : 0 < c_dim c -> (forall i, i < c_dim c -> (nth i (c_lb c) 0 < nth i (c_ub c) 0)%R) -> c_boxset c = true -> c_objset c = true -> c_N c <> 0 -> r <> Ok tt ->
  exists s', startRun c r s = (s', r) /\ s_evals s' = s_evals s /\ s_pts s' = s_pts s.
Proof.
  intros Hd Hb Box Hobj HN Hr.
  unfold startRun. rewrite Hobj, Box. cbn [negb sthrow_if]. do 2 rewrite (sbind_ok _ _ _ s tt) by reflexivity.
  assert (settingsOk c s = (s, Ok tt)) as E1.
  { unfold settingsOk. destruct (Nat.eqb_spec (c_N c) 0) as [|?]; [lia|]. cbn [sthrow_if]. rewrite (sbind_ok _ _ _ s tt) by reflexivity.
    assert (existsb (fun i => nleb (vget (c_ub c) i) (vget (c_lb c) i)) (seq 0 (c_dim c)) = false) as ->; [|reflexivity].
    destruct (existsb _ _) eqn:E; auto. apply existsb_exists in E as (i & Hi & Q). apply in_seq in Hi. cbn in Q. apply Rleb_true in Q. unfold vget in Q. cbn in Q. specialize (Hb i ltac:(lia)). lra. }
  rewrite (sbind_ok _ _ _ s tt E1). set (s1 := fst (initSettings c s)).
  assert (initSettings c s = (s1, Ok tt) /\ s_evals s1 = s_evals s /\ s_pts s1 = s_pts s) as (E2 & A & B).
  { unfold s1, initSettings. destruct (Nat.eqb_spec (c_dim c) 0) as [|?]; [lia|]. cbn [sthrow_if]. rewrite (sbind_ok _ _ _ s tt) by reflexivity. unfold smod. repeat split. }
  rewrite (sbind_ok _ _ _ s1 tt E2). exists s1. destruct r as [[]|e|]; [congruence| |]; split; auto.
Qed.
Section Unbound.
  Context (ext : odef -> ufun R) (udf : nat -> ufun R) (data : str -> option (mat R)) (c : config) (s : driver R) (HS : study ext udf c s) (HA : acceptable c).
  Lemma stopped_run r es fuel ini : driver_ini data s ini = r -> r <> Ok tt -> exists st, driver_run fuel data ini es s = Some (w_d_opt (w_p_st st (d_opt s)) s, r) /\ s_evals st = 0 /\ s_pts st = [].
  Proof.
    intros E Hr. destruct (cfg_is ext udf data c s HS) as (C1 & C2 & C3 & C4 & C5 & C6 & C7 & C8 & C9 & C10). pose proof HA as (D0 & N0 & DL & FB & _). rewrite Forall_forall in FB.
    destruct (startRun_fails (driver_cfg data s) r (p_st (d_opt s))) as (st & ES & A & B); auto; try congruence. { rewrite C1. lia. }
    { intros i Hi. rewrite C1, DL in Hi. rewrite C2, C3. destruct (nth_error (cf_params c) i) as [p|] eqn:Ep; [|apply nth_error_None in Ep; lia]. destruct (nth_lo c i p Ep) as (-> & ->). apply FB. eapply nth_error_In; eauto. }
    destruct HS as (I1 & I2 & _ & _ & _ & _ & _ & (O1 & O2 & O3 & O4 & O5 & O6 & O7 & O8 & O9 & U) & _).
    exists st. split; [|split]. { unfold driver_run. rewrite I1, I2. cbn [negb]. rewrite E. unfold ego. rewrite ES. destruct r as [[]|e|]; [congruence|reflexivity|reflexivity]. }
    { rewrite A. apply U. } { rewrite B. apply U. }
  Qed.
  Lemma objective_unbound ini : bound (od_model (cf_obj c)) = false -> driver_ini data s ini = UB.
  Proof.
    intros H. destruct HS as (_ & _ & _ & _ & E1 & E2 & E3 & (O1 & O2 & O3 & O4 & O5 & O6 & O7 & O8 & O9 & _) & _). pose proof HA as (D0 & _). unfold driver_ini. rewrite O5, E2. unfold driver_surrogate at 1. cbn [f_box f_dim f_file df_def].
    destruct (Nat.eqb_spec (cf_dim c) 0) as [|_]; [contradiction|]. now rewrite H.
  Qed.
  Lemma constraint_unbound ini k : In k (cf_cons c) -> cs_user k = false -> bound (od_model (cs_def k)) = false -> driver_ini data s ini = UB \/ driver_ini data s ini = Throw RuntimeError.
  Proof.
    intros I U H. destruct HS as (_ & _ & _ & _ & E1 & E2 & E3 & (O1 & O2 & O3 & O4 & O5 & O6 & O7 & O8 & O9 & _) & _). pose proof HA as (D0 & _). unfold driver_ini. rewrite O5, E2, O6, E3.
    assert (Q : forall f m, driver_surrogate data f m = Ok tt \/ driver_surrogate data f m = UB \/ driver_surrogate data f m = Throw RuntimeError).
    { intros f m. unfold driver_surrogate. destruct (f_box f); [|auto]. destruct (Nat.eqb _ 0); [auto|]. destruct (negb (bound m)); [auto|]. destruct (data _); auto. }
    match goal with |- context [driver_surrogate data ?f ?m] => destruct (Q f m) as [->|[->| ->]] end; cbn [bind]; auto.
    assert (forall j, driver_surrogates data (combine (cons_of ext udf (cbox c) (cf_dim c) j (cf_cons c)) (map (dfun_of (iters_of default_iters (cf_iters c))) (cf_cons c))) = UB \/
      driver_surrogates data (combine (cons_of ext udf (cbox c) (cf_dim c) j (cf_cons c)) (map (dfun_of (iters_of default_iters (cf_iters c))) (cf_cons c))) = Throw RuntimeError) as G.
    { clear E1 E2 E3 O1 O2 O3 O4 O5 O6 O7 O8 O9. induction (cf_cons c) as [|k' l IH]; [destruct I|]. intros j. cbn [cons_of map combine driver_surrogates df_user dfun_of]. destruct I as [->|I].
      - rewrite U. unfold driver_surrogate, con_of. cbn [k_f f_box f_dim f_file df_def dfun_of]. destruct (Nat.eqb_spec (cf_dim c) 0) as [|_]; [contradiction|]. rewrite H. cbn [negb bind]. auto.
      - destruct (IH I (S j)) as [G|G]; destruct (cs_user k'); cbn [bind]; auto; match goal with |- context [driver_surrogate data ?f ?m] => destruct (Q f m) as [->|[->| ->]] end; cbn [bind]; auto. }
    destruct (G 0) as [->| ->]; cbn [bind]; auto.
  Qed.
End Unbound.
