(** C82-C87, C89, C90: studies described by configuration files. *)
From Coq Require Import Ascii String ZArith Bool Arith Reals Lra List Lia.
From Verif Require Import Base StM Num RealNum VecModel MatModel MatSpec BoundsModel DesignModel HistModel HistSpec KrigModel OptModel OptSpec OptReal OptRun OptRunReal OptStart OptTop.
From Verif Require Import StrModel StrProofs PropsStr ApiModel ApiProofs ApiReal StrSpec DriverModel DriverSpec DriverText DriverKeys DriverParts DriverProofs DriverRead DriverWhole DriverConfig DriverRun DriverFail DriverDemo.
Import ListNotations.
Local Open Scope R_scope.

(** the way a study is configured: a new driver, the name of the file, the reading *)
Definition configure (files : str -> option str) (ext : odef -> ufun R) (udf : nat -> ufun R) (f : str) : driver R * Res unit :=
  (run setConfigFileName f; readConfigurationFile files ext udf) driver_new.
Lemma configure_read files ext udf f : f <> [] -> configure files ext udf f = readConfigurationFile files ext udf (started f).
Proof. intros N. unfold configure, setConfigFileName. destruct f; [congruence|]. reflexivity. Qed.

(** ** C82: the study is the one the file describes *)
(** a number given as an int and kept as an unsigned int of 32 bits, or a default *)
Definition unsigned_or (default : Z) (o : option Z) (n : nat) : Prop := Z.of_nat n = match o with Some z => (z mod 2 ^ 32)%Z | None => default end.
Definition set_up (ext : odef -> ufun R) (udf : nat -> ufun R) (c : config) (s : driver R) : Prop :=
  let o := d_opt s in
  p_dim o = cf_dim c /\ p_N o = cf_N c /\ p_lo o = map ps_lb (cf_params c) /\ p_up o = map ps_ub (cf_params c) /\ d_names s = map ps_name (cf_params c) /\
  (forall i dx, In (i, dx) (d_disc s) <-> exists p, nth_error (cf_params c) i = Some p /\ ps_discrete p = true /\ dx = ps_inc p) /\
  unsigned_or 1 (cf_threads c) (d_threads s) /\ unsigned_or (Z.of_nat (cf_dim c) * 10000) (cf_inner c) (p_inner o) /\
  (exists f i, p_obj o = Some f /\ f_name f = od_name (cf_obj c) /\ f_file f = od_train (cf_obj c) /\ f_fun f = ext (cf_obj c) /\
     d_objf s = Some (mkDF (cf_obj c) i false) /\ unsigned_or 10000 (cf_iters c) i) /\
  length (p_cons o) = length (cf_cons c) /\
  forall j k, nth_error (cf_cons c) j = Some k -> exists f i, nth_error (p_cons o) j = Some (mkC j (cs_gt k) (cs_value k) f) /\ f_name f = od_name (cs_def k) /\ f_file f = od_train (cs_def k) /\
    f_fun f = (if cs_user k then udf j else ext (cs_def k)) /\ nth_error (d_conf s) j = Some (mkDF (cs_def k) i (cs_user k)).
Lemma unsigned_iters dz d o : Z.of_nat d = dz -> unsigned_or dz o (iters_of d o).
Proof. intros <-. unfold unsigned_or, iters_of. destruct o as [z|]; auto. unfold wrap32. rewrite Z2Nat.id; auto. apply Z.mod_pos_bound. lia. Qed.
Lemma cons_of_nth ext udf b d l : forall i j k, nth_error l j = Some k -> nth_error (cons_of ext udf b d i l) j = Some (con_of ext udf b d (i + j) k).
Proof. induction l as [|k' l IH]; intros i [|j] k E; cbn in E |- *; try discriminate E. { injection E as <-. now rewrite Nat.add_0_r. } rewrite (IH (S i) j k E). now rewrite Nat.add_succ_r. Qed.
Lemma cons_of_len ext udf b d l : forall i, length (cons_of ext udf b d i l) = length l.
Proof. induction l as [|k l IH]; intros i; cbn; auto. Qed.
Lemma ten_thousand : Z.of_nat (100 * 100) = 10000%Z.
Proof. reflexivity. Qed.
Lemma study_set_up ext udf c s : study ext udf c s -> set_up ext udf c s.
Proof.
  intros (I1 & I2 & T & NM & DI & OB & CO & (O1 & O2 & O3 & O4 & O5 & O6 & _) & P1 & P2 & _). unfold set_up. cbn zeta. rewrite O5, O6, OB, CO, NM, DI, T, O4, cons_of_len.
  split; [exact O2|]. split; [exact O3|]. split; [exact P1|]. split; [exact P2|]. split; [reflexivity|]. split; [intros i dx; apply disc_in|]. split; [now apply unsigned_iters|]. split. { apply unsigned_iters. rewrite Nat2Z.inj_mul. now rewrite ten_thousand. }
  split. { eexists _, _. split; [reflexivity|]. cbn [f_name f_file f_fun]. repeat (split; [reflexivity|]). apply unsigned_iters. apply ten_thousand. }
  split; [reflexivity|]. intros j k E. eexists _, (iters_of default_iters (cf_iters c)). split. { rewrite (cons_of_nth _ _ _ _ _ _ _ _ E). cbn [Nat.add]. reflexivity. }
  cbn [f_name f_file f_fun]. repeat (split; [reflexivity|]). rewrite (map_nth_error _ _ _ E). reflexivity.
Qed.

Section Files.
  Context (files : str -> option str) (ext : odef -> ufun R) (udf : nat -> ufun R) (f text : str) (blks : list str).
  Context (Nf : f <> []) (Ef : files f = Some text).

  Theorem C82_read c : laid_out text blks -> describes text blks c -> acceptable c ->
    exists s, configure files ext udf f = (s, Ok tt) /\ d_isopt s = true /\ set_up ext udf c s.
  Proof.
    intros L D A. rewrite configure_read by exact Nf. destruct (config_reads files ext udf text blks f c Nf Ef (laid_out_blocks _ _ L) D A) as (s & E & S). exists s. split; [exact E|]. split; [apply S|now apply study_set_up].
  Qed.
  Theorem C82_only s : laid_out text blks -> configure files ext udf f = (s, Ok tt) -> d_isopt s = true ->
    exists c, describes text blks c /\ acceptable c /\ set_up ext udf c s.
  Proof.
    intros L E I. rewrite configure_read in E by exact Nf. destruct (config_inv files ext udf text blks f s Nf Ef (laid_out_blocks _ _ L) E I) as (c & D & A & S). exists c. split; [exact D|]. split; [exact A|now apply study_set_up].
  Qed.
  Theorem C82_one c c' : laid_out text blks -> describes text blks c -> forall blks', laid_out text blks' -> describes text blks' c' -> c = c'.
  Proof.
    intros L D blks' L' D'. assert (blks' = blks) by (apply laid_out_blocks in L, L'; congruence). subst blks'. exact (describes_unique _ _ _ _ D D').
  Qed.
End Files.

(** ** C83: constraint blocks *)
(** a file with an opening and a closing tag of a constraint on one line is never read as an optimisation *)
Theorem C83_one_line files ext udf f text ls l s : f <> [] -> files f = Some text -> text_lines text ls -> In l ls -> (forall t, trimmed l t -> has con_open t /\ has con_close t) ->
  configure files ext udf f = (s, Ok tt) -> d_isopt s = false.
Proof.
  intros Nf Ef T I H E. destruct (d_isopt s) eqn:IO; auto. exfalso. rewrite configure_read in E by exact Nf. destruct (config_inv files ext udf text _ f s Nf Ef eq_refl E IO) as (c & (gs & ps & os & pts & _ & _ & _ & _ & _ & _ & _ & _ & _ & _ & _ & _ & _ & FC) & _).
  destruct (trimmed_total l) as (t & Ht). destruct (H t Ht) as (O & C). rewrite (trimmed_fun _ _ Ht) in O, C. pose proof (one_line_empty text ls l T I O C) as IE. destruct (in_split _ _ IE) as (a & b & EQ). rewrite EQ in FC. apply Forall2_app_inv_l in FC. destruct FC as (c1 & c2 & _ & F2 & _).
  inversion F2 as [|? k ? ? DK _]; subst. destruct DK as (N & _). now apply N.
Qed.
(** a block without its closing tag at the end of the file is not part of the study: the study is read as if it were not there *)
Theorem C83_unclosed files ext udf f text ls ts bs o body c : f <> [] -> files f = Some text ->
  text_lines text ls -> Forall2 trimmed ls (ts ++ o :: body) -> con_blocks ts bs -> has con_open o -> absent con_close o -> Forall neither body ->
  describes text bs c -> acceptable c ->
  exists s, configure files ext udf f = (s, Ok tt) /\ d_isopt s = true /\ set_up ext udf c s.
Proof.
  intros Nf Ef T F B O C N D A. rewrite configure_read by exact Nf. destruct (config_reads files ext udf text bs f c Nf Ef (unclosed_dropped _ _ _ _ _ _ T F B O C N) D A) as (s & E & S). exists s. split; [exact E|]. split; [apply S|now apply study_set_up].
Qed.

(** the blocks of a file: every block the layout shows, in order *)
Theorem C83_blocks text bs : laid_out text bs -> constraintBlocks text = bs.
Proof. exact (laid_out_blocks text bs). Qed.
(** what stands between the tags is not always what is read: a value on the line of the closing tag is lost and the file is refused *)
Theorem C83_closing_line_refuted : exists text c k, section text "constraint_function" c /\ describes_constraint c k /\
  forall files ext udf f s, f <> [] -> files f = Some text -> configure files ext udf f = (s, Ok tt) -> d_isopt s = false.
Proof.
  exists last_line_text, (sec_in last_line_text "constraint_function"), last_line_c. split; [exact last_line_section|]. split; [exact last_line_described|]. intros files ext udf f s Nf Ef E. destruct (d_isopt s) eqn:IO; auto. exfalso.
  rewrite configure_read in E by exact Nf. assert (constraintBlocks last_line_text = [last_line_block]) as CB by (vm_compute; reflexivity). destruct (config_inv files ext udf _ _ f s Nf Ef CB E IO) as (c & (gs & ps & os & pts & _ & _ & _ & _ & _ & _ & _ & _ & _ & _ & _ & _ & _ & FC) & _).
  inversion FC as [|? k ? ? DK _]; subst. destruct DK as (_ & _ & _ & _ & _ & _ & (t & (V & N) & _) & _). assert (getString last_line_block (lit "constraint_value") = Ok t) as G by (apply string_iff; [apply nolt_b; reflexivity|exact V]). assert (Ok t = Ok []) as X by (rewrite <- G; vm_compute; reflexivity). injection X as X. now apply N.
Qed.
(** a file that opens a constraint and never closes it gives a study without it *)
Theorem C83_unclosed_refuted : exists text ls l, text_lines text ls /\ In l ls /\ has con_open l /\
  forall files ext udf f, f <> [] -> files f = Some text -> exists s, configure files ext udf f = (s, Ok tt) /\ d_isopt s = true /\ p_cons (d_opt s) = [].
Proof.
  destruct (lines_calc unclosed_text) as (ls & T & F). exists unclosed_text, ls, con_open. split; [exact T|]. split. { rewrite (text_lines_fun _ _ T). assert (In con_open (map lit demo_g)) as I by (left; reflexivity). replace (lines_of unclosed_text) with (map lit (demo_head ++ demo_g)) by (vm_compute; reflexivity). rewrite map_app, in_app_iff. now right. }
  split; [apply contains_has; vm_compute; reflexivity|]. intros files ext udf f Nf Ef.
  destruct (C83_unclosed files ext udf f unclosed_text ls (map lit demo_head ++ []) [] con_open (map lit (tl demo_g)) bare_config Nf Ef T) as (s & E & I & S).
  - replace ((map lit demo_head ++ []) ++ con_open :: map lit (tl demo_g)) with (map trim_line (lines_of unclosed_text)) by (vm_compute; reflexivity). exact F.
  - apply skip_many; [apply neither_calc; vm_compute; reflexivity|constructor].
  - apply contains_has. vm_compute. reflexivity.
  - apply contains_absent. vm_compute. reflexivity.
  - apply neither_calc. vm_compute. reflexivity.
  - exact unclosed_described.
  - exact bare_acceptable.
  - exists s. split; [exact E|]. split; [exact I|]. destruct S as (_ & _ & _ & _ & _ & _ & _ & _ & _ & LC & _). cbn in LC. now apply length_zero_iff_nil in LC.
Qed.

(** ** C84: only a study that was read can be run *)
Theorem C84_refused files ext udf f s r fuel data ini es : configure files ext udf f = (s, r) -> r <> Ok tt \/ d_isopt s = false -> driver_run fuel data ini es s = Some (s, Throw RuntimeError).
Proof.
  intros E H. unfold driver_run. destruct (d_isopt s) eqn:I; [|reflexivity]. cbn [negb]. destruct H as [H|H]; [|discriminate]. assert (d_isread s = false) as ->; [|reflexivity].
  destruct f as [|a f]. { cbn in E. injection E as <- <-. reflexivity. } rewrite configure_read in E by discriminate.
  destruct (reading_flag files ext udf (started (a :: f)) s r eq_refl E) as (K & _). destruct (d_isread s); auto. destruct (H (K eq_refl)).
Qed.
(** no file, no name *)
Lemma no_file files (s : driver R) : d_fname s <> [] -> files (d_fname s) = None -> readGeneralSettings files s = (s, Throw RuntimeError).
Proof. intros N H. unfold readGeneralSettings, segment. rewrite get_b. unfold sbind at 1. destruct (d_fname s) as [|a t]; [congruence|]. cbn [is_empty]. now rewrite H. Qed.
Theorem C84_missing files ext udf f s r : configure files ext udf f = (s, r) -> f = [] \/ files f = None -> r = Throw InvalidArgument \/ r = Throw RuntimeError.
Proof.
  intros E H. destruct f as [|a f]. { cbn in E. injection E as _ <-. now left. } destruct H as [H|H]; [discriminate|]. right. rewrite configure_read in E by discriminate.
  assert (F1 : d_fileset (started (a :: f)) = true) by reflexivity. assert (F2 : d_fname (started (a :: f)) = a :: f) by reflexivity. destruct (started (a :: f)) as [x1 x2 x3 x4 x5 x6 x7 x8 x9 x10 x11 x12 x13 x14 x15 x16 x17]. cbn in F1, F2. subst x1 x5.
  unfold readConfigurationFile in E. rewrite get_b in E. unfold sbind at 1 in E. cbn [sthrow_if d_fileset negb sret] in E. unfold initializeKeywords in E. rewrite mod_b in E. unfold sbind at 1 in E. rewrite no_file in E; [|discriminate|exact H]. now injection E as _ <-.
Qed.
(** another type of problem: the rest of the file is not looked at, the reading succeeds, nothing can be run *)
Lemma not_opt fuel data ini es (s : driver R) : d_isopt s = false -> driver_run fuel data ini es s = Some (s, Throw RuntimeError).
Proof. intros E. unfold driver_run. now rewrite E. Qed.
Lemma str_eqb_iff a b : str_eqb a b = true -> a = b.
Proof. revert b. induction a as [|x a IH]; intros [|y b] H; cbn in H; try discriminate H; auto. apply andb_true_iff in H. destruct H as (H1 & H2). apply Ascii.eqb_eq in H1. subst. f_equal. auto. Qed.
Lemma general_other files text gs ty (s : driver R) : reads_from files text s -> d_gk s = new_keys general_keys -> d_isopt s = false -> section text "general_settings" gs -> gs <> [] ->
  readable gs ["display"; "name"]%string -> (forall k, In k ["dimension"; "number_of_function_evaluations"; "max_number_of_inner_iterations"; "number_of_threads"]%string -> exists o, int_value gs k o) ->
  text_value gs "type" ty -> ty <> [] -> ~ same_word ty (lit "optimization") -> readGeneralSettings files s = (w_d_gk (gkeys gs) s, Ok tt).
Proof.
  intros RF GK IO SG NE RD INT VT NT NS. 
  assert (FK : Forall (fun p => kres gs p = Ok tt) general_keys).
  { apply general_keys_read; [exact NE|]. split. { apply readable_of. constructor; [apply RD; apply in_b; reflexivity|]. constructor; [eauto|]. constructor; [apply RD; apply in_b; reflexivity|constructor]. } repeat split; apply INT; apply in_b; reflexivity. }
  unfold readGeneralSettings. rewrite get_b. unfold sbind at 1. rewrite (proj2 (segment_iff files text s "general_settings" gs RF) SG). cbn [slift]. unfold sbind at 1, read_into. rewrite GK. destruct (read_keys gs (new_keys general_keys)) as [l r] eqn:E.
  assert (l = gkeys gs /\ r = Ok tt) as (-> & ->). { pose proof (proj2 (read_keys_iff gs general_keys (gkeys gs)) (conj eq_refl FK)) as E2. rewrite E2 in E. now injection E as <- <-. }
  rewrite get_b. cbn [d_gk w_d_gk]. unfold sbind at 1. rewrite (proj2 (general_keys_type gs ty FK) (conj VT NT)). cbn [slift]. pose proof (string_plain _ _ _ VT) as PT. unfold sbind at 1.
  rewrite isEqual_lit; [|exact PT|reflexivity|discriminate]. cbn [slift].
  assert (str_eqb (map lower ty) (map lower (lit "optimization")) = false) as ->. { destruct (str_eqb _ _) eqn:Q; auto. destruct NS. apply same_word_lit; [reflexivity|]. apply str_eqb_iff in Q. exact Q. }
  cbn [swhen]. unfold sbind at 1, sret. rewrite get_b. change (d_isopt (w_d_gk (gkeys gs) s)) with (d_isopt s). rewrite IO. reflexivity.
Qed.
Theorem C84_other_type files ext udf f text gs ty : f <> [] -> files f = Some text -> section text "general_settings" gs ->
  readable gs ["display"; "name"]%string -> (forall k, In k ["dimension"; "number_of_function_evaluations"; "max_number_of_inner_iterations"; "number_of_threads"]%string -> exists o, int_value gs k o) ->
  text_value gs "type" ty -> ty <> [] -> ~ same_word ty (lit "optimization") ->
  exists s, configure files ext udf f = (s, Ok tt) /\ forall fuel data ini es, driver_run fuel data ini es s = Some (s, Throw RuntimeError).
Proof.
  intros Nf Ef SG RD INT VT NT NS. assert (NE : gs <> []). { intros ->. apply NT. exact (text_value_nil _ _ VT). }
  exists (w_d_isread true (w_d_gk (gkeys gs) (keyed f))). split; [|intros; apply not_opt; reflexivity]. rewrite configure_read by exact Nf. apply read_form. exists (w_d_gk (gkeys gs) (keyed f)). split; [|exists (w_d_gk (gkeys gs) (keyed f)); split; reflexivity].
  apply (general_other files text gs ty); auto. split; assumption.
Qed.
Example C84_other_type_example : exists text, forall files ext udf f, f <> [] -> files f = Some text -> exists s, configure files ext udf f = (s, Ok tt) /\ forall fuel data ini es, driver_run fuel data ini es s = Some (s, Throw RuntimeError).
Proof.
  exists (lit "<general_settings> <type>doe</type> </general_settings>"). intros files ext udf f Nf Ef. apply (C84_other_type files ext udf f _ (lit " <type>doe</type> ") (lit "doe") Nf Ef).
  - apply section_calc. vm_compute. reflexivity. - rdb.
  - intros k I. exists None. cbn in I. repeat (destruct I as [<-|I]; [apply (int_calc _ _ (-10000000)%Z); [reflexivity|vm_compute; reflexivity]|]). destruct I.
  - txt. - discriminate. - intros H. apply same_word_lit in H; [vm_compute in H; discriminate H|reflexivity].
Qed.
(** reading the file a second time fails: the parameters are read a second time without removing those of the first reading *)
Theorem C84_second_reading_fails files ext udf f text s s' r : f <> [] -> files f = Some text -> configure files ext udf f = (s, Ok tt) -> d_isopt s = true -> readConfigurationFile files ext udf s = (s', r) ->
  r = Throw InvalidArgument /\ d_isread s' = true /\ d_isopt s' = true.
Proof. intros Nf Ef E I E2. rewrite configure_read in E by exact Nf. exact (read_again files ext udf text f s s' r Nf Ef E I E2). Qed.

(** ** C85: the name of the study *)
(** a name in the file is not used *)
Theorem C85_name files ext udf f text blks c s : f <> [] -> files f = Some text -> laid_out text blks -> describes text blks c -> acceptable c -> configure files ext udf f = (s, Ok tt) ->
  p_name (d_opt s) = if is_empty (cf_name c) then [] else lit "OptimizationStudy".
Proof.
  intros Nf Ef L D A E. rewrite configure_read in E by exact Nf. destruct (config_reads files ext udf text blks f c Nf Ef (laid_out_blocks _ _ L) D A) as (s' & E' & S). assert (s' = s) by congruence. subst s'. destruct S as (_ & _ & _ & _ & _ & _ & _ & (O & _) & _). exact O.
Qed.

Theorem C85_name_refuted : exists text blks c, laid_out text blks /\ describes text blks c /\ acceptable c /\ cf_name c = lit "wing" /\
  forall files ext udf f s, f <> [] -> files f = Some text -> configure files ext udf f = (s, Ok tt) -> p_name (d_opt s) = lit "OptimizationStudy".
Proof.
  exists demo_text, demo_blocks, demo_config. split; [exact demo_laid_out|]. split; [exact demo_described|]. split; [exact demo_acceptable|]. split; [reflexivity|]. intros files ext udf f s Nf Ef E.
  exact (C85_name files ext udf f demo_text demo_blocks demo_config s Nf Ef demo_laid_out demo_described demo_acceptable E).
Qed.

(** ** C86: training iterations *)
(** of a constraint: those of the objective *)
Theorem C86_constraint_iterations files ext udf f text blks c s : f <> [] -> files f = Some text -> laid_out text blks -> describes text blks c -> acceptable c -> configure files ext udf f = (s, Ok tt) ->
  forall j k, nth_error (d_conf s) j = Some k -> unsigned_or 10000 (cf_iters c) (df_iters k).
Proof.
  intros Nf Ef L D A E j k K. rewrite configure_read in E by exact Nf. destruct (config_reads files ext udf text blks f c Nf Ef (laid_out_blocks _ _ L) D A) as (s' & E' & S). assert (s' = s) by congruence. subst s'. destruct S as (_ & _ & _ & _ & _ & _ & CO & _).
  rewrite CO in K. apply nth_error_In in K. apply in_map_iff in K. destruct K as (q & <- & _). cbn [df_iters dfun_of]. apply unsigned_iters. apply ten_thousand.
Qed.

(** the number a constraint asks for is not used *)
Theorem C86_own_iterations_refuted : exists text blks c b, laid_out text blks /\ describes text blks c /\ acceptable c /\ nth_error blks 0 = Some b /\ int_value b "number_of_training_iterations" (Some 300%Z) /\
  forall files ext udf f s, f <> [] -> files f = Some text -> configure files ext udf f = (s, Ok tt) -> exists k, nth_error (d_conf s) 0 = Some k /\ df_iters k = 700%nat.
Proof.
  exists demo_text, demo_blocks, demo_config, (text_of demo_g). split; [exact demo_laid_out|]. split; [exact demo_described|]. split; [exact demo_acceptable|]. split; [reflexivity|]. split. { apply (int_calc _ _ 300%Z); [reflexivity|vm_compute; reflexivity]. }
  intros files ext udf f s Nf Ef E. pose proof (C86_constraint_iterations files ext udf f demo_text demo_blocks demo_config s Nf Ef demo_laid_out demo_described demo_acceptable E) as H.
  destruct (C82_read files ext udf f demo_text demo_blocks Nf Ef demo_config demo_laid_out demo_described demo_acceptable) as (s' & E' & _ & S). assert (s' = s) by congruence. subst s'. destruct S as (_ & _ & _ & _ & _ & _ & _ & _ & _ & _ & S).
  destruct (S 0%nat demo_cg eq_refl) as (g & i & _ & _ & _ & _ & K). exists (mkDF (cs_def demo_cg) i (cs_user demo_cg)). split; [exact K|]. specialize (H _ _ K). unfold unsigned_or in H. cbn in H |- *. lia.
Qed.

(** ** C87: parameters *)
(** a bound that is missing is taken to be 1e-13 *)
Theorem C87_missing_bound t p : describes_parameter t p -> (looks_up (lit "lower_bound") t Missing -> ps_lb p = / 10 ^ 13) /\ (looks_up (lit "upper_bound") t Missing -> ps_ub p = / 10 ^ 13).
Proof.
  intros (_ & _ & _ & L & U & _). split; intros M.
  - apply (number_value_unique t "lower_bound"); [apply nolt_b; reflexivity|exact L|left; auto].
  - apply (number_value_unique t "upper_bound"); [apply nolt_b; reflexivity|exact U|left; auto].
Qed.
Theorem C87_missing_bound_refuted : exists t p, looks_up (lit "lower_bound") t Missing /\ describes_parameter t p /\ ps_lb p = / 10 ^ 13.
Proof. exists no_lower_text, (mkPS (lit "x") false (/ 10 ^ 13) 5 0). split; [apply missing_calc; vm_compute; reflexivity|]. split; [exact no_lower_described|reflexivity]. Qed.
(** as many parameters as dimensions, different names, bounds in order *)
Theorem C87_parameters files ext udf f text blks s : f <> [] -> files f = Some text -> laid_out text blks -> configure files ext udf f = (s, Ok tt) -> d_isopt s = true ->
  length (d_names s) = p_dim (d_opt s) /\ NoDup (d_names s) /\ Forall (fun n => n <> []) (d_names s) /\ length (p_lo (d_opt s)) = p_dim (d_opt s) /\ length (p_up (d_opt s)) = p_dim (d_opt s) /\
  (forall i, (i < p_dim (d_opt s))%nat -> nth i (p_lo (d_opt s)) 0 < nth i (p_up (d_opt s)) 0) /\
  (forall i dx, In (i, dx) (d_disc s) -> (i < p_dim (d_opt s))%nat /\ 0 < dx <= nth i (p_up (d_opt s)) 0 - nth i (p_lo (d_opt s)) 0).
Proof.
  intros Nf Ef L E I. destruct (C82_only files ext udf f text blks Nf Ef s L E I) as (c & D & (D0 & N0 & DL & FB & ND & _) & (E1 & E2 & E3 & E4 & E5 & E6 & _)). rewrite E1, E3, E4, E5, !map_length.
  destruct D as (gs & ps & os & pts & _ & _ & _ & _ & _ & _ & _ & _ & _ & _ & _ & FD & _).
  assert (DP : forall p, In p (cf_params c) -> exists t, describes_parameter t p). { intros p Ip. clear -FD Ip. induction FD as [|t q pts qs H F IH]; [destruct Ip|]. destruct Ip as [<-|Ip]; eauto. }
  split; [auto|]. split; [exact ND|]. split. { apply Forall_forall. intros n In_. apply in_map_iff in In_. destruct In_ as (p & <- & Ip). destruct (DP p Ip) as (t & _ & N & _). exact N. } split; [auto|]. split; [auto|].
  assert (NL : forall i p, nth_error (cf_params c) i = Some p -> nth i (map ps_lb (cf_params c)) 0 = ps_lb p /\ nth i (map ps_ub (cf_params c)) 0 = ps_ub p). { intros i p Ep. split; apply nth_error_nth; now apply map_nth_error. }
  split.
  - intros i Hi. destruct (nth_error (cf_params c) i) as [p|] eqn:Ep; [|apply nth_error_None in Ep; lia]. destruct (NL i p Ep) as (-> & ->). rewrite Forall_forall in FB. apply FB. eapply nth_error_In; eauto.
  - intros i dx J. apply E6 in J. destruct J as (p & Ep & Dp & ->). destruct (NL i p Ep) as (-> & ->). split. { rewrite DL. apply nth_error_Some. congruence. }
    destruct (DP p (nth_error_In _ _ Ep)) as (t & _ & _ & _ & _ & _ & _ & x & _ & H). rewrite Dp in H. destruct H as (-> & H). exact H.
Qed.

(** ** C89: a whole study *)
Definition constraint_value (ext : odef -> ufun R) (udf : nat -> ufun R) (i : nat) (k : cspec) : ufun R := if cs_user k then udf i else ext (cs_def k).
Definition grid_point (p : pspec) (x : R) : Prop := ps_discrete p = true -> grid (ps_lb p) (ps_ub p) (ps_inc p) x.
(** one evaluated design *)
Definition evaluated (ext : odef -> ufun R) (udf : nat -> ufun R) (c : config) (o : outcome) : Prop :=
  in_box (map ps_lb (cf_params c)) (map ps_ub (cf_params c)) (o_x o) /\ (forall i p, nth_error (cf_params c) i = Some p -> grid_point p (nth i (o_x o) 0)) /\
  ext (cf_obj c) (o_x o) = Ok (o_f o) /\ length (o_vs o) = length (cf_cons c) /\
  (forall i k, nth_error (cf_cons c) i = Some k -> constraint_value ext udf i k (o_x o) = Ok (nth i (o_vs o) 0)) /\
  (o_fe o = true <-> forall i k, nth_error (cf_cons c) i = Some k -> if cs_gt k then nth i (o_vs o) 0 > cs_value k else nth i (o_vs o) 0 < cs_value k).
Theorem C89_study files ext udf f text blks c data es fuel : f <> [] -> files f = Some text -> laid_out text blks -> describes text blks c -> acceptable c ->
  (forall p, In p (cf_params c) -> ps_discrete p = true -> (ps_ub p - ps_lb p) / ps_inc p < 2 ^ 32 - 1) ->
  bound (od_model (cf_obj c)) = true -> table_good (cf_dim c) data (od_train (cf_obj c)) ->
  (forall k, In k (cf_cons c) -> cs_user k = false -> bound (od_model (cs_def k)) = true /\ table_good (cf_dim c) data (od_train (cs_def k))) ->
  NoDup (map (fun k => od_name (cs_def k)) (cf_cons c)) ->
  (forall x, in_box (map ps_lb (cf_params c)) (map ps_ub (cf_params c)) x -> isOk (ext (cf_obj c) x) = true /\ forall i k, nth_error (cf_cons c) i = Some k -> isOk (constraint_value ext udf i k x) = true) ->
  (forall r i k, In r (rows (data_of data (od_train (cf_obj c)))) -> nth_error (cf_cons c) i = Some k -> cs_user k = true -> isOk (udf i (firstn (cf_dim c) r)) = true) ->
  surrogates_ok es -> (cf_N c <= fuel)%nat ->
  exists s, configure files ext udf f = (s, Ok tt) /\ exists s' os start, driver_run fuel data (Ok tt) es s = Some (s', Ok tt) /\
    let st := p_st (d_opt s') in let rs := rows (h_data (s_hist st)) in
    s_evals st = cf_N c /\ length os = cf_N c /\ s_pts st = map o_x os /\ rs = start ++ map outcome_row os /\
    Forall2 (start_row (driver_cfg data s)) (rows (data_of data (od_train (cf_obj c)))) start /\
    Forall (evaluated ext udf c) os /\
    exists fe i, reports (cf_dim c) (length (cf_cons c)) (box_of (map ps_lb (cf_params c)) (map ps_ub (cf_params c))) rs i fe (go_d (s_gopt st)) /\
      if fe : bool then best_feasible (cf_dim c) rs i else (forall j, ~ candidate (cf_dim c) rs j) /\ best_any (cf_dim c) rs i.
Proof.
  intros Nf Ef L D A Hi Hb Ht Hc Hn Hf Hu Hes Hfuel. rewrite configure_read by exact Nf. destruct (config_reads files ext udf text blks f c Nf Ef (laid_out_blocks _ _ L) D A) as (s & E & S). exists s. split; [exact E|].
  assert (Hi' : forall p, In p (cf_params c) -> ps_discrete p = true -> 0 < ps_inc p /\ (ps_ub p - ps_lb p) / ps_inc p < 2 ^ 32 - 1).
  { intros p Ip Dp. split; [|now apply Hi]. destruct D as (gs & ps & os & pts & _ & _ & _ & _ & _ & _ & _ & _ & _ & _ & _ & FD & _). assert (exists t, describes_parameter t p) as (t & _ & _ & _ & _ & _ & _ & x & _ & H). { clear -FD Ip. induction FD as [|t q pts qs H F IH]; [destruct Ip|]. destruct Ip as [<-|Ip]; eauto. } rewrite Dp in H. lra. }
  destruct (run_ok ext udf data c s S A Hi' Hb Ht Hc Hn) with (es := es) (fuel := fuel) as (st & os & start & R & G1 & G2 & G3 & G4 & G5 & G6 & G7); auto.
  exists (w_d_opt (w_p_st st (d_opt s)) s), os, start. split; [exact R|]. cbn zeta. cbn [d_opt w_d_opt p_st w_p_st]. split; [exact G1|]. split; [exact G2|]. split; [exact G3|]. split; [exact G4|]. split; [exact G5|]. split; [|exact G7].
  eapply Forall_impl; [|exact G6]. intros o (H1 & H2 & H3 & H4 & H5 & H6). split; [exact H1|]. split; [intros i p Ep Dp; exact (H2 i p Ep Dp)|]. split; [exact H3|]. split; [exact H4|]. split; [exact H5|exact H6].
Qed.

(** ** C90: kinds of surrogate models *)
Definition has_gradients (m : smodel) : Prop := m = MTangent \/ m = MGradient.
Lemma gradients_unbound m : has_gradients m -> bound m = false.
Proof. now intros [-> | ->]. Qed.
(** a study whose objective asks for a model with derivatives is read without complaint; running it uses a pointer that was never set *)
Theorem C90_objective files ext udf f text blks c s fuel data ini es : f <> [] -> files f = Some text -> laid_out text blks -> describes text blks c -> acceptable c -> has_gradients (od_model (cf_obj c)) ->
  configure files ext udf f = (s, Ok tt) -> exists s', driver_run fuel data ini es s = Some (s', UB) /\ s_evals (p_st (d_opt s')) = 0%nat.
Proof.
  intros Nf Ef L D A G E. rewrite configure_read in E by exact Nf. destruct (config_reads files ext udf text blks f c Nf Ef (laid_out_blocks _ _ L) D A) as (s' & E' & S). assert (s' = s) by congruence. subst s'.
  destruct (stopped_run ext udf data c s S A UB es fuel ini) as (st & R & Z & _); [apply (objective_unbound ext udf data c s S A); now apply gradients_unbound|discriminate|]. eexists. split; [exact R|exact Z].
Qed.
(** the same for a constraint that is not a linked function *)
Theorem C90_constraint files ext udf f text blks c s k fuel data ini es : f <> [] -> files f = Some text -> laid_out text blks -> describes text blks c -> acceptable c -> In k (cf_cons c) -> cs_user k = false -> has_gradients (od_model (cs_def k)) ->
  configure files ext udf f = (s, Ok tt) -> exists s' r, driver_run fuel data ini es s = Some (s', r) /\ (r = UB \/ r = Throw RuntimeError) /\ s_evals (p_st (d_opt s')) = 0%nat.
Proof.
  intros Nf Ef L D A I U G E. rewrite configure_read in E by exact Nf. destruct (config_reads files ext udf text blks f c Nf Ef (laid_out_blocks _ _ L) D A) as (s' & E' & S). assert (s' = s) by congruence. subst s'.
  pose proof (constraint_unbound ext udf data c s S A ini k I U (gradients_unbound _ G)) as H.
  destruct (stopped_run ext udf data c s S A _ es fuel ini eq_refl) as (st & R & Z & _); [destruct H as [-> | ->]; discriminate|]. eexists _, _. split; [exact R|]. split; [exact H|exact Z].
Qed.

(** ** examples *)
Definition demo_file (n : str) : option str := if str_eqb n (lit "study.xml") then Some demo_text else None.
Definition demo_ext : odef -> ufun R := fun _ x => Ok (nth 0 x 0).
Definition demo_udf : nat -> ufun R := fun _ x => Ok (nth 1 x 0).
Definition demo_table : mat R := mkMat 1 3 [1 / 2; 1 / 2; 1].
Definition demo_data (n : str) : option (mat R) := if (str_eqb n (lit "f.csv") || str_eqb n (lit "g.csv"))%bool then Some demo_table else None.
Definition demo_env : env R := mkEnv (Ok tt) (fun _ _ _ => 0) (fun _ _ _ => 0) (fun _ _ => 0) (fun _ _ => 0) [] [] (fun _ => Ok 0) (Ok tt) None.
Lemma demo_file_read : demo_file (lit "study.xml") = Some demo_text.
Proof. reflexivity. Qed.
Example C82_example : exists s, configure demo_file demo_ext demo_udf (lit "study.xml") = (s, Ok tt) /\ p_dim (d_opt s) = 2%nat /\ p_up (d_opt s) = [1; 2] /\ d_disc s = [(1%nat, 1 / 2)] /\ length (p_cons (d_opt s)) = 2%nat.
Proof.
  destruct (config_reads demo_file demo_ext demo_udf demo_text demo_blocks (lit "study.xml") demo_config) as (s & E & S); [discriminate|exact demo_file_read|exact (laid_out_blocks _ _ demo_laid_out)|exact demo_described|exact demo_acceptable|].
  exists s. split; [rewrite configure_read by discriminate; exact E|]. pose proof (study_set_up _ _ _ _ S) as (H1 & _ & _ & H4 & _ & _ & _ & _ & _ & H10 & _). destruct S as (_ & _ & _ & _ & DI & _). split; [exact H1|]. split; [exact H4|]. split; [exact DI|exact H10].
Qed.
(** the study of the example, from the file to the end of the run *)
Example C89_example : exists s, configure demo_file demo_ext demo_udf (lit "study.xml") = (s, Ok tt) /\ exists s' os, driver_run 5 demo_data (Ok tt) (fun _ => demo_env) s = Some (s', Ok tt) /\ length os = 5%nat /\ Forall (evaluated demo_ext demo_udf demo_config) os.
Proof.
  destruct (C89_study demo_file demo_ext demo_udf (lit "study.xml") demo_text demo_blocks demo_config demo_data (fun _ => demo_env) 5) as (s & E & s' & os & start & R & _ & L & _ & _ & _ & F & _);
    [discriminate|exact demo_file_read|exact demo_laid_out|exact demo_described|exact demo_acceptable|..].
  - intros p [<-|[<-|[]]]; cbn; intros D; [discriminate D|]. lra.
  - reflexivity.
  - exists demo_table. split; [reflexivity|]. repeat split; cbn; lia.
  - intros k [<-|[<-|[]]] U; [|discriminate U]. split; [reflexivity|]. exists demo_table. split; [reflexivity|]. repeat split; cbn; lia.
  - repeat constructor; cbn; intuition discriminate.
  - intros x _. split; [reflexivity|]. intros i k _. unfold constraint_value. destruct (cs_user k); reflexivity.
  - reflexivity.
  - intros k. cbn. split; auto. split; auto. split; intros; lra.
  - cbn. lia.
  - exists s. split; [exact E|]. exists s', os. auto.
Qed.
Example C90_example : exists s, configure (fun _ => Some tangent_text) demo_ext demo_udf (lit "study.xml") = (s, Ok tt) /\ forall fuel data ini es, exists s', driver_run fuel data ini es s = Some (s', UB).
Proof.
  assert (N : lit "study.xml" <> []) by discriminate. destruct (C82_read (fun _ => Some tangent_text) demo_ext demo_udf (lit "study.xml") tangent_text [] N eq_refl tangent_config tangent_laid_out tangent_described tangent_acceptable) as (s & E & _).
  exists s. split; [exact E|]. intros fuel data ini es. destruct (C90_objective _ _ _ _ _ _ _ _ fuel data ini es N eq_refl tangent_laid_out tangent_described tangent_acceptable (or_introl eq_refl) E) as (s' & R & _). exists s'. exact R.
Qed.

Print Assumptions C82_read.
Print Assumptions C82_only.
Print Assumptions C82_one.
Print Assumptions C83_one_line.
Print Assumptions C83_unclosed_refuted.
Print Assumptions C84_refused.
Print Assumptions C84_second_reading_fails.
Print Assumptions C86_own_iterations_refuted.
Print Assumptions C87_parameters.
Print Assumptions C89_study.
Print Assumptions C90_constraint.
