(** A tester object completes at most one test of its model. *)
From Coq Require Import Ascii String ZArith Bool Arith Permutation Reals Lra List Lia.
From Verif Require Import Base StM Num RealNum RSpec VecModel MatModel MatLemmas MatSpec VecProofs VecReal MatProofs MatProofs2 LuProofs StrModel StrSpec StrReal ExtModel ExtProofs BoundsModel CorrModel CorrSpec DataModel DataSpec DataProofs DataReal
  KrigModel KrigSpec KrigMath KrigProofs KrigProofs2 KrigProofs3 KrigProg KrigProofs4 KrigProofs5 PropsData PropsStat EaModel TrainModel TrainReal CsvModel CsvSpec CsvProofs PropsCsv RunFileModel RunFileSpec RunFileText TesterModel TesterSpec TesterFrame TesterProofs TesterProofs2 TesterProofs3 TesterProofs4 TesterProofs5.
Import ListNotations.
Local Open Scope R_scope.

Notation world := (tstate R * files)%type.
Definition hk (w : world) : list str := g_header (v_krigtest (fst w)).
Definition hl (w : world) : list str := g_header (v_lintest (fst w)).
(** steps that leave the files and the names of the columns alone *)
Definition quiet {A} (m : SM world A) : Prop := forall w, snd (fst (m w)) = snd w /\ hk (fst (m w)) = hk w /\ hl (fst (m w)) = hl w.
Lemma q_bind {A B} (m : SM world A) (k : A -> SM world B) : quiet m -> (forall a, quiet (k a)) -> quiet (sbind m k).
Proof. intros H1 H2 w. unfold sbind. specialize (H1 w). destruct (m w) as [w1 [a|e|]]; auto. specialize (H2 a w1). cbn [fst] in *. destruct H1 as (<- & <- & <-). exact H2. Qed.
Lemma q_sret {A} (a : A) : quiet (sret a). Proof. intros w. auto. Qed.
Lemma q_get {A} (f : world -> A) : quiet (sget f). Proof. intros w. auto. Qed.
Lemma q_lift {A} (r : Res A) : quiet (slift r). Proof. intros w. auto. Qed.
Lemma q_when b (m : SM world unit) : quiet m -> quiet (swhen b m). Proof. destruct b; auto. intros _. apply q_sret. Qed.
Lemma q_rethrow {A} e (m : SM world A) : quiet m -> quiet (srethrow e m). Proof. intros H w. unfold srethrow. specialize (H w). destruct (m w) as [w1 [a|[]|]]; auto. Qed.
Lemma q_krig {A} (m : SM (trainer R) A) : quiet (on_krig m). Proof. intros w. unfold on_krig, szoom. destruct (m _). auto. Qed.
Lemma q_lin {A} (m : SM (lmodel R) A) : quiet (on_lin m). Proof. intros w. unfold on_lin, szoom. destruct (m _). auto. Qed.
Lemma read_same (name : str) b fs : fst (mat_readFromCSV (T := R) name b fs) = fs.
Proof. unfold mat_readFromCSV, sbind, sget, slift. destruct (fs name); auto. Qed.
Lemma vread_same (name : str) fs : fst (vec_readFromCSV (T := R) name fs) = fs.
Proof. unfold vec_readFromCSV, sbind, sget, slift. destruct (fs name); auto. Qed.
Lemma q_files {A} (m : SM files A) : (forall fs, fst (m fs) = fs) -> quiet (on_files m).
Proof. intros H w. unfold on_files, szoom. specialize (H (snd w)). destruct (m (snd w)) as [fs r]. cbn in *. auto. Qed.
Lemma try_header pred dim (s : sdata R) var g : g_header (fst (try_test pred dim s var g)) = g_header g.
Proof. unfold try_test, sbind, sget, slift, smod. destruct (test_table _ _ _ _ _); auto. destruct (test_error _ _ _); auto. Qed.
Lemma q_trykrig pred dim s var : quiet (on_krigtest (on_tested (try_test pred dim s var))).
Proof. intros w. unfold on_krigtest, on_tested, szoom. cbn [fst snd]. pose proof (try_header pred dim s var (v_krigtest (fst w))). destruct (try_test _ _ _ _ _). cbn in *. auto. Qed.
Lemma q_trylin pred dim s var : quiet (on_lintest (on_tested (try_test pred dim s var))).
Proof. intros w. unfold on_lintest, on_tested, szoom. cbn [fst snd]. pose proof (try_header pred dim s var (v_lintest (fst w))). destruct (try_test _ _ _ _ _). cbn in *. auto. Qed.
Lemma q_markk : quiet (on_krigtest mark_norm). Proof. intros w. auto. Qed.
Lemma q_markl : quiet (on_lintest mark_norm). Proof. intros w. auto. Qed.
Ltac quiets := repeat (lazymatch goal with
  | |- quiet (sbind _ _) => apply q_bind; [|intro]
  | |- quiet (sret _) => apply q_sret | |- quiet (sget _) => apply q_get | |- quiet (slift _) => apply q_lift
  | |- quiet (swhen _ _) => apply q_when | |- quiet (srethrow _ _) => apply q_rethrow
  | |- quiet (on_krig _) => apply q_krig | |- quiet (on_lin _) => apply q_lin
  | |- quiet (on_files (mat_readFromCSV _ _)) => apply q_files; apply read_same
  | |- quiet (on_files (vec_readFromCSV _)) => apply q_files; apply vread_same
  | |- quiet (on_krigtest mark_norm) => apply q_markk | |- quiet (on_lintest mark_norm) => apply q_markl
  | |- quiet (on_krigtest (on_tested (try_test _ _ _ _))) => apply q_trykrig | |- quiet (on_lintest (on_tested (try_test _ _ _ _))) => apply q_trylin end).
Section One.
  Context (writable : str -> bool) (fixed : nat -> R -> str) (W : writable results_file = true).
  (** what a test does when names of columns are there already *)
  Definition never (h : world -> list str) {A} (m : SM world (option A)) : Prop := forall w, h w <> [] ->
    h (fst (m w)) <> [] /\ (forall e, snd (m w) <> Ok (Some e)) /\ (forall f, f <> results_file -> snd (fst (m w)) f = snd w f) /\
    (snd (fst (m w)) results_file = snd w results_file \/ snd (fst (m w)) results_file = Some []).
  Definition same (h : world -> list str) : Prop := h = hk \/ h = hl.
  Lemma n_bind {A B} h (m : SM world A) (k : A -> SM world (option B)) : same h -> quiet m -> (forall a, never h (k a)) -> never h (sbind m k).
  Proof.
    intros SH H1 H2 w Hw. unfold sbind. specialize (H1 w). destruct (m w) as [w1 [a|e|]]; cbn [fst snd] in *; destruct H1 as (E1 & E2 & E3).
    - assert (h w1 = h w) as Eh by (destruct SH as [-> | ->]; auto). specialize (H2 a w1). rewrite Eh in H2. specialize (H2 Hw). rewrite E1 in H2. exact H2.
    - assert (h w1 = h w) as Eh by (destruct SH as [-> | ->]; auto). rewrite Eh, E1. split; auto. split. discriminate. auto.
    - assert (h w1 = h w) as Eh by (destruct SH as [-> | ->]; auto). rewrite Eh, E1. split; auto. split. discriminate. auto.
  Qed.
  Lemma n_none {A} h : never h (sret (@None A)).
  Proof. intros w Hw. cbn. split; auto. split. discriminate. auto. Qed.
  Lemma try_columns pred dim (s : sdata R) var g g' : try_test pred dim s var g = (g', Ok tt) -> ncols (g_results g') = test_columns s var.
  Proof.
    unfold try_test, sbind, sget, slift, smod. destruct (test_table _ _ _ _ _) as [[m es]|e|] eqn:E; try discriminate. destruct (test_error _ _ _); try discriminate. intros H. injection H as <-. cbn. eapply table_columns; eauto.
  Qed.
  Lemma n_krig {A} pred dim (s : sdata R) var (k : unit -> SM world (option A)) :
    never hk (run on_krigtest (on_tested (try_test pred dim s var)); sbind (on_krigtest (save_test writable fixed s var)) k).
  Proof.
    intros [[l lt t g] fs] Hw. unfold hk in Hw. cbn [fst v_krigtest] in Hw. unfold sbind, on_krigtest, on_tested, szoom. cbn [fst snd v_krigtest v_lin v_lintest v_krig]. pose proof (try_header pred dim s var g) as TH.
    destruct (try_test pred dim s var g) as [g1 [[]|e|]] eqn:E; cbn [fst snd] in *.
    - cbn [fst snd v_krigtest v_lin v_lintest v_krig]. destruct (save_test writable fixed s var (g1, fs)) as [w r] eqn:ES. destruct (save_again writable fixed W s var g1 fs w r) as (-> & H1 & H2 & H3); auto.
      { rewrite TH; auto. } { eapply try_columns; eauto. } cbn [fst snd]. split; [exact H1|]. split; [intros e; cbn; discriminate|]. auto.
    - unfold hk. cbn. rewrite TH. split; auto. split; [intros e1; cbn; discriminate|]. auto.
    - unfold hk. cbn. rewrite TH. split; auto. split; [intros e1; cbn; discriminate|]. auto.
  Qed.
  Lemma n_lin {A} pred dim (s : sdata R) var (k : unit -> SM world (option A)) :
    never hl (run on_lintest (on_tested (try_test pred dim s var)); sbind (on_lintest (save_test writable fixed s var)) k).
  Proof.
    intros [[l lt t g] fs] Hw. unfold hl in Hw. cbn [fst v_lintest] in Hw. unfold sbind, on_lintest, on_tested, szoom. cbn [fst snd v_krigtest v_lin v_lintest v_krig]. pose proof (try_header pred dim s var lt) as TH.
    destruct (try_test pred dim s var lt) as [g1 [[]|e|]] eqn:E; cbn [fst snd] in *.
    - cbn [fst snd v_krigtest v_lin v_lintest v_krig]. destruct (save_test writable fixed s var (g1, fs)) as [w r] eqn:ES. destruct (save_again writable fixed W s var g1 fs w r) as (-> & H1 & H2 & H3); auto.
      { rewrite TH; auto. } { eapply try_columns; eauto. } cbn [fst snd]. split; [exact H1|]. split; [intros e; cbn; discriminate|]. auto.
    - unfold hl. cbn. rewrite TH. split; auto. split; [intros e1; cbn; discriminate|]. auto.
    - unfold hl. cbn. rewrite TH. split; auto. split; [intros e1; cbn; discriminate|]. auto.
  Qed.
  Lemma krig_never h perm us ws : never hk (test_krig writable fixed h perm us ws).
  Proof.
    unfold test_krig. do 14 (apply n_bind; [left; reflexivity|quiets|intro]).
    match goal with |- never _ (match ?x with _ => _ end) => destruct x; [|apply n_none] end. apply n_bind; [left; reflexivity|quiets|intro]. apply n_krig.
  Qed.
  Lemma linear_never h perm : never hl (test_linear writable fixed h perm).
  Proof.
    unfold test_linear. do 11 (apply n_bind; [right; reflexivity|quiets|intro]). apply n_bind; [right; reflexivity|quiets|intro]. apply n_lin.
  Qed.
End One.

(** *** completed tests leave names of columns, and these stay *)
Section Stay.
  Context (writable : str -> bool) (fixed : nat -> R -> str).
  Definition grow {A} (m : SM world A) : Prop := forall w, (hk w <> [] -> hk (fst (m w)) <> []) /\ (hl w <> [] -> hl (fst (m w)) <> []).
  Lemma quiet_grow {A} (m : SM world A) : quiet m -> grow m. Proof. intros H w. destruct (H w) as (_ & -> & ->). auto. Qed.
  Lemma g_bind {A B} (m : SM world A) (k : A -> SM world B) : grow m -> (forall a, grow (k a)) -> grow (sbind m k).
  Proof. intros H1 H2 w. unfold sbind. specialize (H1 w). destruct (m w) as [w1 [a|e|]]; cbn [fst] in *; auto. specialize (H2 a w1). tauto. Qed.
  Lemma save_grow (s : sdata R) var g fs : g_header (fst (fst (save_test writable fixed s var (g, fs)))) <> [].
  Proof.
    unfold save_test, sbind, smod, sget, szoom. cbn [fst snd g_header g_results]. destruct (mat_saveAsCSV _ _ _ _ _ _ _) as [fs' [[]|e|]]; cbn; unfold header_names; intros H; apply (f_equal (@length _)) in H; rewrite !app_length in H; cbn in H; lia.
  Qed.
  Lemma g_savek s var : grow (on_krigtest (save_test writable fixed s var)).
  Proof. intros w. unfold on_krigtest, szoom. pose proof (save_grow s var (v_krigtest (fst w)) (snd w)) as H. destruct (save_test _ _ _ _ _). cbn in *. auto. Qed.
  Lemma g_savel s var : grow (on_lintest (save_test writable fixed s var)).
  Proof. intros w. unfold on_lintest, szoom. pose proof (save_grow s var (v_lintest (fst w)) (snd w)) as H. destruct (save_test _ _ _ _ _). cbn in *. auto. Qed.
  Lemma g_none {A} : grow (sret (@None A)). Proof. intros w. auto. Qed.
  Lemma krig_grow h perm us ws : grow (test_krig writable fixed h perm us ws).
  Proof.
    unfold test_krig. do 14 (apply g_bind; [apply quiet_grow; quiets|intro]).
    match goal with |- grow (match ?x with _ => _ end) => destruct x; [|apply g_none] end. do 2 (apply g_bind; [apply quiet_grow; quiets|intro]). apply g_bind; [apply g_savek|intro]. apply quiet_grow; quiets.
  Qed.
  Lemma linear_grow h perm : grow (test_linear writable fixed h perm).
  Proof. unfold test_linear. do 13 (apply g_bind; [apply quiet_grow; quiets|intro]). apply g_bind; [apply g_savel|intro]. apply quiet_grow; quiets. Qed.
  (** a test that completes has written the names *)
  Definition done (h : world -> list str) {A} (m : SM world (option A)) : Prop := forall w w' e, m w = (w', Ok (Some e)) -> h w' <> [].
  Lemma d_bind {A B} h (m : SM world A) (k : A -> SM world (option B)) : (forall a, done h (k a)) -> done h (sbind m k).
  Proof. intros H w w' e E. apply TrainReal.sbind_inv in E. destruct E as (w1 & a & _ & E). eapply H; eauto. Qed.
  Lemma d_savek {A} s var (k : unit -> SM world (option A)) : (forall a, quiet (k a)) -> done hk (sbind (on_krigtest (save_test writable fixed s var)) k).
  Proof.
    intros H w w' e E. apply TrainReal.sbind_inv in E. destruct E as (w1 & a & E1 & E). specialize (H a w1). rewrite E in H. cbn in H. destruct H as (_ & -> & _).
    pose proof (save_grow s var (v_krigtest (fst w)) (snd w)) as Q. unfold on_krigtest, szoom in E1. destruct (save_test _ _ _ _ _). injection E1 as <- _. exact Q.
  Qed.
  Lemma d_savel {A} s var (k : unit -> SM world (option A)) : (forall a, quiet (k a)) -> done hl (sbind (on_lintest (save_test writable fixed s var)) k).
  Proof.
    intros H w w' e E. apply TrainReal.sbind_inv in E. destruct E as (w1 & a & E1 & E). specialize (H a w1). rewrite E in H. cbn in H. destruct H as (_ & _ & ->).
    pose proof (save_grow s var (v_lintest (fst w)) (snd w)) as Q. unfold on_lintest, szoom in E1. destruct (save_test _ _ _ _ _). injection E1 as <- _. exact Q.
  Qed.
  Lemma krig_done h perm us ws : done hk (test_krig writable fixed h perm us ws).
  Proof.
    unfold test_krig. do 14 (apply d_bind; intro). match goal with |- done _ (match ?x with _ => _ end) => destruct x; [|intros ? ? ? ?; discriminate] end. do 2 (apply d_bind; intro). apply d_savek. intros. quiets.
  Qed.
  Lemma linear_done h perm : done hl (test_linear writable fixed h perm).
  Proof. unfold test_linear. do 13 (apply d_bind; intro). apply d_savel. intros. quiets. Qed.

  (** *** the calls of a program *)
  Notation prog := (tester R * files)%type.
  Definition qk (w : prog) := hk (q_state (fst w), snd w).
  Definition ql (w : prog) := hl (q_state (fst w), snd w).
  (** the model that is bound: only Kriging models, or only the linear model *)
  Definition kinds (lin : bool) (c : tcall R) : Prop := match c with CModel m => if lin then m <> OrdinaryKriging /\ m <> UniversalKriging else m <> LinearRegression | _ => True end.
  Definition bound_to (lin : bool) (w : prog) : Prop :=
    (if lin then q_ptr (fst w) <> PKriging else q_ptr (fst w) <> PLinear) /\
    match q_type (fst w) with Some m => if lin then m <> OrdinaryKriging /\ m <> UniversalKriging else m <> LinearRegression | None => True end.
  Definition mine (lin : bool) (w : prog) := if lin then ql w else qk w.
  Lemma perform_inv perm us ws w w' r : tester_perform writable fixed perm us ws w = (w', r) ->
    (w' = w /\ forall e, r <> Ok (Some e)) \/
    exists u, w' = (mkTt (q_conf (fst w)) (q_type (fst w)) (q_bound (fst w)) (q_ptr (fst w)) (q_multi (fst w)) (fst u), snd u) /\
      ((q_ptr (fst w) = PLinear /\ test_linear writable fixed (q_conf (fst w)) perm (q_state (fst w), snd w) = (u, r)) \/
       (q_ptr (fst w) = PKriging /\ test_krig writable fixed (q_conf (fst w)) perm us ws (q_state (fst w), snd w) = (u, r))).
  Proof.
    intros H. unfold tester_perform in H. unfold sbind at 1, sget at 1 in H. cbv zeta in H.
    assert (forall (c : bool) x (m : SM prog (option R)), sbind (sthrow_if c x) (fun _ => m) w = if c then (w, Throw x) else m w) as S1 by (intros [] ? ?; reflexivity).
    assert (forall (c : bool) (m : SM prog (option R)), sbind (sassert c) (fun _ => m) w = if c then m w else (w, Throw AssertFail)) as S2 by (intros [] ?; reflexivity).
    assert (forall (c : Res unit) (m : SM prog (option R)), sbind (slift c) (fun _ => m) w = match c with Ok _ => m w | Throw x => (w, Throw x) | UB => (w, UB) end) as S3 by (intros [[]| |] ?; reflexivity).
    rewrite S1 in H. destruct (negb (b_set _)). { injection H as <- <-. left. split; auto. discriminate. }
    rewrite S2 in H. destruct (q_bound (fst w)) eqn:QB. 2:{ injection H as <- <-. left. split; auto. discriminate. }
    rewrite S2 in H. destruct (negb _). 2:{ injection H as <- <-. left. split; auto. discriminate. }
    rewrite S2 in H. destruct (Nat.ltb _ _). 2:{ injection H as <- <-. left. split; auto. discriminate. }
    rewrite S3 in H. destruct (tester_checkFilename (h_train _)). 2-3: injection H as <- <-; left; split; auto; discriminate.
    rewrite S3 in H. destruct (tester_checkFilename (h_test _)). 2-3: injection H as <- <-; left; split; auto; discriminate.
    unfold szoom in H. destruct (q_ptr (fst w)) eqn:QP.
    - cbn in H. injection H as <- <-. left. split; [|discriminate]. destruct w as [[] ?]. cbn in *. congruence.
    - right. destruct (test_linear _ _ _ _ _) as [u r1] eqn:E. injection H as <- <-. exists u. split; [rewrite QB; reflexivity|auto].
    - right. destruct (test_krig _ _ _ _ _ _ _) as [u r1] eqn:E. injection H as <- <-. exists u. split; [rewrite QB; reflexivity|auto].
  Qed.
  Lemma call_step lin c w : kinds lin c -> bound_to lin w -> bound_to lin (fst (tcall_run writable fixed c w)) /\ (mine lin w <> [] -> mine lin (fst (tcall_run writable fixed c w)) <> []).
  Proof.
    intros K B. assert (forall m : SM (tester R) unit, (forall q, q_ptr (fst (m q)) = q_ptr q /\ q_type (fst (m q)) = q_type q /\ v_krigtest (q_state (fst (m q))) = v_krigtest (q_state q) /\ v_lintest (q_state (fst (m q))) = v_lintest (q_state q)) ->
      bound_to lin (fst ((run on_tester m; sret (@None R)) w)) /\ (mine lin w <> [] -> mine lin (fst ((run on_tester m; sret (@None R)) w)) <> [])) as Easy.
    { intros m H. unfold sbind, on_tester, szoom. specialize (H (fst w)). destruct (m (fst w)) as [q' r]. cbn [fst] in H. destruct H as (H1 & H2 & H3 & H4).
      assert (bound_to lin (q', snd w) /\ (mine lin w <> [] -> mine lin (q', snd w) <> [])). { unfold bound_to, mine, ql, qk, hl, hk in *. cbn [fst]. rewrite H1, H2, H3, H4. auto. } destruct r; auto. }
    destruct c; cbn [tcall_run].
    - apply Easy. intros q. auto.
    - apply Easy. intros q. unfold tester_setName, sbind, sassert. destruct (negb _); cbn; auto.
    - unfold sbind, on_tester, szoom, tester_setModel, smod. cbn. destruct B as (B1 & B2). split; auto. split; auto.
    - apply Easy. intros q. unfold tester_setBox, sbind, smod, sthrow_if. destruct (negb _); cbn; auto.
    - apply Easy. intros q. unfold tester_setTraining, sbind, slift. destruct (tester_checkFilename _); cbn; auto.
    - apply Easy. intros q. unfold tester_setTest, sbind, slift. destruct (tester_checkFilename _); cbn; auto.
    - apply Easy. intros q. auto.
    - apply Easy. intros q. unfold tester_setIters, sbind, smod, sget. destruct q as [h ty bd p mu st]. destruct bd, p; cbn; auto.
    - apply Easy. intros q. unfold tester_setRatio, sbind, sthrow_if. destruct (_ && _)%bool; cbn; auto. destruct q as [h ty bd p mu st]. destruct p; cbn [q_ptr]; [cbn; auto| |]; unfold in_state, szoom; cbn [q_state]; [destruct (in_ldata (data_setRatio v) (v_lin st))|destruct (train_setRatio v (v_krig st))]; cbn; auto.
    - unfold sbind, on_tester, szoom, tester_bind, sget. destruct w as [[h ty bd p mu st] fs]. unfold bound_to, mine, ql, qk, hk, hl in *. cbn [fst snd q_type q_ptr q_state q_multi q_conf] in *. destruct B as (B1 & B2).
      destruct ty as [m|]; [|cbn; auto]. unfold sbind, sthrow_if. destruct mu; [cbn; auto|]. cbn. destruct lin, m, p; cbn; intuition congruence.
    - destruct (tester_perform writable fixed perm us ws w) as [w' r] eqn:E. cbn [fst]. apply perform_inv in E. destruct E as [(-> & _)|(u & -> & E)]. auto.
      split. exact B. unfold mine, ql, qk. cbn [fst snd q_state]. replace (fst u, snd u) with u by (now destruct u).
      destruct E as [(_ & E)|(_ & E)]; [pose proof (linear_grow (q_conf (fst w)) perm (q_state (fst w), snd w)) as G|pose proof (krig_grow (q_conf (fst w)) perm us ws (q_state (fst w), snd w)) as G]; rewrite E in G; cbn [fst] in G; destruct lin; apply G.
  Qed.
  Lemma calls_step lin l : forall w, Forall (kinds lin) l -> bound_to lin w -> bound_to lin (tcalls_run writable fixed l w) /\ (mine lin w <> [] -> mine lin (tcalls_run writable fixed l w) <> []).
  Proof.
    induction l as [|c l IH]; intros w K B; [auto|]. inversion K; subst. change (tcalls_run writable fixed (c :: l) w) with (tcalls_run writable fixed l (fst (tcall_run writable fixed c w))).
    destruct (call_step lin c w) as (B1 & M1); auto. destruct (IH _ H2 B1) as (B2 & M2). auto.
  Qed.
  Lemma bound_new lin fs : bound_to lin (tester_new, fs).
  Proof. split; destruct lin; cbn; auto; discriminate. Qed.
  Lemma perform_done lin perm us ws w w' e : bound_to lin w -> tester_perform writable fixed perm us ws w = (w', Ok (Some e)) -> bound_to lin w' /\ mine lin w' <> [].
  Proof.
    intros B E. apply perform_inv in E. destruct E as [(_ & N)|(u & -> & E)]. destruct (N e eq_refl). split. exact B. unfold mine, ql, qk. cbn [fst snd q_state]. replace (fst u, snd u) with u by (now destruct u).
    destruct B as (B & _). destruct E as [(P & E)|(P & E)]; destruct lin; try (rewrite P in B; congruence). eapply linear_done; eauto. eapply krig_done; eauto.
  Qed.
  Lemma perform_never (W : writable results_file = true) lin perm us ws w w' r : bound_to lin w -> mine lin w <> [] -> tester_perform writable fixed perm us ws w = (w', r) ->
    (forall e, r <> Ok (Some e)) /\ (forall f, f <> results_file -> snd w' f = snd w f) /\ (snd w' results_file = snd w results_file \/ snd w' results_file = Some []).
  Proof.
    intros (B & _) M E. apply perform_inv in E. destruct E as [(-> & N)|(u & -> & E)]. auto. cbn [snd].
    destruct E as [(P & E)|(P & E)]; destruct lin; try (rewrite P in B; congruence).
    - destruct (linear_never writable fixed W (q_conf (fst w)) perm (q_state (fst w), snd w) M) as (_ & Q). rewrite E in Q. exact Q.
    - destruct (krig_never writable fixed W (q_conf (fst w)) perm us ws (q_state (fst w), snd w) M) as (_ & Q). rewrite E in Q. exact Q.
  Qed.
End Stay.
