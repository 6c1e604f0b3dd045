From Coq Require Import Ascii String ZArith Bool Arith Reals Lra List Lia.
From Verif Require Import Base StM Num RealNum VecModel VecProofs MatModel MatLemmas MatSpec MatProofs BoundsModel DataProofs DesignModel HistModel HistSpec HistProofs KrigModel OptModel OptProofs OptRun OptSpec OptReal OptRunReal OptStart OptTop
  StrModel StrSpec StrProofs ExtModel ExtProofs CsvModel CsvSpec CsvProofs RunFileModel RunFileSpec RunFileText.
Import ListNotations.

(** *** programs in sequence *)
Lemma sbind_assoc {S A B C} (m : SM S A) (f : A -> SM S B) (g : B -> SM S C) s : sbind (sbind m f) g s = sbind m (fun a => sbind (f a) g) s.
Proof. unfold sbind. destruct (m s) as [s1 [a|e|]]; reflexivity. Qed.
Lemma sbind_ext {S A B} (m : SM S A) (k k' : A -> SM S B) s : (forall a s, k a s = k' a s) -> sbind m k s = sbind m k' s.
Proof. intros H. unfold sbind. destruct (m s) as [s1 [a|e|]]; auto. Qed.
Lemma sbind_ext1 {S A B} (m m' : SM S A) (k : A -> SM S B) s : m s = m' s -> sbind m k s = sbind m' k s.
Proof. intros H. unfold sbind. now rewrite H. Qed.
Lemma sbind_fail {S A B} (m : SM S A) (k : A -> SM S B) s s' r : m s = (s', r) -> isOk r = false -> sbind m k s = (s', match r with Ok _ => UB | Throw e => Throw e | UB => UB end).
Proof. intros H E. unfold sbind. rewrite H. destruct r; [discriminate|reflexivity|reflexivity]. Qed.

Section Parts.
  Context {T : Type} {NT : Num T}.
  Implicit Types (c : cfg T) (e : env T) (s : ost T).
  Lemma iteration_parts c e s : iteration c e s = (get d <-- beforeUpdate c e; run in_hist (hist_update d); run afterUpdate c e; findOptimum c) s.
  Proof.
    symmetry. unfold iteration, beforeUpdate, afterUpdate. do 14 (rewrite sbind_assoc; apply sbind_ext; intros ? ?).
    change (sbind (sret ?a) ?k) with (k a). apply sbind_ext. intros _ t1. rewrite sbind_assoc. apply sbind_ext. intros _ t2. reflexivity.
  Qed.
  Lemma start_parts c ini s : startRun c ini s = (run beforeStart c ini; run in_hist hist_save; run setDoE c; run findOptimum c; initCrowding c) s.
  Proof.
    symmetry. unfold startRun, beforeStart, initHistory, setHistory, setDoE, initCrowding. do 10 (rewrite sbind_assoc; apply sbind_ext; intros ? ?).
    do 4 (rewrite !sbind_assoc; apply sbind_ext; intros ? ?). rewrite !sbind_assoc. apply sbind_ext; intros ? ?. rewrite sbind_assoc. apply sbind_ext; intros ? ?. rewrite sbind_assoc. apply sbind_ext; intros ? ?. reflexivity.
  Qed.
  Lemma update_parts (d : design T) (h : hist T) : hist_update d h = (run addRow d; hist_save) h.
  Proof. symmetry. unfold hist_update, addRow. rewrite sbind_assoc. apply sbind_ext. intros a h1. rewrite sbind_assoc. reflexivity. Qed.
  Lemma addRow_cases (h : hist T) (d : design T) : hist_ok h ->
    (exists m, addRow d h = (hset_data m h, Ok tt) /\ hist_update d h = (hset_data m h, Ok tt) /\ table m /\ rows m = rows (h_data h) ++ [row_of h d] /\ ncols m = hist_width h) \/
    (exists x, addRow d h = (h, Throw x) /\ hist_update d h = (h, Throw x)).
  Proof.
    intros H. destruct (Nat.eq_dec (length (ds_x d)) (h_dim h)) as [Lx|Lx]; [destruct (le_lt_dec (h_cn h) (length (ds_con d))) as [Lc|Lc]|].
    - left. destruct (hist_update_ok h d H) as (m & Eu & Tm & Rm & Cm); [split; assumption|]. exists m. split; [|auto].
      rewrite update_parts in Eu. apply sbind_inv in Eu as [(h1 & u & E1 & E2)|[_ E]]; [|discriminate]. destruct u. rewrite E1. f_equal.
      unfold hist_save in E2. rewrite (sbind_ok _ _ _ h1 h1) in E2 by reflexivity. destruct (mat_isEmpty _); [discriminate|]. injection E2 as ->. reflexivity.
    - right. eexists. split; [|apply hist_update_throws; intros [_ X]; lia]. unfold addRow. rewrite (sbind_ok _ _ _ h h) by reflexivity. rewrite hist_row_throws; [reflexivity|]. intros [_ X]; lia.
    - right. eexists. split; [|apply hist_update_throws; intros [X _]; auto]. unfold addRow. rewrite (sbind_ok _ _ _ h h) by reflexivity. rewrite hist_row_throws; [reflexivity|]. intros [X _]; auto.
  Qed.
  Lemma before_frame c e s s' r : beforeUpdate c e s = (s', r) -> s_hist s' = s_hist s /\ s_gopt s' = s_gopt s.
  Proof.
    intros H. unfold beforeUpdate in H. rewrite (sbind_ok _ _ _ (set_iter (S (s_iter s)) s) tt) in H by reflexivity. rewrite (sbind_ok _ _ _ (set_iter (S (s_iter s)) s) (S (s_iter s))) in H by reflexivity.
    set (s1 := set_iter (S (s_iter s)) s) in H. assert (A : s_hist s1 = s_hist s /\ s_gopt s1 = s_gopt s) by (split; reflexivity). clearbody s1.
    apply sbind_inv in H as [(s2 & u & H1 & H)|[H1 _]].
    2:{ destruct (Nat.eqb (c_how c) 0); [injection H1 as <- _; exact A|]. unfold swhen in H1. destruct (Nat.eqb _ 1); [|injection H1 as <- _; exact A].
        apply sbind_inv in H1 as [(s3 & v & H2 & H3)|[H2 _]]; [|injection H2 as <- _; exact A]. injection H2 as <- _. injection H3 as <- _. exact A. }
    assert (A2 : s_hist s2 = s_hist s /\ s_gopt s2 = s_gopt s).
    { destruct (Nat.eqb (c_how c) 0); [discriminate|]. unfold swhen in H1. destruct (Nat.eqb _ 1); [|injection H1 as <- _; exact A].
      apply sbind_inv in H1 as [(s3 & v & H2 & H3)|[_ H2]]; [|discriminate]. injection H2 as <- _. injection H3 as <- _. exact A. }
    clear A H1 s1. apply sbind_inv in H as [(s3 & v & H1 & H)|[H1 _]].
    2:{ apply findDesign_frame in H1 as (d & -> & _). exact A2. }
    apply findDesign_frame in H1 as (d & -> & _). rewrite (sbind_ok _ _ _ (set_cur d s2) d) in H by reflexivity.
    rewrite (sbind_ok _ _ _ (set_ghost (s_pts (set_cur d s2) ++ [ds_x d]) (s_trained (set_cur d s2)) (set_cur d s2)) tt) in H by reflexivity.
    set (s4 := set_ghost _ _ _) in H. assert (A4 : s_hist s4 = s_hist s /\ s_gopt s4 = s_gopt s) by exact A2. clearbody s4. clear A2.
    apply sbind_inv in H as [(s5 & f & H1 & H)|[H1 _]]; [|injection H1 as <- _; exact A4]. injection H1 as <- _.
    unfold on_cur in H at 1. rewrite (sbind_ok _ _ _ (set_cur (ds_set_f f (s_cur s4)) s4) tt) in H by reflexivity.
    set (s6 := set_cur _ s4) in H. assert (A6 : s_hist s6 = s_hist s /\ s_gopt s6 = s_gopt s) by exact A4. clearbody s6. clear A4.
    rewrite (sbind_ok _ _ _ (set_evals (S (s_evals s6)) s6) tt) in H by reflexivity.
    set (s7 := set_evals _ s6) in H. assert (A7 : s_hist s7 = s_hist s /\ s_gopt s7 = s_gopt s) by exact A6. clearbody s7. clear A6.
    apply sbind_inv in H as [(s8 & u8 & H1 & H)|[H1 _]]; [|apply evalConstraints_frame in H1 as (d' & -> & _); exact A7].
    apply evalConstraints_frame in H1 as (d' & -> & _). set (s9 := set_cur d' s7) in H. assert (A9 : s_hist s9 = s_hist s /\ s_gopt s9 = s_gopt s) by exact A7. clearbody s9. clear A7.
    destruct (improvement (s_best s9) (ds_feas (s_cur s9)) (ds_f (s_cur s9))) as [b im] eqn:Ei.
    rewrite (sbind_ok _ _ _ (set_best b (set_cur (ds_set_imp im (s_cur s9)) s9)) tt) in H by (unfold smod; rewrite Ei; reflexivity).
    set (s10 := set_best _ _) in H. assert (A10 : s_hist s10 = s_hist s /\ s_gopt s10 = s_gopt s) by exact A9. clearbody s10. clear A9 Ei.
    rewrite (sbind_ok _ _ _ s10 (s_cur s10)) in H by reflexivity. destruct (design_hasNan (s_cur s10)); cbn [sthrow_if] in H; [injection H as <- _; exact A10|].
    rewrite (sbind_ok _ _ _ s10 tt) in H by reflexivity. apply sbind_inv in H as [(s11 & w & H1 & H)|[H1 _]]; [|injection H1 as <- _; exact A10].
    injection H1 as <- _. injection H as <- _. exact A10.
  Qed.
End Parts.

(** *** the state the files are written from *)
Definition tracked (c : cfg R) (s : ost R) : Prop :=
  gopt_ready (c_dim c) (length (c_cons c)) (s_gopt s) /\
  optimum_of c (rows (h_data (s_hist s))) (s_gopt s) /\
  history (c_dim c) (length (c_cons c)) (h_data (s_hist s)) /\ (0 < nrows (h_data (s_hist s)))%nat /\
  h_dim (s_hist s) = c_dim c /\ h_cn (s_hist s) = length (c_cons c) /\ (0 < h_doe (s_hist s) <= nrows (h_data (s_hist s)))%nat.
Lemma ready_tracked c s : ready c s -> tracked c s.
Proof. intros (G1 & G2 & G3 & G4 & Hh & Hn & H1 & H2 & H3 & _). unfold tracked. auto 10. Qed.
Lemma tracked_hist c s : tracked c s -> hist_ok (s_hist s).
Proof. intros (_ & _ & (Ht & Hc) & _ & H1 & H2 & _). split; [exact Ht|]. intros _. unfold hist_width. now rewrite H1, H2. Qed.
Lemma findOptimum_ok c (s : ost R) : c_boxset c = true -> gopt_ready (c_dim c) (length (c_cons c)) (s_gopt s) -> history (c_dim c) (length (c_cons c)) (h_data (s_hist s)) -> (0 < nrows (h_data (s_hist s)))%nat ->
  exists g, findOptimum c s = (set_gopt g s, Ok tt) /\ gopt_ready (c_dim c) (length (c_cons c)) g /\ optimum_of c (rows (h_data (s_hist s))) g.
Proof.
  intros Box G Hh Hn. destruct (gopt_fromHistory_ok (c_dim c) (length (c_cons c)) (s_gopt s) (h_data (s_hist s))) as (fb & ib & g & Eg & Rg & Bg & Dg & Ng & Og); auto.
  { right. intros; exact Logic.I. } exists g. destruct Hh as [Ht Hc]. split; [|split].
  - unfold findOptimum. rewrite Box. cbn [negb sthrow_if]. rewrite (sbind_ok _ _ _ s tt) by reflexivity. rewrite (sbind_ok _ _ _ s (s_hist s)) by reflexivity.
    destruct (Nat.eqb_spec (nrows (h_data (s_hist s))) 0); [lia|]. destruct (Nat.eqb_spec (ncols (h_data (s_hist s))) 0); [lia|]. cbn [orb sthrow_if]. rewrite (sbind_ok _ _ _ s tt) by reflexivity.
    unfold in_gopt, szoom. now rewrite Eg.
  - destruct G as (? & ? & ? & ? & ? & ?). unfold gopt_ready. rewrite Bg. auto 10.
  - exists fb, ib. rewrite Bg. auto.
Qed.
Lemma afterUpdate_ok c e (s : ost R) : (0 < h_dim (s_hist s) < ncols (h_data (s_hist s)))%nat -> (0 < h_doe (s_hist s) <= nrows (h_data (s_hist s)))%nat ->
  exists s', afterUpdate c e s = (s', Ok tt) /\ s_gopt s' = s_gopt s /\ hist_same (s_hist s) (s_hist s').
Proof.
  intros H1 H2. unfold afterUpdate. rewrite (sbind_ok _ _ _ (trUpdate s) tt) by reflexivity. destruct (trUpdate_frame s) as (l & su & fa & bd & mu & ->).
  set (s1 := set_sig bd mu _ _ _). assert (A : s_gopt s1 = s_gopt s /\ s_hist s1 = s_hist s) by (split; reflexivity). clearbody s1. destruct A as [A1 A2].
  destruct (c_var c); cbn [swhen].
  - destruct (crowding_ok (s_hist s1)) as (k & Ek); [rewrite A2; exact H1|rewrite A2; exact H2|]. eexists. split.
    + unfold adjustSigma. unfold sbind at 1. rewrite (sbind_ok _ _ _ (set_hist (mkH (h_dim (s_hist s1)) (h_cn (s_hist s1)) (h_data (s_hist s1)) k (h_doe (s_hist s1))) s1) tt).
      2:{ unfold in_hist, szoom. rewrite Ek. reflexivity. } cbv beta iota zeta delta [smod]. reflexivity.
    + cbn [s_hist set_sig set_hist s_gopt]. split; [exact A1|]. unfold hist_same. cbn [h_data h_dim h_cn h_doe]. rewrite A2. auto.
  - exists s1. split; [reflexivity|]. split; [exact A1|]. unfold hist_same. rewrite A2. auto.
Qed.

Section Writes.
  Context (writable : str -> bool) (fixed : nat -> R -> str) (F : forall p x, fixed_text_of p x (fixed p x)).
  Local Notation saveReport := (saveReport writable fixed).
  Local Notation saveHistory := (saveHistory writable fixed).
  Local Notation iterationF := (iterationF writable fixed).
  Local Notation egoLoopF := (egoLoopF writable fixed).
  Local Notation startRunF := (startRunF writable fixed).
  Local Notation egoF := (egoF writable fixed).

  (** the text of the table and of the report *)
  Definition cols_of (c : cfg R) (n : fnames) : list str := match header (f_par n) (f_con n) (c_dim c) with Ok l => l | _ => [] end.
  Definition table_out (c : cfg R) (n : fnames) (s : ost R) : str := tableText fixed 6 (cols_of c n) (h_data (s_hist s)).
  Definition report_out (s : ost R) : str := flat (report_parts fixed (go_d (s_gopt s))).
  Lemma cols_ok c n : names_ok writable c n -> header (f_par n) (f_con n) (c_dim c) = Ok (cols_of c n) /\ column_names (f_par n) (f_con n) (c_dim c) (cols_of c n) /\
    length (cols_of c n) = c_dim c + 1 + length (c_cons c) + 2 /\ cols_of c n <> [].
  Proof.
    intros (_ & _ & _ & _ & H & L). unfold cols_of. destruct (header_ok (f_par n) (f_con n) (c_dim c) H) as (hd & -> & C & LH & NE). rewrite L in LH. auto.
  Qed.
  Lemma saveHistory_ok c n (s : rst R) : names_ok writable c n -> history (c_dim c) (length (c_cons c)) (h_data (s_hist (r_opt s))) -> (0 < nrows (h_data (s_hist (r_opt s))))%nat -> h_dim (s_hist (r_opt s)) = c_dim c ->
    saveHistory (f_hist n) (f_par n) (f_con n) s =
      (mkRst (r_opt s) (put (f_hist n) (table_out c n (r_opt s)) (put (f_hist n) [] (r_disk s))) (put (f_hist n) [] (r_disk s) :: r_disk s :: r_past s), Ok tt).
  Proof.
    intros N [Ht Hc] Hn Hd. destruct (cols_ok c n N) as (E & _ & L & _). destruct N as (W & _). unfold RunFileModel.saveHistory. rewrite (sbind_ok _ _ _ s s) by reflexivity. cbv zeta.
    unfold mat_isEmpty. destruct (Nat.eqb_spec (nrows (h_data (s_hist (r_opt s)))) 0); [lia|]. destruct (Nat.eqb_spec (ncols (h_data (s_hist (r_opt s)))) 0); [lia|]. cbn [orb sthrow_if].
    rewrite (sbind_ok _ _ _ s tt) by reflexivity. rewrite Hd, E. rewrite (sbind_ok _ _ _ s (cols_of c n)) by reflexivity. rewrite W. cbn [negb sthrow_if]. rewrite (sbind_ok _ _ _ s tt) by reflexivity.
    rewrite (sbind_ok _ _ _ (mkRst (r_opt s) (put (f_hist n) [] (r_disk s)) (r_disk s :: r_past s)) tt) by reflexivity. rewrite Hc, L, Nat.eqb_refl. cbn [negb]. rewrite andb_false_r. cbn [sthrow_if].
    rewrite (sbind_ok _ _ _ (mkRst (r_opt s) (put (f_hist n) [] (r_disk s)) (r_disk s :: r_past s)) tt) by reflexivity. reflexivity.
  Qed.
  Lemma saveReport_ok c n (s : rst R) : names_ok writable c n -> ds_x (go_d (s_gopt (r_opt s))) <> [] ->
    saveReport (f_rep n) s = (mkRst (r_opt s) (put (f_rep n) (report_out (r_opt s)) (put (f_rep n) [] (r_disk s))) (put (f_rep n) [] (r_disk s) :: r_disk s :: r_past s), Ok tt).
  Proof.
    intros (_ & W & NE & _) X. unfold RunFileModel.saveReport. destruct (f_rep n) as [|ch nm] eqn:Ef; [congruence|]. cbn [is_empty sthrow_if]. rewrite <- Ef in *. clear Ef ch nm NE.
    rewrite (sbind_ok _ _ _ s tt) by reflexivity. rewrite W. cbn [negb sthrow_if]. rewrite (sbind_ok _ _ _ s tt) by reflexivity.
    set (s1 := mkRst (r_opt s) (put (f_rep n) [] (r_disk s)) (r_disk s :: r_past s)). rewrite (sbind_ok _ _ _ s1 tt) by reflexivity. rewrite (sbind_ok _ _ _ s1 s1) by reflexivity.
    change (r_opt s1) with (r_opt s). rewrite (report_flat fixed _ X). rewrite (sbind_ok _ _ _ s1 (flat (report_parts fixed (go_d (s_gopt (r_opt s)))))) by reflexivity. reflexivity.
  Qed.
  Lemma opt_x c s : tracked c s -> ds_x (go_d (s_gopt s)) <> [].
  Proof.
    intros (G1 & (fe & i & Rep & B) & (Ht & Hc) & Hn & _) E. destruct Rep as (_ & _ & X & _). rewrite E in X. symmetry in X. apply (f_equal (@length R)) in X. unfold row_x, rowi in X. rewrite firstn_length in X.
    assert (Hi : i < nrows (h_data (s_hist s))). { rewrite <- rows_length. destruct fe; [apply B|apply (proj2 B)]. }
    rewrite nth_rows, mrow_length in X by exact Hi. destruct G1 as (Hd & _). cbn in X. lia.
  Qed.
  Lemma table_ok_out c n s : names_ok writable c n -> tracked c s -> table_text (cols_of c n) (rows (h_data (s_hist s))) (table_out c n s).
  Proof. intros N (_ & _ & (Ht & Hc) & _). apply table_ok; [exact F|apply (cols_ok c n N)|lia]. Qed.
  (** a file holds the report of the best of the rows *)
  Definition rep_of (c : cfg R) (name : str) (rs : list (list R)) (disk : files) : Prop :=
    exists d fe i, disk name = Some (flat (report_parts fixed d)) /\ best_row (c_dim c) rs fe i /\ ds_ID d = Z.of_nat i /\ ds_feas d = fe /\ ds_x d = row_x (c_dim c) (rowi rs i) /\
      ds_f d = row_obj (c_dim c) (rowi rs i) /\ ds_con d = row_con (c_dim c) (length (c_cons c)) (rowi rs i).
  Lemma rep_report c name rs disk : rep_of c name rs disk -> report_of name (c_dim c) (length (c_cons c)) rs disk.
  Proof.
    intros (d & fe & i & E & B & R1 & R2 & R3 & R4 & R5). exists (flat (report_parts fixed d)), fe, i. split; [exact E|]. split; [exact B|].
    rewrite <- R2, <- R3, <- R4, <- R5. apply report_describes; assumption.
  Qed.
  Lemma report_ok_out c s name disk : tracked c s -> disk name = Some (report_out s) -> rep_of c name (rows (h_data (s_hist s))) disk.
  Proof. intros (_ & (fe & i & Rep & B) & _) E. destruct Rep as (R1 & R2 & R3 & R4 & R5 & _). exists (go_d (s_gopt s)), fe, i. auto 8. Qed.

  (** *** one iteration *)
  Definition wrote (c : cfg R) (n : fnames) (o : ost R) (s s' : rst R) : Prop :=
    r_disk s' = put (f_rep n) (report_out o) (put (f_rep n) [] (put (f_hist n) (table_out c n o) (put (f_hist n) [] (r_disk s)))) /\
    r_past s' = put (f_rep n) [] (put (f_hist n) (table_out c n o) (put (f_hist n) [] (r_disk s))) :: put (f_hist n) (table_out c n o) (put (f_hist n) [] (r_disk s)) :: put (f_hist n) [] (r_disk s) :: r_disk s :: r_past s.
  Lemma lo_ok {A} (m : SM (ost R) A) (s : rst R) o r : m (r_opt s) = (o, r) -> lo m s = (mkRst o (r_disk s) (r_past s), r).
  Proof. intros H. unfold lo, szoom. now rewrite H. Qed.
  Lemma step_ok c n e (s : rst R) : c_boxset c = true -> names_ok writable c n -> tracked c (r_opt s) ->
    exists s' r, iterationF n c e s = (s', r) /\ iteration c e (r_opt s) = (r_opt s', r) /\
      ((isOk r = false /\ r_disk s' = r_disk s /\ r_past s' = r_past s /\ rows (h_data (s_hist (r_opt s'))) = rows (h_data (s_hist (r_opt s)))) \/
       (r = Ok tt /\ tracked c (r_opt s') /\ (exists row, rows (h_data (s_hist (r_opt s'))) = rows (h_data (s_hist (r_opt s))) ++ [row]) /\ wrote c n (r_opt s') s s')).
  Proof.
    intros Box N T. unfold RunFileModel.iterationF. rewrite iteration_parts. destruct (beforeUpdate c e (r_opt s)) as [o1 r1] eqn:E1. destruct (before_frame _ _ _ _ _ E1) as [H1 G1].
    destruct r1 as [d|x|].
    2,3: exists (mkRst o1 (r_disk s) (r_past s)); eexists; split; [exact (sbind_fail _ _ _ _ _ (lo_ok _ _ _ _ E1) eq_refl)|]; split; [exact (sbind_fail _ _ _ _ _ E1 eq_refl)|]; left; cbn [r_opt r_disk r_past isOk]; rewrite H1; auto.
    rewrite (sbind_ok _ _ _ _ d (lo_ok _ _ _ _ E1)), (sbind_ok _ _ _ _ d E1). set (s1 := mkRst o1 (r_disk s) (r_past s)).
    pose proof T as (T1 & T2 & (T3 & T3') & T4 & T5 & T6 & T7).
    destruct (addRow_cases (s_hist (r_opt s)) d (tracked_hist _ _ T)) as [(m & EA & EU & Tm & Rm & Cm)|(x & EA & EU)].
    2:{ assert (A1 : lo (in_hist (addRow d)) s1 = (mkRst o1 (r_disk s) (r_past s), Throw x)).
        { apply (lo_ok _ s1). unfold in_hist, szoom. change (r_opt s1) with o1. rewrite H1, EA. rewrite <- H1. destruct o1; reflexivity. }
        assert (A2 : in_hist (hist_update d) o1 = (o1, Throw x)). { unfold in_hist, szoom. rewrite H1, EU. rewrite <- H1. destruct o1; reflexivity. }
        exists (mkRst o1 (r_disk s) (r_past s)), (Throw x). split; [exact (sbind_fail _ _ _ _ _ A1 eq_refl)|]. split; [exact (sbind_fail _ _ _ _ _ A2 eq_refl)|]. left. cbn [r_opt r_disk r_past isOk]. rewrite H1. auto. }
    set (o2 := set_hist (hset_data m (s_hist (r_opt s))) o1).
    assert (A1 : lo (in_hist (addRow d)) s1 = (mkRst o2 (r_disk s) (r_past s), Ok tt)). { apply (lo_ok _ s1). unfold in_hist, szoom. change (r_opt s1) with o1. rewrite H1, EA. reflexivity. }
    assert (A2 : in_hist (hist_update d) o1 = (o2, Ok tt)). { unfold in_hist, szoom. rewrite H1, EU. reflexivity. }
    rewrite (sbind_ok _ _ _ _ tt A1), (sbind_ok _ _ _ _ tt A2). set (s2 := mkRst o2 (r_disk s) (r_past s)).
    unfold hist_width in Cm. rewrite T5, T6 in Cm. assert (Nm : nrows m = S (nrows (h_data (s_hist (r_opt s))))). { rewrite <- !rows_length, Rm, app_length. cbn. lia. }
    destruct T1 as (Hd & TG).
    rewrite (sbind_ok _ _ _ _ tt (saveHistory_ok c n s2 N (conj Tm Cm) ltac:(cbn; lia) T5)). change (r_opt s2) with o2. set (s3 := mkRst o2 _ _).
    destruct (afterUpdate_ok c e o2) as (o3 & E3 & G3 & (S1 & S2 & S3 & S4)). { cbn. lia. } { cbn. lia. }
    rewrite (sbind_ok _ _ _ _ tt (lo_ok (afterUpdate c e) s3 o3 (Ok tt) E3)), (sbind_ok _ _ _ _ tt E3). set (s4 := mkRst o3 _ _).
    change (h_data (s_hist o2)) with m in S1. change (h_dim (s_hist o2)) with (h_dim (s_hist (r_opt s))) in S2. change (h_cn (s_hist o2)) with (h_cn (s_hist (r_opt s))) in S3. change (h_doe (s_hist o2)) with (h_doe (s_hist (r_opt s))) in S4.
    change (s_gopt o2) with (s_gopt o1) in G3.
    destruct (findOptimum_ok c o3 Box) as (g & Eg & Gg & Og). { rewrite G3, G1. split; assumption. } { rewrite S1. split; assumption. } { rewrite S1. lia. }
    unfold findOptimumF. rewrite (sbind_ok _ _ _ _ tt (lo_ok (findOptimum c) s4 _ (Ok tt) Eg)). set (s5 := mkRst (set_gopt g o3) _ _).
    assert (T' : tracked c (set_gopt g o3)).
    { unfold tracked. cbn [s_gopt s_hist set_gopt]. rewrite S1, S2, S3, S4. split; [exact Gg|]. split; [rewrite <- S1; exact Og|]. split; [split; assumption|]. split; [lia|]. split; [exact T5|]. split; [exact T6|]. lia. }
    exists (mkRst (set_gopt g o3) (put (f_rep n) (report_out (set_gopt g o3)) (put (f_rep n) [] (r_disk s5))) (put (f_rep n) [] (r_disk s5) :: r_disk s5 :: r_past s5)), (Ok tt).
    split; [exact (saveReport_ok c n s5 N (opt_x c _ T'))|]. split; [exact Eg|]. right. split; [reflexivity|]. split; [exact T'|]. cbn [r_opt s_hist set_gopt]. rewrite S1. split; [eauto|].
    assert (TO : table_out c n o2 = table_out c n (set_gopt g o3)). { unfold table_out. cbn [s_hist set_gopt]. rewrite S1. reflexivity. }
    unfold wrote. cbn [r_disk r_past]. unfold s5, s4, s3, s2. cbn [r_disk r_past r_opt]. rewrite TO. split; reflexivity.
  Qed.
  Lemma moment_more hist rep cols d nc k0 rs more disk : moment hist rep cols d nc k0 rs disk -> moment hist rep cols d nc k0 (rs ++ more) disk.
  Proof.
    intros (k & j & H1 & H2 & H3 & H). exists k, j. rewrite app_length. split; [exact H1|]. split; [exact H2|]. split; [lia|].
    assert (Q : forall i, (i <= length rs)%nat -> firstn i (rs ++ more) = firstn i rs). { intros i Hi. rewrite firstn_app. replace (i - length rs)%nat with 0%nat by lia. cbn [firstn]. apply app_nil_r. }
    rewrite !Q by lia. exact H.
  Qed.
  Definition current (c : cfg R) (n : fnames) (s : rst R) : Prop :=
    table_of (f_hist n) (cols_of c n) (rows (h_data (s_hist (r_opt s)))) (r_disk s) /\ rep_of c (f_rep n) (rows (h_data (s_hist (r_opt s)))) (r_disk s).
  Definition others (n : fnames) (d d' : files) : Prop := forall g, g <> f_hist n -> g <> f_rep n -> d' g = d g.
  Definition moments (c : cfg R) (n : fnames) (k0 : nat) (rs : list (list R)) (l : list files) : Prop :=
    Forall (moment (f_hist n) (f_rep n) (cols_of c n) (c_dim c) (length (c_cons c)) k0 rs) l.
  Lemma current_moment c n k0 (s : rst R) : (k0 <= length (rows (h_data (s_hist (r_opt s)))))%nat -> current c n s ->
    moment (f_hist n) (f_rep n) (cols_of c n) (c_dim c) (length (c_cons c)) k0 (rows (h_data (s_hist (r_opt s)))) (r_disk s).
  Proof.
    intros K [C1 C2]. exists (length (rows (h_data (s_hist (r_opt s))))), (length (rows (h_data (s_hist (r_opt s))))). split; [lia|]. split; [lia|]. split; [lia|]. rewrite firstn_all. right. right. split; [exact C1|exact (rep_report _ _ _ _ C2)].
  Qed.
  Lemma firstn_all_app {A} (l m : list A) : firstn (length l) (l ++ m) = l.
  Proof. rewrite firstn_app, Nat.sub_diag, firstn_all. apply app_nil_r. Qed.
  Lemma wrote_ok c n k0 (s s' : rst R) row : names_ok writable c n -> tracked c (r_opt s') -> current c n s -> (k0 <= length (rows (h_data (s_hist (r_opt s)))))%nat ->
    rows (h_data (s_hist (r_opt s'))) = rows (h_data (s_hist (r_opt s))) ++ [row] -> wrote c n (r_opt s') s s' ->
    current c n s' /\ others n (r_disk s) (r_disk s') /\ exists l, r_past s' = l ++ r_past s /\ moments c n k0 (rows (h_data (s_hist (r_opt s')))) l /\ Forall (others n (r_disk s)) l.
  Proof.
    intros N T C K E (D & P). pose proof N as (_ & _ & _ & NE & _). pose proof (table_ok_out c n _ N T) as TT.
    set (rs := rows (h_data (s_hist (r_opt s)))) in *. set (rs' := rows (h_data (s_hist (r_opt s')))) in *. set (t := table_out c n (r_opt s')) in *. set (u := report_out (r_opt s')) in *.
    assert (NE' : f_rep n <> f_hist n) by congruence. destruct C as [C1 C2]. fold rs in C1, C2.
    assert (F1 : firstn (length rs) rs' = rs) by (rewrite E; apply firstn_all_app).
    assert (L' : length rs' = S (length rs)) by (rewrite E, app_length; cbn; lia).
    assert (F2 : firstn (S (length rs)) rs' = rs') by (rewrite <- L'; apply firstn_all).
    assert (RO : forall d', d' (f_rep n) = r_disk s (f_rep n) -> report_of (f_rep n) (c_dim c) (length (c_cons c)) rs d'). { intros d' Ed. apply rep_report in C2. destruct C2 as (t0 & fe0 & i0 & Q1 & Q2). exists t0, fe0, i0. rewrite Ed. auto. }
    split; [|split].
    - unfold current. rewrite D. fold rs'. split.
      + exists t. rewrite !(put_other (f_rep n)) by exact NE. rewrite put_same. auto.
      + apply report_ok_out; [exact T|]. apply put_same.
    - intros g G1 G2. rewrite D. now rewrite !put_other by assumption.
    - eexists. split; [rewrite P; match goal with |- ?a :: ?b :: ?x :: ?y :: ?r = _ => instantiate (1 := [a; b; x; y]) end; reflexivity|]. split.
      + unfold moments. constructor; [|constructor; [|constructor; [|constructor; [|constructor]]]].
        * exists (S (length rs)), (length rs). split; [lia|]. split; [lia|]. split; [lia|]. rewrite F2. right. left. split; [|apply put_same]. exists t. rewrite put_other by exact NE. rewrite put_same. auto.
        * exists (S (length rs)), (length rs). split; [lia|]. split; [lia|]. split; [lia|]. rewrite F1, F2. right. right. split; [exists t; rewrite put_same; auto|]. apply RO. now rewrite !put_other by exact NE'.
        * exists (length rs), (length rs). split; [lia|]. split; [lia|]. split; [lia|]. rewrite F1. left. split; [apply put_same|]. apply RO. now rewrite put_other by exact NE'.
        * exists (length rs), (length rs). split; [lia|]. split; [lia|]. split; [lia|]. rewrite F1. right. right. split; [exact C1|]. now apply RO.
      + repeat (apply Forall_cons; [intros g G1 G2; now rewrite ?put_other by assumption|]). constructor.
  Qed.
  (** *** the loop *)
  Lemma loopF_ok c n es k0 : c_boxset c = true -> names_ok writable c n -> forall fuel k s, tracked c (r_opt s) -> current c n s -> (k0 <= length (rows (h_data (s_hist (r_opt s)))))%nat ->
    match egoLoopF fuel k n c es s with
    | None => egoLoop fuel k c es (r_opt s) = None
    | Some (s', r) => egoLoop fuel k c es (r_opt s) = Some (r_opt s', r) /\ current c n s' /\ others n (r_disk s) (r_disk s') /\
        (exists new, rows (h_data (s_hist (r_opt s'))) = rows (h_data (s_hist (r_opt s))) ++ new) /\
        exists l, r_past s' = l ++ r_past s /\ moments c n k0 (rows (h_data (s_hist (r_opt s')))) l /\ Forall (others n (r_disk s)) l
    end.
  Proof.
    intros Box N. induction fuel as [|fuel IH]; intros k s T C K; [reflexivity|]. cbn [RunFileModel.egoLoopF egoLoop].
    destruct (step_ok c n (es k) s Box N T) as (s1 & r1 & -> & -> & [(Hr & D & P & E)|(-> & T1 & (row & E) & Wr)]).
    - assert (Q : current c n s1). { unfold current. rewrite D, E. exact C. }
      destruct r1 as [u|x|]; [discriminate| |]; (split; [reflexivity|]; split; [exact Q|]; split; [rewrite D; intros g _ _; reflexivity|]; split; [exists []; now rewrite app_nil_r|]; exists []; split; [exact P|]; split; constructor).
    - destruct (wrote_ok c n k0 s s1 row N T1 C K E Wr) as (C1 & O1 & l1 & P1 & M1 & L1).
      destruct (Nat.leb (c_N c) (s_iter (r_opt s1))).
      + split; [reflexivity|]. split; [exact C1|]. split; [exact O1|]. split; [eauto|]. exists l1. auto.
      + assert (K1 : (k0 <= length (rows (h_data (s_hist (r_opt s1)))))%nat) by (rewrite E, app_length; lia).
        specialize (IH (S k) s1 T1 C1 K1). destruct (egoLoopF fuel (S k) n c es s1) as [[s2 r2]|]; [|exact IH].
        destruct IH as (I1 & I2 & I3 & (new & I4) & l2 & I5 & I6 & I7). split; [exact I1|]. split; [exact I2|]. split; [intros g G1 G2; rewrite I3, O1 by assumption; reflexivity|].
        split; [exists (row :: new); rewrite I4, E, <- app_assoc; reflexivity|]. exists (l2 ++ l1). split; [rewrite I5, P1, app_assoc; reflexivity|]. split.
        * apply Forall_app. split; [exact I6|]. apply Forall_impl with (2 := M1). intros d Hd. rewrite I4. now apply moment_more.
        * apply Forall_app. split; [|exact L1]. apply Forall_impl with (2 := I7). intros d Hd g G1 G2. rewrite Hd, O1 by assumption. reflexivity.
  Qed.
  (** *** the start *)
  Lemma initCrowding_frame c (s s' : ost R) r : initCrowding c s = (s', r) -> s_gopt s' = s_gopt s /\ h_data (s_hist s') = h_data (s_hist s) /\ h_dim (s_hist s') = h_dim (s_hist s) /\ s_evals s' = s_evals s.
  Proof.
    unfold initCrowding. destruct (c_var c); cbn [swhen]; [|intros [= <- _]; auto]. intros H. apply sbind_inv in H as [(s1 & u & H1 & H)|[H1 _]].
    - unfold in_hist, szoom in H1. destruct (hist_crowding (s_hist s)) as [h r'] eqn:E. injection H1 as <- _. apply crowding_frame in E as (k & ->). injection H as <- _. cbn. auto.
    - unfold in_hist, szoom in H1. destruct (hist_crowding (s_hist s)) as [h r'] eqn:E. injection H1 as <- _. apply crowding_frame in E as (k & ->). cbn. auto.
  Qed.
  Lemma hist_save_keep (h h' : hist R) r : hist_save h = (h', r) -> h' = h.
  Proof. unfold hist_save. rewrite (sbind_ok _ _ _ h h) by reflexivity. destruct (mat_isEmpty _); intros [= <- _]; reflexivity. Qed.
  Lemma startF_ok c n (s : rst R) o' : names_ok writable c n -> startRun c (Ok tt) (r_opt s) = (o', Ok tt) -> tracked c o' ->
    exists s', startRunF n c (Ok tt) s = (s', Ok tt) /\ r_opt s' = o' /\ wrote c n o' s s'.
  Proof.
    intros N E T. rewrite start_parts in E. unfold RunFileModel.startRunF.
    apply sbind_inv in E as [(o1 & u1 & E1 & E)|[_ E]]; [|discriminate]. destruct u1. apply sbind_inv in E as [(o2 & u2 & E2 & E)|[_ E]]; [|discriminate]. destruct u2.
    apply sbind_inv in E as [(o3 & u3 & E3 & E)|[_ E]]; [|discriminate]. destruct u3. apply sbind_inv in E as [(o4 & u4 & E4 & E)|[_ E]]; [|discriminate]. destruct u4.
    assert (o2 = o1). { unfold in_hist, szoom in E2. destruct (hist_save (s_hist o1)) as [h r] eqn:Q. injection E2 as <- _. apply hist_save_keep in Q. subst h. destruct o1; reflexivity. } subst o2.
    destruct (findOptimum_frame _ _ _ _ E4) as (g & ->). destruct (initCrowding_frame _ _ _ _ E) as (F1 & F2 & F3 & _).
    assert (A3 : h_data (s_hist o3) = h_data (s_hist o1) /\ h_dim (s_hist o3) = h_dim (s_hist o1)). { unfold setDoE, in_hist, szoom, smod in E3. injection E3 as <-. auto. } destruct A3 as [A3 B3].
    cbn [s_gopt s_hist set_gopt] in F1, F2, F3. rewrite A3 in F2. rewrite B3 in F3. pose proof T as (_ & _ & T3 & T4 & T5 & _). rewrite F2 in T3, T4. rewrite F3 in T5.
    rewrite (sbind_ok _ _ _ _ tt (lo_ok _ s _ _ E1)). rewrite (sbind_ok _ _ _ _ tt (saveHistory_ok c n (mkRst o1 (r_disk s) (r_past s)) N T3 T4 T5)). cbn [r_opt r_disk r_past].
    set (s2 := mkRst o1 _ _). rewrite (sbind_ok _ _ _ _ tt (lo_ok _ s2 _ _ E3)). set (s3 := mkRst o3 _ _). unfold findOptimumF.
    assert (X : ds_x (go_d (s_gopt (set_gopt g o3))) <> []). { cbn [s_gopt set_gopt]. rewrite <- F1. exact (opt_x c _ T). }
    pose proof (lo_ok (findOptimum c) s3 _ _ E4) as A4.
    rewrite (sbind_ok _ _ _ _ tt (eq_trans (sbind_ok _ _ _ _ tt A4) (saveReport_ok c n (mkRst (set_gopt g o3) (r_disk s3) (r_past s3)) N X))). cbn [r_opt].
    match goal with |- context [lo (initCrowding c) ?s5] => rewrite (lo_ok (initCrowding c) s5 _ _ E) end. eexists. split; [reflexivity|]. split; [reflexivity|].
    assert (T1 : table_out c n o1 = table_out c n o') by (unfold table_out; now rewrite F2). assert (T2 : report_out (set_gopt g o3) = report_out o') by (unfold report_out; cbn [s_gopt set_gopt]; now rewrite F1).
    unfold wrote. cbn [r_disk r_past]. rewrite T2. unfold s3, s2. cbn [r_disk r_past]. rewrite T1. split; reflexivity.
  Qed.
  (** the start of a run whose files cannot be written *)
  Lemma start_split c (o o' : ost R) : startRun c (Ok tt) o = (o', Ok tt) -> tracked c o' -> exists o1 o3 g, beforeStart c (Ok tt) o = (o1, Ok tt) /\ setDoE c o1 = (o3, Ok tt) /\ findOptimum c o3 = (set_gopt g o3, Ok tt) /\
    history (c_dim c) (length (c_cons c)) (h_data (s_hist o1)) /\ (0 < nrows (h_data (s_hist o1)))%nat /\ h_dim (s_hist o1) = c_dim c /\ h_data (s_hist o1) = h_data (s_hist o') /\ s_evals o1 = s_evals o' /\ s_evals o3 = s_evals o'.
  Proof.
    intros E T. rewrite start_parts in E.
    apply sbind_inv in E as [(o1 & u1 & E1 & E)|[_ E]]; [|discriminate]. destruct u1. apply sbind_inv in E as [(o2 & u2 & E2 & E)|[_ E]]; [|discriminate]. destruct u2.
    apply sbind_inv in E as [(o3 & u3 & E3 & E)|[_ E]]; [|discriminate]. destruct u3. apply sbind_inv in E as [(o4 & u4 & E4 & E)|[_ E]]; [|discriminate]. destruct u4.
    assert (o2 = o1). { unfold in_hist, szoom in E2. destruct (hist_save (s_hist o1)) as [h r] eqn:Q. injection E2 as <- _. apply hist_save_keep in Q. subst h. destruct o1; reflexivity. } subst o2.
    destruct (findOptimum_frame _ _ _ _ E4) as (g & ->). destruct (initCrowding_frame _ _ _ _ E) as (F1 & F2 & F3 & F4).
    assert (A3 : h_data (s_hist o3) = h_data (s_hist o1) /\ h_dim (s_hist o3) = h_dim (s_hist o1) /\ s_evals o3 = s_evals o1). { unfold setDoE, in_hist, szoom, smod in E3. injection E3 as <-. auto. } destruct A3 as (A3 & B3 & C3).
    cbn [s_gopt s_hist set_gopt s_evals] in F1, F2, F3, F4. pose proof T as (_ & _ & T3 & T4 & T5 & _). rewrite F2, A3 in T3, T4. rewrite F3, B3 in T5.
    exists o1, o3, g. repeat (split; [first [assumption|congruence]|]). congruence.
  Qed.
  Lemma start_current c n (s s' : rst R) : names_ok writable c n -> tracked c (r_opt s') -> wrote c n (r_opt s') s s' -> current c n s' /\ others n (r_disk s) (r_disk s').
  Proof.
    intros N T (D & P). pose proof N as (_ & _ & _ & NE & _). pose proof (table_ok_out c n _ N T) as TT. split.
    - unfold current. rewrite D. split.
      + exists (table_out c n (r_opt s')). rewrite !(put_other (f_rep n)) by exact NE. rewrite put_same. auto.
      + apply report_ok_out; [exact T|]. apply put_same.
    - intros g G1 G2. rewrite D. now rewrite !put_other by assumption.
  Qed.
End Writes.
