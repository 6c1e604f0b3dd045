(** One test of a linear regression model by a new tester. *)
From Coq Require Import Ascii String ZArith Bool Arith Permutation Reals Lra List Lia.
From Verif Require Import Base StM Num RealNum RSpec VecModel MatModel MatLemmas MatSpec VecProofs VecReal MatProofs MatProofs2 LuProofs StrModel StrSpec StrReal ExtModel ExtProofs BoundsModel CorrModel CorrSpec DataModel DataSpec DataProofs DataReal
  KrigModel KrigSpec KrigMath KrigProofs KrigProofs2 KrigProofs3 KrigProg KrigProofs4 KrigProofs5 PropsData PropsStat EaModel TrainModel TrainReal CsvModel CsvSpec CsvProofs PropsCsv RunFileModel RunFileSpec RunFileText TesterModel TesterSpec TesterFrame TesterProofs TesterProofs2 TesterProofs3 TesterProofs4 TesterProofs5.
Import ListNotations.
Local Open Scope R_scope.

Definition set_lin (l : lmodel R) (ts : tstate R) : tstate R := mkTS l (v_lintest ts) (v_krig ts) (v_krigtest ts).
Lemma on_lin_ok {A} (m : SM (lmodel R) A) l lt t g (fs : files) l' a : m l = (l', Ok a) -> on_lin m (mkTS l lt t g, fs) = ((mkTS l' lt t g, fs), Ok a).
Proof. intros H. unfold on_lin, szoom. cbn [fst v_lin]. rewrite H. reflexivity. Qed.
Lemma reported_all d b p rs : reported_error d b p rs rs = mean_squared_error d b p rs.
Proof. reflexivity. Qed.
Lemma lin_inSample_ok (s : lmodel R) d b tr file : l_init s = true -> l_dim s = d -> (0 < d)%nat -> length (l_w s) = S d -> d_raw (l_data s) = file -> d_n (l_data s) = length tr -> nrows (d_X (l_data s)) = length tr -> ncols (d_X (l_data s)) = d ->
  rows (d_X (l_data s)) = points b d tr -> table file -> ncols file = S d -> (length tr <= nrows file)%nat ->
  lin_inSampleError s = Ok (reported_error d b (lpredict d (vget (l_w s))) tr (rows file)).
Proof.
  intros H1 H2 H3 H4 H5 H6 H7 H8 H9 Ht Hc Hle. unfold lin_inSampleError. rewrite H1. cbn [negb]. rewrite H2, H5, H6. rewrite getCol_rows by lia. cbn [bind].
  change (map (fun r => nth d r n0) (rows file)) with (outputs d (rows file)).
  match goal with |- context[loopR _ ?g _] => assert (forall m, (m <= length tr)%nat -> loopR m g 0 = Ok (rsum m (fun i => (lpredict d (vget (l_w s)) (scaled b d (nth i tr [])) - output d (rows file) i) ^ 2))) as L end.
  { induction m; intros Hm. auto. cbn [loopR]. rewrite IHm by lia. cbn [bind]. rewrite (getRow_ok _ m) by (auto; lia). cbn [bind].
    rewrite H9, point_scaled by lia. rewrite (lin_interpolate_ok s d) by (auto; apply scaled_length). cbn [bind]. unfold vec_at. rewrite outputs_length, rows_length.
    destruct (Nat.leb_spec (nrows file) m); [lia|]. cbn [bind rsum]. f_equal. simpl. unfold output, vget. simpl. ring. }
  change (@n0 R RNum) with 0. rewrite L by auto. cbn [bind]. unfold reported_error, nofnat. simpl. rewrite <- INR_IZR_INZ. f_equal. f_equal. apply rsum_ext. intros i Hi. rewrite output_nth by (rewrite rows_length; lia). reflexivity.
Qed.
Lemma unpicked_le ix (rs : list (list R)) : (length (unpicked ix rs) <= length rs)%nat.
Proof. rewrite unpicked_map, map_length. transitivity (length (seq 0 (length rs))); [|now rewrite seq_length]. induction (seq 0 (length rs)); cbn; auto. destruct (negb _); cbn; lia. Qed.
Lemma training_le ratio perm (rs tr : list (list R)) : training_rows ratio perm rs tr -> (length tr <= length rs)%nat.
Proof. unfold training_rows. destruct ratio. intros (q & _ & ->). apply unpicked_le. intros ->. auto. Qed.

(** a model that cannot be evaluated *)
Lemma test_table_throws d b tfile tf var (s : sdata R) e : (0 < d)%nat -> table tfile -> (0 < nrows tfile)%nat -> (ncols tfile = S d \/ (ncols tfile = d /\ tf = false)) -> d_dim s = d -> test_ready d b tfile tf (test_of s) ->
  test_table (fun _ => Throw e) d s true var = Throw e.
Proof.
  intros D0 Ht Hn Hc Hs [A1 A2 A3 A4 A5]. cbn [test_of o_nt o_xr o_x o_tf o_tr] in *. unfold test_table. cbn [negb]. rewrite A4, A5, A2, A1, Hs.
  assert (nrows (d_Xtest s) = nrows tfile) as Nx by (rewrite <- rows_length, A3, map_length; apply rows_length).
  assert (exists fe, (if tf then mat_getCol tfile (Z.of_nat d) else Ok []) = Ok fe) as (fe & ->).
  { destruct tf; [|eauto]. rewrite getCol_rows by (destruct Hc as [|[? ?]]; [lia|discriminate]). eauto. }
  cbn [bind]. generalize (mat_zero (nrows tfile) (test_columns s var), @nil R) as a. intros a.
  assert (forall k, (k < nrows tfile)%nat -> loopR (S k) (test_step (fun _ => Throw e) d s fe var) a = Throw e) as L.
  { induction k; intros Hk.
    - cbn [loopR bind]. unfold test_step. rewrite Nx, A2. destruct (Nat.ltb_spec 0 (nrows tfile)); [|lia]. rewrite (getRow_ok _ 0) by lia. cbn [bind]. rewrite (getRow_ok _ 0) by lia. cbn [bind].
      unfold vec_head. rewrite nth_rows by lia. rewrite mrow_length. destruct (Nat.ltb_spec (ncols tfile) d); [lia|]. reflexivity.
    - cbn [loopR] in *. rewrite IHk by lia. reflexivity. }
  destruct (nrows tfile) eqn:E; [lia|]. apply L. lia.
Qed.
Lemma sbind_throw {S A B} (m : SM S A) (k : A -> SM S B) s s' e : m s = (s', Throw e) -> sbind m k s = (s', Throw e).
Proof. intros H. unfold sbind. now rewrite H. Qed.
Section Test.
  Context (writable : str -> bool) (fixed : nat -> R -> str) (F : forall p x, fixed_text_of p x (fixed p x)) (W : writable results_file = true).
  Lemma perform_linear h ty multi st perm us ws fs : b_set (h_box h) = true -> h_name h <> [] -> (0 < h_dim h)%nat -> data_file_name (h_train h) -> data_file_name (h_test h) ->
    tester_perform writable fixed perm us ws (mkTt h ty true PLinear multi st, fs) =
    (let (w, r) := test_linear writable fixed h perm (st, fs) in ((mkTt h ty true PLinear multi (fst w), snd w), r)).
  Proof.
    intros Hb Hn Hd F1 F2. apply filename_iff in F1. apply filename_iff in F2. unfold tester_perform. unfold sbind at 1, sget at 1. cbn [fst snd q_conf q_bound q_ptr].
    rewrite Hb. cbn [negb]. unfold sthrow_if. unfold sbind at 1, sret at 1. unfold sassert. unfold sbind at 1, sret at 1.
    assert (is_empty (h_name h) = false) as -> by (destruct (h_name h); [congruence|reflexivity]). cbn [negb]. unfold sbind at 1, sret at 1.
    destruct (Nat.ltb_spec 0 (h_dim h)); [|lia]. unfold sbind at 1, sret at 1. unfold slift. rewrite F1, F2. unfold sbind at 1 2. unfold szoom. cbn [fst snd q_state q_conf q_type q_bound q_ptr q_multi].
    destruct (test_linear _ _ _ _ _) as [w r]. reflexivity.
  Qed.
  Lemma program_linear nm d b ftr fte ratio n var fs : nm <> [] -> b_set b = true -> data_file_name ftr -> data_file_name fte -> (forall v, ratio = Some v -> 0 <= v <= 1) ->
    tcalls_run writable fixed (test_program nm d b ftr fte LinearRegression ratio n var) (tester_new, fs) =
    (mkTt (mkTC d nm b n ftr fte false var) (Some LinearRegression) true PLinear false (mkTS (lset_ratio ratio lmodel_new) tested_new trainer_new tested_new), fs).
  Proof.
    intros Hn Hb F1 F2 Hr. apply filename_iff in F1. apply filename_iff in F2. set (x := trainer_new). unfold test_program, tester_new. fold x. set (y := (100 * 100)%nat). cbn [app].
    assert (is_empty nm = false) as He by (destruct nm; [congruence|reflexivity]).
    assert (forall v, ratio = Some v -> ((v <! n0) && (n1 <! v))%bool = false /\ ((v <! n0) || (n1 <! v))%bool = false) as Hv.
    { intros v E. specialize (Hr v E). cbn. destruct (Rltb_spec v 0); [lra|]. destruct (Rltb_spec 1 v); [lra|]. auto. }
    erewrite tcalls_cons; [|tstep; rewrite He; cbn [negb]; tfin]. erewrite tcalls_cons; [|tstep; tfin]. erewrite tcalls_cons; [|tstep; rewrite Hb; cbn [negb]; tfin].
    erewrite tcalls_cons; [|tstep; rewrite F1; tfin]. erewrite tcalls_cons; [|tstep; rewrite F2; tfin]. erewrite tcalls_cons; [|tstep; tfin].
    assert (forall l, tcalls_run writable fixed [CIters n; CFlags false var] (mkTt (mkTC d nm b y ftr fte false false) (Some LinearRegression) true PLinear false (mkTS l tested_new x tested_new), fs) =
      (mkTt (mkTC d nm b n ftr fte false var) (Some LinearRegression) true PLinear false (mkTS l tested_new x tested_new), fs)) as Tail by reflexivity.
    erewrite tcalls_cons; [|tstep; tfin]. destruct ratio as [v|]; cbn [app lset_ratio]; [|apply Tail]. destruct (Hv v eq_refl) as (V1 & V2).
    erewrite tcalls_cons; [apply Tail|]; tstep; rewrite V1; unfold in_state, in_ldata, data_setRatio, sbind, szoom, sthrow_if; cbn [q_state v_lin]; rewrite V2; reflexivity.
  Qed.
  (** a regression of the training rows and the results written for it; with the variances asked for, nothing is written *)
  Lemma linear_test_run d b ratio (file tfile : mat R) h perm fs t g : (forall v, ratio = Some v -> 0 < v < 1) -> (ratio <> None -> Permutation perm (seq 0 (nrows file))) ->
    h_dim h = d -> h_box h = b -> (0 < d)%nat -> (d < 100)%nat -> box_ok ztol d b ->
    mat_readFromCSV (h_train h) false fs = (fs, Ok file) -> table file -> (0 < nrows file)%nat -> ncols file = S d ->
    mat_readFromCSV (h_test h) false fs = (fs, Ok tfile) -> table tfile -> (0 < nrows tfile)%nat -> ncols tfile = S d \/ ncols tfile = d ->
    let tf := Nat.eqb (ncols tfile) (S d) in
    exists st' fs' r tr, test_linear writable fixed h perm (mkTS (lset_ratio ratio lmodel_new) tested_new t g, fs) = ((st', fs'), r) /\ training_rows ratio perm (rows file) tr /\
      if h_var h then r = Throw LogicError /\ fs' = fs
      else exists p tx, fitted_linear d b tr p /\ r = Ok (Some (reported_error d b p tr (rows file))) /\
         (tf = true -> g_error (v_lintest st') = mean_squared_error d b p (rows tfile)) /\ g_header (v_lintest st') <> [] /\
         fs' results_file = Some tx /\ result_text d tf false b (fun x => (p x, 0)) (rows tfile) tx /\ (forall f, f <> results_file -> fs' f = fs f).
  Proof.
    intros Hr Hp Hd Hb D0 Dl B C1 Ht Hn Hc C2 Tt Tn Tc tf. pose proof B as (Bs & Bd & _).
    set (s0 := set_ratio (ratio_value ratio) (set_box b (set_dim 0 (@sdata_new R RNum)))).
    destruct (new_read s0 0 d b ratio file perm eq_refl (or_introl eq_refl) D0 Ht Hn Hc Hr Hp) as (s1 & tr & ER & DL & Tr).
    destruct (normalize_loaded s1 d b tr file DL B D0) as (s2 & E2 & N & (A1 & A2 & A3 & A4 & A5 & A6)).
    assert (d_dim s1 = d) as Dd. { destruct (dl_tr _ _ _ _ _ DL) as (A & _). auto. }
    assert (f_testf s1 = false) as Ft. { pose proof (data_read_blind file perm (test_of s0) s0) as Q. rewrite dt_self, ER in Q. cbn [fst snd] in Q. apply (f_equal fst) in Q. cbn [fst] in Q. rewrite Q. reflexivity. }
    destruct (readTest_ok s1 d tfile b Dd D0 Tt Tn Tc B) as (t0 & t1 & ET & TR & NT'). rewrite Ft in TR. assert (has_values d tfile false = tf) as HV by (unfold has_values; apply orb_false_r). rewrite HV in TR.
    assert (d_box s2 = b) as Bb. { destruct N, DL. congruence. }
    set (l1 := mkL d 0 s0 [] n0 false false false : lmodel R). set (l2 := mkL d (d_n s1) s1 [] n0 true false false : lmodel R). set (l3 := mkL d (d_n s1) (dt t0 s1) [] n0 true false false : lmodel R).
    set (l4 := mkL d (d_n s1) (dt t0 s2) [] n0 true true false : lmodel R). set (l5 := mkL d (d_n s1) (dt t1 s2) [] n0 true true false : lmodel R).
    assert (lready l5 d (points b d tr) (outputs d tr)) as Q.
    { pose proof (dl_ne _ _ _ _ _ DL). constructor; auto; cbn [l5 l_n l_data]; rewrite ?points_length; auto.
      - rewrite <- (z_n _ _ _ _ N), A5. auto. - rewrite outputs_length. auto. }
    destruct (lin_initialize_ok l5 d _ _ Q) as (I1 & I2). destruct (I2 Dl) as (l6 & E6). destruct (I1 l6 E6) as (w & W1 & W2 & W3 & W4 & W5). destruct (lin_initialize_frame _ _ E6) as (w0 & Fr). subst w. rewrite Fr in W4, W5. cbn [l_w] in W4, W5.
    assert (lready l6 d (points b d tr) (outputs d tr)) as Q6. { destruct Q. rewrite Fr. constructor; auto. }
    destruct (lin_train_ok l6 d _ _ Q6) as (T1 & T2). assert (l_reg l6 = 1 / 10 ^ 8) as LR by (rewrite Fr; reflexivity). rewrite LR in *.
    destruct T2 as (l7 & E7). lra. { unfold tiny. assert (INR (S d) <= 100). { replace 100 with (INR 100). apply le_INR; lia. simpl; lra. } pose proof (pos_INR (S d)).
      replace (1 / 10 ^ 8 * (1 / 10 ^ 8)) with (100 * (1 / 10 ^ 9 * (1 / 10 ^ 9))) by field. apply Rmult_le_compat_r; lra. }
    destruct (T1 l7 E7) as (w & E7w & Lw & NE). set (lt := marked tested_new).
    assert (forall m, (test_linear writable fixed h perm (mkTS (lset_ratio ratio lmodel_new) tested_new t g, fs)) = m -> (
      get w <-- sget (fun w => w);
      let s := v_lin (fst w) in
      run on_lintest (on_tested (try_test (fun x => if h_var h then Throw LogicError else f <- lin_interpolate s x ;; Ok (f, n0)) (l_dim s) (l_data s) (h_var h)));
      run on_lintest (save_test writable fixed (l_data s) (h_var h));
      get e <-- slift (lin_inSampleError s);
      sret (Some e)) (mkTS l7 lt t g, fs) = m) as RUN.
    { intros m <-. unfold test_linear. rewrite Hd, Hb. symmetry.
      assert ((run lin_setDimension d; lin_setBox b) (lset_ratio ratio lmodel_new) = (l1, Ok tt)) as X1. { unfold lin_setDimension, lin_setBox, in_ldata, data_setBox, szoom, sassert, sbind, smod. rewrite Bs. unfold l1, s0. destruct ratio; reflexivity. }
      rewrite (sbind_ok _ _ _ _ _ (on_lin_ok _ _ tested_new t g fs _ _ X1)).
      rewrite (sbind_ok _ _ _ _ _ (on_files_ok _ _ _ _ _ C1)).
      assert (lin_readSplit file perm l1 = (l2, Ok tt)) as X2. { unfold lin_readSplit, in_ldata, szoom, sbind, smod. cbn [l1 l_data]. rewrite ER. reflexivity. }
      rewrite (sbind_ok _ _ _ _ _ (on_lin_ok _ _ tested_new t g fs _ _ X2)).
      rewrite (sbind_ok _ _ _ _ _ (on_files_ok _ _ _ _ _ C2)).
      assert (in_ldata (data_readTest tfile) l2 = (l3, Ok tt)) as X3. { unfold in_ldata, szoom. cbn [l2 l_data]. rewrite ET. reflexivity. }
      rewrite (sbind_ok _ _ _ _ _ (on_lin_ok _ _ tested_new t g fs _ _ X3)).
      assert (lin_setBox b l3 = (l3, Ok tt)) as X4. { unfold lin_setBox, in_ldata, data_setBox, szoom, sassert, sbind, smod. rewrite Bs. cbn [sret]. unfold sret, l3. cbn [l_data]. unfold lset_data. cbn [l_dim l_n l_w l_reg l_read l_norm l_init]. f_equal. f_equal.
        assert (d_box (dt t0 s1) = b) as Q1 by (destruct DL; auto). clear -Q1. destruct (dt t0 s1). cbn in Q1. subst. reflexivity. }
      rewrite (sbind_ok _ _ _ _ _ (on_lin_ok _ _ tested_new t g fs _ _ X4)).
      assert (lin_normalizeData l3 = (l4, Ok tt)) as X5. { unfold lin_normalizeData, sbind, in_ldata, szoom, sget. cbn [l3 l_read sassert]. unfold sret. change (l_data l3) with (dt t0 s1). rewrite zero_tol_eq, (data_normalize_blind ztol t0 s1), E2. reflexivity. }
      rewrite (sbind_ok _ _ _ _ _ (on_lin_ok _ _ tested_new t g fs _ _ X5)).
      assert (in_ldata (data_normTest zero_tol) l4 = (l5, Ok tt)) as X6. { unfold in_ldata, szoom. cbn [l4 l_data]. rewrite NT' by auto. reflexivity. }
      rewrite (sbind_ok _ _ _ _ _ (on_lin_ok _ _ tested_new t g fs _ _ X6)).
      rewrite (sbind_ok _ _ _ (mkTS l5 lt t g, fs) tt) by reflexivity.
      rewrite (sbind_ok _ _ _ _ _ (on_lin_ok _ _ lt t g fs _ _ E6)). rewrite (sbind_ok _ _ _ _ _ (on_lin_ok _ _ lt t g fs _ _ E7)). reflexivity. }
    destruct (test_linear writable fixed h perm _) as [[st' fs'] r] eqn:EE. specialize (RUN _ eq_refl). clear EE. exists st', fs', r, tr. split; auto. split; auto.
    rewrite (sbind_ok _ _ _ (mkTS l7 lt t g, fs) (mkTS l7 lt t g, fs)) in RUN by reflexivity. cbn [fst v_lin] in RUN. cbv zeta in RUN.
    assert (l_dim l7 = d /\ l_w l7 = w /\ l_data l7 = dt t1 s2 /\ l_init l7 = true) as (Z1 & Z2 & Z3 & Z4). { rewrite E7w, Fr. auto. } rewrite Z1, Z3 in RUN.
    assert (d_dim (dt t1 s2) = d) as Z5 by exact A6. assert (test_ready d b tfile tf (test_of (dt t1 s2))) as Z6 by (rewrite test_of_dt; exact TR). assert (ncols tfile = S d \/ (ncols tfile = d /\ tf = false)) as Z7.
    { unfold tf. destruct (Nat.eqb_spec (ncols tfile) (S d)); auto. right. destruct Tc; [lia|auto]. }
    destruct (h_var h).
    - rewrite (sbind_throw _ _ _ (mkTS l7 lt t g, fs) LogicError) in RUN. { injection RUN as <- <- <-. auto. }
      unfold on_lintest, on_tested, szoom. cbn [fst snd v_krigtest v_lin v_lintest v_krig]. unfold try_test. rewrite (sbind_ok _ _ _ lt lt) by reflexivity. unfold sbind, slift. change (g_norm lt) with true.
      rewrite (test_table_throws d b tfile tf true (dt t1 s2)); auto.
    - set (p := lpredict d (vget w)). destruct (try_ok d b tfile tf false (dt t1 s2) (fun x => (p x, 0)) (fun x => f <- lin_interpolate l7 x ;; Ok (f, n0)) lt) as (g1 & G1 & Gh1 & Gn1 & Gr1 & Gc1 & Ge1); auto.
      { intros x Hx. rewrite (lin_interpolate_ok l7 d) by (auto; congruence). rewrite Z2. reflexivity. }
      destruct (report_ok writable fixed F W d b tfile tf false (dt t1 s2) (fun x => (p x, 0)) g1 fs) as (g2 & fs2 & tx & G2 & Ge2 & Gh2 & Fr2 & Fo & Tx); auto.
      { exact (tr_tf _ _ _ _ _ TR). }
      rewrite (sbind_ok _ _ _ (mkTS l7 g1 t g, fs) tt) in RUN by (unfold on_lintest, on_tested, szoom; cbn [fst snd v_krigtest v_lin v_lintest v_krig]; rewrite G1; reflexivity).
      rewrite (sbind_ok _ _ _ (mkTS l7 g2 t g, fs2) tt) in RUN by (unfold on_lintest, szoom; cbn [fst snd v_krigtest v_lin v_lintest v_krig]; rewrite G2; reflexivity).
      assert (lin_inSampleError l7 = Ok (reported_error d b p tr (rows file))) as EI.
      { unfold p. rewrite <- Z2. apply lin_inSample_ok; auto; try congruence; rewrite ?Z3; auto. destruct N, DL. cbn. congruence. pose proof (training_le _ _ _ _ Tr) as Q1. rewrite rows_length in Q1. auto. }
      rewrite EI in RUN. cbn in RUN. injection RUN as <- <- <-. exists p, tx. split. { exists (vget w). split; auto. }
      split; auto. cbn [v_lintest]. split. { intros Q1. rewrite Ge2. auto. } auto.
  Qed.
End Test.
