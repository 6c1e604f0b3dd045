(** A whole test of a Kriging model. *)
From Coq Require Import Ascii String ZArith Bool Arith Permutation Reals Lra List Lia.
From Verif Require Import Base StM Num RealNum RSpec VecModel MatModel MatLemmas MatSpec VecProofs VecReal MatProofs MatProofs2 LuProofs StrModel StrSpec StrReal ExtModel ExtProofs BoundsModel CorrModel CorrSpec DataModel DataSpec DataProofs DataReal
  KrigModel KrigSpec KrigMath KrigProofs KrigProofs2 KrigProofs3 KrigProg KrigProofs4 KrigProofs5 PropsStat EaModel TrainModel TrainReal CsvModel CsvSpec CsvProofs RunFileModel RunFileSpec RunFileText TesterModel TesterSpec TesterFrame TesterProofs TesterProofs2.
Import ListNotations.
Local Open Scope R_scope.

Lemma point_scaled b d rs i : (i < length rs)%nat -> nth i (points b d rs) [] = scaled b d (nth i rs []).
Proof. intros H. unfold points, inputs. rewrite map_map. rewrite (nth_indep _ [] (unit_row b d (firstn d []))) by (rewrite map_length; auto). rewrite (map_nth (fun r => unit_row b d (firstn d r))). reflexivity. Qed.
Lemma output_nth d rs i : (i < length rs)%nat -> output d rs i = nth d (nth i rs []) 0.
Proof. intros H. unfold output, outputs. rewrite (nth_indep _ 0 (nth d [] 0)) by (rewrite map_length; auto). apply (map_nth (fun r => nth d r 0)). Qed.
Lemma error_mean d b (p : list R -> R * R) rs : rs <> [] -> vec_mean (squared_errors d b p rs) = Ok (mean_squared_error d b (fun x => fst (p x)) rs).
Proof.
  intros H. assert (length (squared_errors d b p rs) = length rs) as L by apply map_length.
  rewrite mean_value. 2:{ intros E. rewrite E in L. destruct rs; [congruence|discriminate]. }
  rewrite L, total_rsum, L. unfold mean_squared_error. f_equal. f_equal. apply rsum_ext. intros i Hi. unfold squared_errors.
  rewrite (nth_indep _ 0 ((nth d [] 0 - fst (p (scaled b d []))) ^ 2)) by (rewrite map_length; auto). rewrite (map_nth (fun r => (nth d r 0 - fst (p (scaled b d r))) ^ 2)). ring.
Qed.
Section Run.
  Context (writable : str -> bool) (fixed : nat -> R -> str) (F : forall p x, fixed_text_of p x (fixed p x)) (W : writable results_file = true).
  (** evaluating the test data and writing the table *)
  Lemma try_ok d b tfile (tf var : bool) (s : sdata R) (p : list R -> R * R) (pred : vec R -> Res (R * R)) (g : tested R) : (0 < d)%nat -> table tfile -> (0 < nrows tfile)%nat -> (ncols tfile = S d \/ (ncols tfile = d /\ tf = false)) -> d_dim s = d -> test_ready d b tfile tf (test_of s) ->
    (forall x, length x = d -> pred x = Ok (fst (p x), if var then snd (p x) else 0)) -> g_norm g = true ->
    exists g', try_test pred d s var g = (g', Ok tt) /\ g_header g' = g_header g /\ g_norm g' = true /\ rows (g_results g') = map (result_row d tf var b p) (rows tfile) /\ ncols (g_results g') = test_columns s var /\
      (tf = true -> g_error g' = mean_squared_error d b (fun x => fst (p x)) (rows tfile)).
  Proof.
    intros Hd Ht Hn Hc Hs TR Hp Hg. destruct (test_table_ok d b tfile tf var s p pred Hd Hn Hc Hs TR Hp) as (m & E & Rm & Cm).
    assert (exists e, test_error s (if tf then squared_errors d b p (rows tfile) else []) (g_error g) = Ok e /\ (tf = true -> e = mean_squared_error d b (fun x => fst (p x)) (rows tfile))) as (e & Ee & He).
    { unfold test_error. pose proof (tr_tf _ _ _ _ _ TR) as A. cbn in A. rewrite A. destruct tf; [|eexists; split; [reflexivity|discriminate]].
      assert (rows tfile <> []) as NE. { intros Q. apply (f_equal (@length _)) in Q. rewrite rows_length in Q. cbn in Q. lia. }
      unfold vec_std. rewrite (error_mean d b p _ NE). cbn [bind]. eexists. split; [reflexivity|auto]. }
    exists (mkTd (g_header g) m e (g_norm g)). split. { unfold try_test. rewrite (sbind_ok _ _ _ g g) by reflexivity. rewrite (sbind_ok _ _ _ g (m, if tf then squared_errors d b p (rows tfile) else [])) by (unfold slift; rewrite Hg, E; reflexivity).
      cbn [snd]. rewrite (sbind_ok _ _ _ g e) by (unfold slift; rewrite Ee; reflexivity). reflexivity. }
    cbn [g_header g_norm g_results g_error]. repeat (split; auto). rewrite Cm. unfold test_columns. pose proof (tr_tf _ _ _ _ _ TR) as A. cbn in A. rewrite A, Hs. reflexivity.
  Qed.
  Lemma report_ok d b tfile (tf var : bool) (s : sdata R) (p : list R -> R * R) (g : tested R) (fs : files) : d_dim s = d -> f_testf s = tf -> g_header g = [] -> rows (g_results g) = map (result_row d tf var b p) (rows tfile) -> ncols (g_results g) = test_columns s var ->
    exists g' fs' t, save_test writable fixed s var (g, fs) = ((g', fs'), Ok tt) /\ g_error g' = g_error g /\ g_header g' <> [] /\ fs' results_file = Some t /\ (forall f, f <> results_file -> fs' f = fs f) /\ result_text d tf var b p (rows tfile) t.
  Proof.
    intros Hd Ht Hh Hr Hc. destruct (save_ok writable fixed F W s var g fs Hh Hc) as (fs' & t & E & E1 & E2 & E3). destruct (header_spec s var) as (HC & HL). eexists _, fs', t. split; [exact E|]. split; [reflexivity|].
    split. { cbn [g_header]. intros Q. rewrite Q in HL. unfold test_columns in HL. cbn in HL. destruct (f_testf s); lia. } split; auto. split; auto. eexists. rewrite <- Hr, <- Hd, <- Ht. split; [exact HC|exact E3].
  Qed.

  Definition krig_finish (var : bool) (r : option unit) : SM (tstate R * files) (option R) :=
    match r with
    | None => sret None
    | Some _ =>
        get w <-- sget (fun w => w);
        let k := t_k (v_krig (fst w)) in
        run on_krigtest (on_tested (try_test (fun x => if var then krig_variance k x else f <- krig_interpolate k x ;; Ok (f, n0)) (k_dim k) (k_data k) var));
        run on_krigtest (save_test writable fixed (k_data k) var);
        get e <-- slift (krig_inSampleError k);
        sret (Some e)
    end.
  Lemma krig_finish_ok (l : lmodel R) lt (t : trainer R) g fs d b lin file c th ga ys tfile tf var : fitted (t_k t) d b lin (1 / 10 ^ 12) (rows file) file c th ga ys -> trained_range d th ga -> (0 < d)%nat -> table file -> (0 < nrows file)%nat -> ncols file = S d ->
    test_ready d b tfile tf (test_of (k_data (t_k t))) -> table tfile -> (0 < nrows tfile)%nat -> (ncols tfile = S d \/ (ncols tfile = d /\ tf = false)) -> g_header g = [] -> g_norm g = true ->
    exists p g' fs' tx, trained_kriging d b lin (rows file) p /\ krig_finish var (Some tt) (mkTS l lt t g, fs) = ((mkTS l lt t g', fs'), Ok (Some (mean_squared_error d b (fun x => fst (p x)) (rows file)))) /\
      (tf = true -> g_error g' = mean_squared_error d b (fun x => fst (p x)) (rows tfile)) /\ g_header g' <> [] /\ fs' results_file = Some tx /\ (forall f, f <> results_file -> fs' f = fs f) /\ result_text d tf var b p (rows tfile) tx.
  Proof.
    intros Fk Rg Hd Ht Hn Hc TR Tt Tn Tc Gh Gn. set (k := t_k t) in *. pose proof (range_kparams _ _ _ Rg) as KP.
    assert (kregular d th ga (1 / 10 ^ 12) (points b d (rows file))) as KR. { apply kregular_eps; auto. lra. }
    set (p := fun x => match krig_variance k x with Ok v => v | _ => (0, 0) end).
    set (be := k_beta0 k). set (w := vget (k_Rysb k)). set (s2 := k_s2 k).
    assert (forall x, length x = d -> exists u, kvar_factor d th ga (1 / 10 ^ 12) (points b d (rows file)) x u /\ p x = ((if lin then lpredict d c x else 0) + kpredict d th ga (points b d (rows file)) be w x, s2 * u) /\
      krig_variance k x = Ok (p x) /\ krig_interpolate k x = Ok (fst (p x))) as P.
    { intros x Hx. destruct (fitted_variance _ _ _ _ _ _ _ _ _ _ _ x Fk KP KR Hx) as (u & U & V). exists u. split; auto. unfold p. rewrite V. split; auto. split; auto. cbn [fst]. apply (fitted_predict _ _ _ _ _ _ _ _ _ _ _ x Fk KP KR Hx). }
    destruct (try_ok d b tfile tf var (k_data k) p (fun x => if var then krig_variance k x else f <- krig_interpolate k x ;; Ok (f, n0)) g) as (g1 & E1 & Gh1 & Gn1 & Gr1 & Gc1 & Ge1); auto.
    { apply (ft_ddim _ _ _ _ _ _ _ _ _ _ _ Fk). }
    { intros x Hx. destruct (P x Hx) as (u & _ & _ & Pv & Pi). destruct var; [rewrite Pv; destruct (p x); reflexivity|]. rewrite Pi. reflexivity. }
    destruct (report_ok d b tfile tf var (k_data k) p g1 fs) as (g2 & fs' & tx & E2 & Ge2 & Gh2 & Fr & Fo & Tx); auto.
    { apply (ft_ddim _ _ _ _ _ _ _ _ _ _ _ Fk). } { exact (tr_tf _ _ _ _ _ TR). } { congruence. }
    exists p, g2, fs', tx. split. { exists th, ga, c, be, w, s2. split; auto. split. { eapply fitted_kriging; eauto. } split. { intros L. eapply fitted_normal; eauto. } intros x Hx. destruct (P x Hx) as (u & U & V & _). eauto. }
    split.
    - unfold krig_finish. rewrite (sbind_ok _ _ _ (mkTS l lt t g, fs) (mkTS l lt t g, fs)) by reflexivity. cbn [fst v_krig]. fold k. cbv zeta.
      assert (k_dim k = d) as Kd. { pose proof (ft_conf _ _ _ _ _ _ _ _ _ _ _ Fk) as []. auto. } rewrite Kd.
      rewrite (sbind_ok _ _ _ (mkTS l lt t g1, fs) tt) by (unfold on_krigtest, on_tested, szoom; cbn [fst snd v_krigtest v_lin v_lintest v_krig]; rewrite E1; reflexivity).
      rewrite (sbind_ok _ _ _ (mkTS l lt t g2, fs') tt) by (unfold on_krigtest, szoom; cbn [fst snd v_krigtest v_lin v_lintest v_krig]; rewrite E2; reflexivity).
      assert (krig_inSampleError k = Ok (mean_squared_error d b (fun x => fst (p x)) (rows file))) as EI.
      { rewrite (inSample_ok k d b lin _ (rows file) file c th ga ys (fun i => fst (p (scaled b d (nth i (rows file) [])))) Fk); auto.
        - unfold mean_squared_error. f_equal. f_equal. apply rsum_ext. intros i Hi. rewrite output_nth by auto. reflexivity.
        - rewrite rows_length. auto.
        - intros i Hi. rewrite point_scaled by auto. destruct (P (scaled b d (nth i (rows file) [])) (scaled_length _ _ _)) as (u & _ & _ & _ & Pi). exact Pi. }
      rewrite EI. reflexivity.
    - split. { intros Q. rewrite Ge2. auto. } auto.
  Qed.

  (** up to the training *)
  Lemma on_model_ok {A} (m : SM (krig R) A) l lt (t : trainer R) g (fs : files) k' a : m (t_k t) = (k', Ok a) -> on_krig (in_model m) (mkTS l lt t g, fs) = ((mkTS l lt (tset_k k' t) g, fs), Ok a).
  Proof. intros H. unfold on_krig, in_model, szoom. cbn [fst v_krig]. rewrite H. reflexivity. Qed.
  Lemma on_files_ok {A} (m : SM files A) ts (fs fs' : files) a : m fs = (fs', Ok a) -> on_files m (ts, fs) = ((ts, fs') : tstate R * files, Ok a).
  Proof. intros H. unfold on_files, szoom. cbn [snd]. rewrite H. reflexivity. Qed.
  Definition marked (g : tested R) : tested R := mkTd (g_header g) (g_results g) (g_error g) true.
  Lemma test_krig_train h perm us ws l lt (t : trainer R) g (fs : files) lin eps file tfile tr s1 k1 tf kz c th ga ys :
    (run krig_setDimension (h_dim h); krig_setBox (h_box h)) (t_k t) = (k1, Ok tt) -> loaded_test (h_dim h) (h_box h) lin eps file tfile perm tr s1 k1 tf kz c th ga ys ->
    mat_readFromCSV (h_train h) false fs = (fs, Ok file) -> mat_readFromCSV (h_test h) false fs = (fs, Ok tfile) -> h_warm h = false -> t_warm t = None ->
    test_krig writable fixed h perm us ws (mkTS l lt t g, fs) = sbind (on_krig (krig_train us ws [0%nat])) (krig_finish (h_var h)) (mkTS l lt (tset_iters (h_iters h) (tset_k kz t)) (marked g), fs).
  Proof.
    intros E1 [(ka & t0 & kb & t1 & R1 & R2 & R3 & R4 & R5 & R6) _ _ _ _ _ _] C1 C2 Hw Tw. unfold test_krig.
    rewrite (sbind_ok _ _ _ _ _ (on_model_ok _ l lt t g fs _ _ E1)).
    assert (srethrow RuntimeError (on_files (mat_readFromCSV (h_train h) false)) (mkTS l lt (tset_k k1 t) g, fs) = ((mkTS l lt (tset_k k1 t) g, fs), Ok file)) as C1'. { unfold srethrow. rewrite (on_files_ok _ _ _ _ _ C1). reflexivity. }
    rewrite (sbind_ok _ _ _ _ _ C1').
    rewrite (sbind_ok _ _ _ _ _ (on_model_ok _ l lt (tset_k k1 t) g fs _ _ R1)).
    rewrite (sbind_ok _ _ _ _ _ (on_files_ok _ _ _ _ _ C2)).
    rewrite (sbind_ok _ _ _ _ _ (on_model_ok _ l lt (tset_k ka (tset_k k1 t)) g fs _ _ R2)).
    rewrite (sbind_ok _ _ _ _ _ (on_model_ok _ l lt (tset_k _ (tset_k ka (tset_k k1 t))) g fs _ _ R3)).
    rewrite (sbind_ok _ _ _ _ _ (on_model_ok _ l lt (tset_k _ (tset_k _ (tset_k ka (tset_k k1 t)))) g fs _ _ R4)).
    rewrite (sbind_ok _ _ _ _ _ (on_model_ok _ l lt (tset_k _ (tset_k _ (tset_k _ (tset_k ka (tset_k k1 t))))) g fs _ _ R5)).
    rewrite (sbind_ok _ _ _ (mkTS l lt (tset_k (kt t1 kb) t) (marked g), fs) tt) by reflexivity.
    rewrite (sbind_ok _ _ _ _ _ (on_model_ok _ l lt (tset_k (kt t1 kb) t) (marked g) fs _ _ R6)).
    rewrite (sbind_ok _ _ _ (mkTS l lt (tset_iters (h_iters h) (tset_k kz t)) (marked g), fs) tt) by reflexivity.
    rewrite (sbind_ok _ _ _ (mkTS l lt (tset_iters (h_iters h) (tset_k kz t)) (marked g), fs) (mkTS l lt (tset_iters (h_iters h) (tset_k kz t)) (marked g), fs)) by reflexivity.
    cbn [fst v_krig]. change (t_warm (tset_iters _ _)) with (t_warm t). rewrite Hw, Tw. cbn [orb swhen]. rewrite (sbind_ok _ _ _ (mkTS l lt (tset_iters (h_iters h) (tset_k kz t)) (marked g), fs) tt) by reflexivity. reflexivity.
  Qed.
End Run.
