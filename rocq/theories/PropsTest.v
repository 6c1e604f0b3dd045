(** C74, continued: predictions on test data. *)
From Coq Require Import Reals Lra List Arith Lia ZArith Bool Permutation.
From Verif Require Import Base StM Num RealNum RSpec VecModel MatModel MatLemmas MatSpec VecProofs VecReal MatProofs MatProofs2 LuProofs BoundsModel DataModel DataSpec DataProofs DataReal CorrSpec
  KrigModel KrigSpec KrigMath KrigProofs KrigProofs2 KrigProofs3 KrigProg KrigProofs4 KrigProofs5 PropsKrig PropsStat.
Import ListNotations.
Local Open Scope R_scope.

Lemma lit9 : Rlit 1 (-9) = 1 / 10 ^ 9.
Proof. unfold Rlit. simpl. field. Qed.
(** the i-th line of the test results: the inputs of the i-th test row, the prediction, the true output and the squared deviation *)
Definition test_line (d : nat) (row : list R) (p : R) : list R := firstn d row ++ [p; nth d row 0; (nth d row 0 - p) ^ 2].
(** a model fitted to [file], then given test data with outputs: the results table lists every test row, in order, with the
    prediction of the fitted model, and the reported error is the mean of the squared deviations; fitting is not affected *)
Theorem C74_test_results : forall lin d b eps file perm hs th ga tfile, setup lin d b eps file hs th ga -> table tfile -> (0 < nrows tfile)%nat -> ncols tfile = S d ->
  exists k s1 s2 p, krig_session lin d b eps 0 file perm hs krig_new = (k, Ok tt) /\
    data_readTest tfile (k_data k) = (s1, Ok tt) /\ data_normTest (Rlit 1 (-9)) s1 = (s2, Ok tt) /\ let k' := kset_data s2 k in
    (forall i, (i < nrows tfile)%nat -> krig_interpolate k (unit_row b d (firstn d (nth i (rows tfile) []))) = Ok (p i)) /\
    (forall x, krig_interpolate k' x = krig_interpolate k x) /\
    krig_testResults k' true false = Ok (map (fun i => test_line d (nth i (rows tfile) []) (p i)) (seq 0 (nrows tfile))) /\
    krig_testError k' true = Ok (rsum (nrows tfile) (fun i => (nth d (nth i (rows tfile) []) 0 - p i) ^ 2) / INR (nrows tfile)) /\
    krig_testResults k' false false = Throw RuntimeError.
Proof.
  intros lin d b eps file perm hs th ga tfile S Ht Hn Hc. pose proof (setup_regular _ _ _ _ _ _ _ _ S) as HR. pose proof (su_par _ _ _ _ _ _ _ _ S) as HP. pose proof (su_d _ _ _ _ _ _ _ _ S) as Hd.
  destruct (session_ok lin d b eps file perm hs th ga S) as (k & c & ys & E & F & DC).
  destruct (C74_test_data (k_data k) d tfile b) as (s1 & s2 & E1 & E2 & _ & T1 & T2 & T3 & T4 & _ & _ & _ & T6 & _); auto.
  { apply (ft_ddim _ _ _ _ _ _ _ _ _ _ _ F). } { destruct DC; auto. } { rewrite lit9. apply (su_box _ _ _ _ _ _ _ _ S). }
  destruct (T4 Hc) as (T4a & T4b).
  set (p := fun i => let x := unit_row b d (firstn d (nth i (rows tfile) [])) in (if lin then lpredict d c x else 0) + kpredict d th ga (points b d (rows file)) (k_beta0 k) (vget (k_Rysb k)) x).
  assert (forall i, krig_interpolate k (unit_row b d (firstn d (nth i (rows tfile) []))) = Ok (p i)) as PI.
  { intros i. apply (fitted_predict _ _ _ _ _ _ _ _ _ _ _ _ F HP HR). unfold unit_row. rewrite map_length, seq_length. auto. }
  exists k, s1, s2, p. split; auto. split; auto. split; auto. cbv zeta. split; auto. split; [reflexivity|].
  assert (k_dim k = d) as Kd. { pose proof (ft_conf _ _ _ _ _ _ _ _ _ _ _ F) as []. auto. }
  assert (nrows (d_Xtest s2) = nrows tfile) as Nx. { rewrite <- rows_length, T3. unfold inputs. rewrite !map_length. apply rows_length. }
  assert (forall i, (i < nrows tfile)%nat -> krig_testRow (kset_data s2 k) false i = Ok (test_line d (nth i (rows tfile) []) (p i))) as L.
  { intros i Hi. unfold krig_testRow. cbn [k_data kset_data k_dim]. rewrite (getRow_ok _ i) by lia. cbn [bind]. rewrite T2, (getRow_ok _ i) by auto. cbn [bind].
    assert (length (nth i (rows tfile) []) = Datatypes.S d) as Lr by (rewrite nth_rows by auto; rewrite mrow_length; auto).
    unfold vec_head. rewrite Kd, Lr. replace (Nat.ltb (Datatypes.S d) d) with false by (symmetry; apply Nat.ltb_ge; lia). cbn [bind].
    change (krig_interpolate (kset_data s2 k)) with (krig_interpolate k).
    assert (nth i (rows (d_Xtest s2)) [] = unit_row b d (firstn d (nth i (rows tfile) []))) as ->.
    { rewrite T3. unfold inputs. rewrite map_map. rewrite (nth_indep _ [] (unit_row b d (firstn d []))) by (rewrite map_length, rows_length; auto).
      rewrite (map_nth (fun r => unit_row b d (firstn d r))). reflexivity. }
    rewrite PI. cbn [bind fst snd]. rewrite T4a, T6, getCol_rows by lia. cbn [bind]. unfold vec_at. rewrite map_length, rows_length. destruct (Nat.leb_spec (nrows tfile) i); [lia|]. cbn [bind].
    apply f_equal. unfold test_line. rewrite app_nil_r. apply f_equal. unfold vget. rewrite (nth_indep _ n0 (nth d [] n0)) by (rewrite map_length, rows_length; auto).
    rewrite (map_nth (fun r => nth d r n0)). cbn [app]. repeat apply f_equal2; auto. simpl. ring. }
  assert (krig_testResults (kset_data s2 k) true false = Ok (map (fun i => test_line d (nth i (rows tfile) []) (p i)) (seq 0 (nrows tfile)))) as ER.
  { unfold krig_testResults. cbn [negb]. change (d_nt (k_data (kset_data s2 k))) with (d_nt s2). rewrite T1.
    assert (forall m, (m <= nrows tfile)%nat -> loopR m (fun i acc => r <- krig_testRow (kset_data s2 k) false i ;; Ok (acc ++ [r])) [] =
      Ok (map (fun i => test_line d (nth i (rows tfile) []) (p i)) (seq 0 m))) as G; auto.
    induction m; intros Hm. reflexivity. cbn [loopR]. rewrite IHm by lia. cbn [bind]. rewrite L by lia. cbn [bind]. rewrite seq_S, map_app. reflexivity. }
  split; auto. split; [|reflexivity].
  unfold krig_testError. change (f_testf (k_data (kset_data s2 k))) with (f_testf s2). rewrite T4a. cbn [negb]. rewrite ER. cbn [bind].
  change (d_dim (k_data (kset_data s2 k))) with (d_dim s2). rewrite T6, map_map.
  rewrite mean_value. 2:{ intros E0. apply (f_equal (@length _)) in E0. rewrite map_length, seq_length in E0. simpl in E0. lia. }
  apply f_equal. rewrite map_length, seq_length. apply f_equal2; auto. rewrite total_rsum, map_length, seq_length. apply rsum_ext. intros i Hi. rewrite nth_map_seq by auto. unfold test_line, vget.
  rewrite app_nth2. 2:{ rewrite firstn_length. lia. }
  rewrite firstn_length. rewrite Nat.min_l. 2:{ rewrite nth_rows by auto. rewrite mrow_length. lia. } replace (d + 2 - d)%nat with 2%nat by lia. reflexivity.
Qed.
Print Assumptions C74_test_results.
Example C74_test_results_example : exists k s1 s2 p, krig_session true 2 (mkB 2 [0; 0] [2; 4] true) (1 / 10 ^ 8) 0 krig_example_file [] [[1; 1; 1; 2]; [3; 0; 2; 1]] krig_new = (k, Ok tt) /\
    data_readTest (mkMat 1 3 [1; 1; 7]) (k_data k) = (s1, Ok tt) /\ data_normTest (Rlit 1 (-9)) s1 = (s2, Ok tt) /\ krig_testResults (kset_data s2 k) true false = Ok [[1; 1; p; 7; (7 - p) ^ 2]].
Proof.
  destruct (C74_test_results true 2 (mkB 2 [0; 0] [2; 4] true) (1 / 10 ^ 8) krig_example_file [] _ _ _ (mkMat 1 3 [1; 1; 7]) krig_example_setup) as (k & s1 & s2 & p & A1 & A2 & A3 & _ & _ & A6 & _).
  unfold table, wf; simpl; lia. simpl; lia. reflexivity. exists k, s1, s2, (p 0%nat). split; auto.
Qed.
