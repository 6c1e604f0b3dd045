(** C110: the error of a surrogate model on its test data. *)
From Coq Require Import Ascii String ZArith Bool Arith Reals Lra List Lia.
From Verif Require Import Base StM Num RealNum RSpec VecModel MatModel MatLemmas MatSpec VecProofs VecReal MatProofs MatProofs2 StrModel BoundsModel DataModel DataSpec DataProofs DataReal
  KrigModel KrigSpec KrigProofs3 PropsStat CsvModel RunFileModel TesterModel TesterSpec TesterFrame TesterProofs TesterProofs2 TesterProofs3 OutSampleModel.
Import ListNotations.
Local Open Scope R_scope.

(** the mean of (prediction - last entry)^2 over the rows; [at_point] is the point at which a row is predicted *)
Definition test_mse (d : nat) (p : list R -> R) (at_point : list R -> list R) (rs : list (list R)) : R :=
  rsum (length rs) (fun i => (p (at_point (nth i rs [])) - nth d (nth i rs []) 0) ^ 2) / INR (length rs).
(** a table of points with values *)
Definition test_file (d : nat) (f : mat R) : Prop := table f /\ (0 < nrows f)%nat /\ ncols f = S d.
Definition predicts (d : nat) (pred : vec R -> Res R) (p : list R -> R) : Prop := forall x, length x = d -> pred x = Ok (p x).
(** the calls a user makes before the error is asked for *)
Definition load (f : mat R) : SM (tmodel R) unit := run om_setFile; run om_read f; om_norm zero_tol.

Lemma column_mean d b (p : list R -> R * R) (f : mat R) (m : mat R) : test_file d f -> rows m = map (result_row d true false b p) (rows f) -> ncols m = (d + 3)%nat ->
  (c <- mat_getCol m (Z.of_nat (d + 2)) ;; vec_mean c) = Ok (mean_squared_error d b (fun x => fst (p x)) (rows f)).
Proof.
  intros (Ht & Hn & Hc) Hr Hm. rewrite getCol_rows by lia. cbn [bind]. rewrite Hr, map_map.
  rewrite <- (error_mean d b p (rows f)). 2:{ intros Q. apply (f_equal (@length _)) in Q. rewrite rows_length in Q. cbn in Q. lia. }
  f_equal. unfold squared_errors. apply map_ext_in. intros r Hr'. apply (In_nth _ _ []) in Hr'. destruct Hr' as (i & Hi & <-). rewrite rows_length in Hi.
  assert (length (nth i (rows f) []) = S d) as L by (rewrite nth_rows by auto; rewrite mrow_length; auto).
  unfold result_row. rewrite app_nth2; rewrite firstn_length, L, Nat.min_l by lia; [|lia]. replace (d + 2 - d)%nat with 2%nat by lia. reflexivity.
Qed.
Lemma error_value d b f (p : list R -> R) pred (w : tmodel R) : (0 < d)%nat -> test_file d f -> predicts d pred p -> d_dim (m_data w) = d -> test_ready d b f true (test_of (m_data w)) ->
  m_has w = true -> g_norm (m_test w) = true ->
  exists g, om_error pred d w = (mkTm true (m_data w) g, Ok (mean_squared_error d b p (rows f))) /\ g_error g = mean_squared_error d b p (rows f) /\ g_norm g = true /\ g_header g = g_header (m_test w) /\
    rows (g_results g) = map (result_row d true false b (fun x => (p x, 0))) (rows f).
Proof.
  intros Hd TF Hp Hs TR Hh Hg. pose proof TF as (Ht & Hn & Hc).
  destruct (try_ok d b f true false (m_data w) (fun x => (p x, 0)) (fun x => f <- pred x ;; Ok (f, n0)) (m_test w)) as (g & E & E1 & E2 & E3 & E4 & E5); auto.
  { intros x Hx. rewrite (Hp x Hx). reflexivity. }
  pose proof (tr_tf _ _ _ _ _ TR) as A. cbn in A. exists g. split; [|split; [apply (E5 eq_refl)|auto]].
  unfold om_error. rewrite (sbind_ok _ _ _ w w) by reflexivity. rewrite Hh, A. cbn [negb sthrow_if]. do 2 rewrite (sbind_ok _ _ _ w tt) by reflexivity.
  rewrite (sbind_ok _ _ _ (mkTm true (m_data w) g) tt). 2:{ unfold on_test, szoom. rewrite E, Hh. reflexivity. }
  rewrite (sbind_ok _ _ _ (mkTm true (m_data w) g) (mkTm true (m_data w) g)) by reflexivity. cbn [m_data m_test]. unfold slift. rewrite Hs.
  rewrite (column_mean d b (fun x => (p x, 0)) f); auto. rewrite E4. unfold test_columns. rewrite A, Hs. lia.
Qed.
Lemma load_ok d b f (w : tmodel R) : (0 < d)%nat -> d_dim (m_data w) = d -> d_box (m_data w) = b -> box_ok ztol d b -> table f -> (0 < nrows f)%nat -> ncols f = S d \/ ncols f = d ->
  exists t, load f w = (mkTm true (dt t (m_data w)) (mkTd (g_header (m_test w)) (g_results (m_test w)) (g_error (m_test w)) true), Ok tt) /\ test_ready d b f (has_values d f (f_testf (m_data w))) t.
Proof.
  intros Hd Hs Hb Bx Ht Hn Hc. destruct (readTest_ok (m_data w) d f b Hs Hd Ht Hn Hc Bx) as (t0 & t1 & E & TR & N). exists t1. split; auto.
  unfold load. rewrite (sbind_ok _ _ _ (mkTm true (m_data w) (m_test w)) tt) by reflexivity.
  rewrite (sbind_ok _ _ _ (mkTm true (dt t0 (m_data w)) (m_test w)) tt). 2:{ unfold om_read. rewrite (sbind_ok _ _ _ (mkTm true (m_data w) (m_test w)) (mkTm true (m_data w) (m_test w))) by reflexivity. cbn [m_has sassert].
    rewrite (sbind_ok _ _ _ (mkTm true (m_data w) (m_test w)) tt) by reflexivity. unfold on_data, szoom. cbn [m_data m_has m_test]. rewrite E. reflexivity. }
  unfold om_norm. rewrite (sbind_ok _ _ _ (mkTm true (dt t1 (m_data w)) (m_test w)) tt). 2:{ unfold on_data, szoom. cbn [m_data m_has m_test]. rewrite (N _ Hb). reflexivity. }
  reflexivity.
Qed.

(** Whatever test data the model had before: after a test file with values was named, read and normalised, the error is the mean of the squared
    deviations of the predictions at the normalised points from the values in the file.  It is also kept in the model, with the table of the
    results; asking again changes nothing and gives the same number; the training data are left alone *)
Theorem C110_value : forall d b f p pred (w : tmodel R), (0 < d)%nat -> d_dim (m_data w) = d -> d_box (m_data w) = b -> box_ok ztol d b -> test_file d f -> predicts d pred p ->
  exists w' t, sbind (load f) (fun _ => om_error pred d) w = (w', Ok (test_mse d p (fun r => unit_row b d (firstn d r)) (rows f))) /\
    g_error (m_test w') = test_mse d p (fun r => unit_row b d (firstn d r)) (rows f) /\
    rows (g_results (m_test w')) = map (fun r => let y := p (unit_row b d (firstn d r)) in firstn d r ++ [y; nth d r 0; (nth d r 0 - y) ^ 2]) (rows f) /\
    m_data w' = dt t (m_data w) /\ f_testf (m_data w') = true /\ g_norm (m_test w') = true /\
    exists w'', om_error pred d w' = (w'', Ok (test_mse d p (fun r => unit_row b d (firstn d r)) (rows f))) /\ m_data w'' = m_data w' /\ rows (g_results (m_test w'')) = rows (g_results (m_test w')).
Proof.
  intros d b f p pred w Hd Hs Hb Bx TF Hp. pose proof TF as (Ht & Hn & Hc). destruct (load_ok d b f w) as (t & E & TR); auto.
  unfold has_values in TR. rewrite Hc, Nat.eqb_refl in TR. cbn [orb] in TR.
  set (w1 := mkTm true (dt t (m_data w)) _) in E. rewrite (sbind_ok _ _ _ w1 tt) by exact E.
  destruct (error_value d b f p pred w1) as (g & E1 & E2 & E3 & E4 & E5); auto. { cbn. rewrite test_of_dt. exact TR. }
  exists (mkTm true (m_data w1) g), t. split; [exact E1|]. split; [exact E2|]. split; [exact E5|]. split; [reflexivity|]. split; [exact (tr_tf _ _ _ _ _ TR)|]. split; [exact E3|].
  destruct (error_value d b f p pred (mkTm true (m_data w1) g)) as (g2 & F1 & F2 & F3 & F4 & F5); auto. { cbn. rewrite test_of_dt. exact TR. }
  eexists. split; [exact F1|]. split; [reflexivity|]. cbn [m_test]. rewrite F5, E5. reflexivity.
Qed.
Print Assumptions C110_value.

(** without test data, without values in them or before they are normalised the error is refused and nothing changes *)
Theorem C110_refused : forall pred d (w : tmodel R), m_has w = false \/ f_testf (m_data w) = false \/ g_norm (m_test w) = false -> om_error pred d w = (w, Throw RuntimeError).
Proof.
  intros pred d [h s g] H. cbn [m_has m_data m_test] in H. unfold om_error. unfold sbind at 1, sget at 1. cbn [m_has m_data].
  destruct h; [|reflexivity]. destruct (f_testf s) eqn:E; [|unfold sbind, sthrow_if, sret, sthrow; cbn [negb]; reflexivity].
  destruct H as [H|[H|H]]; try discriminate. cbn [negb sthrow_if]. unfold sbind, sret, on_test, szoom, try_test, sbind, sget, slift, test_table. cbn [m_test]. rewrite H. reflexivity.
Qed.
Print Assumptions C110_refused.

Lemma table_rows pred dim (s : sdata R) tn var m es : test_table pred dim s tn var = Ok (m, es) -> nrows m = d_nt s.
Proof.
  unfold test_table. destruct (negb tn); [discriminate|]. destruct (if f_testf s then _ else _) as [fe|e|]; cbn [bind]; try discriminate.
  intros H. apply (loopR_inv (fun _ (st : mat R * list R) => nrows (fst st) = d_nt s)) in H; auto.
  intros i [a l] [a' l'] _ Ha Hs. unfold test_step in Hs. cbn [fst snd] in *.
  repeat match type of Hs with bind ?x _ = _ => destruct x as [?|?|] eqn:?; cbn [bind] in Hs; try discriminate end.
  match goal with E : mat_setRow _ _ _ = Ok ?m0 |- _ => unfold mat_setRow in E; destruct (Nat.leb (nrows a) i); [discriminate|]; destruct (negb _); [discriminate|]; injection E as <- end.
  injection Hs as <- _. rewrite <- Ha. cbn [fst]. apply (loop_inv (fun _ mm => nrows mm = nrows a)); auto.
Qed.
Lemma errors_rows pred dim (s : sdata R) tn var m es : test_table pred dim s tn var = Ok (m, es) -> d_nt s = 0%nat -> es = [].
Proof. unfold test_table. destruct (negb tn); [discriminate|]. destruct (if f_testf s then _ else _) as [fe|e|]; cbn [bind]; try discriminate. intros H Z. rewrite Z in H. cbn in H. now injection H as _ <-. Qed.
(** with any predictor, also one that fails at some of the points: either there is a result or nothing of the model changed, so the results of
    an earlier test are not lost; the data, the names of the columns and the state of normalisation never change *)
Theorem C110_all_or_nothing : forall pred d (w : tmodel R), let (w', r) := om_error pred d w in
  ((exists e, r = Ok e) \/ w' = w) /\ m_data w' = m_data w /\ m_has w' = m_has w /\ g_header (m_test w') = g_header (m_test w) /\ g_norm (m_test w') = g_norm (m_test w).
Proof.
  intros pred d [h s g]. unfold om_error. unfold sbind at 1, sget at 1. cbn [m_has m_data]. destruct h; [|cbn; auto 6]. destruct (f_testf s) eqn:A; [|cbn; auto 6].
  cbn [negb sthrow_if]. unfold sbind at 1, sret at 1. unfold sbind at 1, sret at 1. unfold sbind at 1, on_test at 1, szoom at 1. cbn [m_test m_has m_data].
  unfold try_test. unfold sbind at 1, sget at 1. unfold sbind at 1, slift at 1. destruct (test_table _ d s (g_norm g) false) as [[m es]|e|] eqn:E; cbn [m_data m_has m_test]; auto 6.
  unfold sbind at 1, slift at 1. cbn [snd]. destruct (test_error s es (g_error g)) as [v|e|] eqn:Ev; cbn [m_data m_has m_test]; auto 6.
  unfold smod, sbind, sget, slift. cbn [m_data m_has m_test g_results g_header g_norm fst]. split; auto. left.
  pose proof (table_columns _ _ _ _ _ _ _ E) as Cm. pose proof (table_rows _ _ _ _ _ _ _ E) as Nm. unfold test_columns in Cm. rewrite A in Cm. rewrite getCol_rows by lia. cbn [bind].
  unfold vec_mean. rewrite map_length, rows_length, Nm. destruct (Nat.eqb_spec (d_nt s) 0) as [Z|]; [|eauto].
  rewrite (errors_rows _ _ _ _ _ _ _ E Z) in Ev. unfold test_error in Ev. rewrite A in Ev. discriminate.
Qed.
Print Assumptions C110_all_or_nothing.

(** a test file without values after one with values: the model still takes it for one with values, and the error is out_of_range instead of
    the error the user is told about *)
Theorem C110_values_forgotten : forall d b f pred (w : tmodel R), (0 < d)%nat -> d_dim (m_data w) = d -> d_box (m_data w) = b -> box_ok ztol d b -> table f -> (0 < nrows f)%nat -> ncols f = d ->
  exists w', load f w = (w', Ok tt) /\ om_error pred d w' = (w', Throw (if f_testf (m_data w) then OutOfRange else RuntimeError)).
Proof.
  intros d b f pred w Hd Hs Hb Bx Ht Hn Hc. destruct (load_ok d b f w) as (t & E & TR); auto. eexists. split; [exact E|].
  unfold has_values in TR. destruct (Nat.eqb_spec (ncols f) (S d)); [lia|]. cbn [orb] in TR. destruct TR as [A1 A2 A3 A4 A5].
  destruct (f_testf (m_data w)) eqn:Fw. 2:{ apply C110_refused. right. left. exact A4. }
  unfold om_error. unfold sbind at 1, sget at 1. cbn [m_has m_data negb sthrow_if]. change (f_testf (dt t (m_data w))) with (o_tf t). rewrite A4. cbn [negb]. unfold sbind, sret, on_test, szoom, try_test, sbind, sget, slift, test_table.
  cbn [m_test g_norm negb m_data m_has]. change (f_testf (dt t (m_data w))) with (o_tf t). change (f_testread (dt t (m_data w))) with (o_tr t). change (d_Xrawtest (dt t (m_data w))) with (o_xr t). change (d_dim (dt t (m_data w))) with (d_dim (m_data w)).
  rewrite A4, A5, A2, Hs. destruct (getCol_throws f (Z.of_nat d)) as [Q _]. rewrite Q by lia. reflexivity.
Qed.
Print Assumptions C110_values_forgotten.

(** a second test file that is read and not normalised: nothing is refused, the predictions are made at the raw points of the file *)
Lemma raw_box d r : (0 < d)%nat -> (d <= length r)%nat -> scaled (mkB d (repeat 0 d) (repeat (/ INR d) d) true) d r = firstn d r.
Proof.
  intros Hd Hr. assert (INR d <> 0) by (apply not_0_INR; lia). unfold scaled, unit_row. cbn [b_lo b_up]. apply (nth_ext _ _ 0 0). rewrite map_length, seq_length, firstn_length. lia.
  intros j Hj. rewrite map_length, seq_length in Hj. rewrite nth_map_seq by auto. cbn [Nat.add]. rewrite !nth_repeat_lt by auto. field. auto.
Qed.
Theorem C110_not_normalised : forall d f p pred (w : tmodel R), (0 < d)%nat -> d_dim (m_data w) = d -> test_file d f -> predicts d pred p -> g_norm (m_test w) = true ->
  exists w', sbind om_setFile (fun _ => sbind (om_read f) (fun _ => om_error pred d)) w = (w', Ok (test_mse d p (firstn d) (rows f))).
Proof.
  intros d f p pred w Hd Hs TF Hp Hg. pose proof TF as (Ht & Hn & Hc). set (b := mkB d (repeat 0 d) (repeat (/ INR d) d) true).
  destruct (submat_rows f 0 d) as (X & EX & WX & RX & CX & HX); try lia. simpl in EX.
  set (t := mkTv (nrows f) f X (map (fun r => nth d r 0) (rows f)) true true).
  assert (data_readTest f (m_data w) = (dt t (m_data w), Ok tt)) as E.
  { unfold data_readTest. unfold sbind at 1, sget at 1. unfold sthrow_if. rewrite Hs. destruct (Nat.eqb_spec d 0); [lia|]. unfold sbind at 1, sret at 1. unfold sbind at 1, smod at 1.
    destruct (Nat.eqb_spec (ncols f) (d + 1)); [|lia]. rewrite getCol_rows by lia. unfold sbind, slift, smod. rewrite EX. reflexivity. }
  assert (forall i, (i < nrows f)%nat -> length (nth i (rows f) []) = S d) as L by (intros i Hi; rewrite nth_rows by auto; rewrite mrow_length; auto).
  assert (test_ready d b f true t) as TR.
  { constructor; auto. cbn [o_x t]. rewrite HX. unfold inputs. apply map_ext_in. intros r Hr. apply (In_nth _ _ []) in Hr. destruct Hr as (i & Hi & <-). rewrite rows_length in Hi. symmetry. apply raw_box; [exact Hd|cbn [skipn]; rewrite L; auto]. }
  rewrite (sbind_ok _ _ _ (mkTm true (m_data w) (m_test w)) tt) by reflexivity.
  rewrite (sbind_ok _ _ _ (mkTm true (dt t (m_data w)) (m_test w)) tt). 2:{ unfold om_read, sbind, sget, sassert, sret, on_data, szoom. cbn [m_data m_has m_test]. rewrite E. reflexivity. }
  destruct (error_value d b f p pred (mkTm true (dt t (m_data w)) (m_test w))) as (g & E1 & _); try exact Hs; try exact Hg; try reflexivity; auto.
  eexists. rewrite E1. f_equal. f_equal. unfold mean_squared_error, test_mse. f_equal. apply rsum_ext. intros i Hi. rewrite rows_length in Hi. unfold b. rewrite raw_box; [reflexivity|exact Hd|rewrite L; auto].
Qed.
Print Assumptions C110_not_normalised.

(** an example in one dimension, box [0, 2], the model that predicts its (normalised) input; the second file holds the point 1 with the value
    1/2, which the model predicts exactly *)
Definition out_start : tmodel R := mkTm false (set_box (mkB 1 [0] [2] true) (set_dim 1 sdata_new)) tested_new.
Definition out_pred (x : vec R) : Res R := Ok (nth 0 x 0).
Example C110_example : exists w1 w2 w3 w4,
  sbind (load (mkMat 2 2 [1; 2; 1; 3])) (fun _ => om_error out_pred 1) out_start = (w1, Ok (((1 / 2 - 1) ^ 2 + (1 - 3) ^ 2) / 2)) /\
  sbind (load (mkMat 1 2 [1; 1 / 2])) (fun _ => om_error out_pred 1) w1 = (w2, Ok 0) /\
  sbind om_setFile (fun _ => sbind (om_read (mkMat 1 2 [1; 1 / 2])) (fun _ => om_error out_pred 1)) w1 = (w3, Ok (1 / 4)) /\
  load (mkMat 1 1 [1]) w1 = (w4, Ok tt) /\ om_error out_pred 1 w4 = (w4, Throw OutOfRange) /\
  om_error out_pred 1 out_start = (out_start, Throw RuntimeError).
Proof.
  assert (box_ok ztol 1 (mkB 1 [0] [2] true)) as Bx. { unfold box_ok. cbn. unfold ztol. repeat split; try lra. intros [|j] Hj; [|lia]. cbn. lra. }
  assert (predicts 1 out_pred (fun x => nth 0 x 0)) as Hp by (intros x _; reflexivity).
  destruct (C110_value 1 (mkB 1 [0] [2] true) (mkMat 2 2 [1; 2; 1; 3]) (fun x => nth 0 x 0) out_pred out_start) as (w1 & t1 & E1 & _ & _ & D1 & F1 & N1 & _); auto. { unfold test_file, table, wf. cbn. lia. }
  assert (d_dim (m_data w1) = 1%nat) as Dm by (rewrite D1; reflexivity). assert (d_box (m_data w1) = mkB 1 [0] [2] true) as Db by (rewrite D1; reflexivity).
  assert (test_file 1 (mkMat 1 2 [1; 1 / 2])) as TF by (unfold test_file, table, wf; cbn; lia).
  destruct (C110_value 1 (mkB 1 [0] [2] true) (mkMat 1 2 [1; 1 / 2]) (fun x => nth 0 x 0) out_pred w1) as (w2 & t2 & E2 & _); auto.
  destruct (C110_not_normalised 1 (mkMat 1 2 [1; 1 / 2]) (fun x => nth 0 x 0) out_pred w1) as (w3 & E3); auto.
  destruct (C110_values_forgotten 1 (mkB 1 [0] [2] true) (mkMat 1 1 [1]) out_pred w1) as (w4 & E4 & E5); auto. { unfold table, wf. cbn. lia. }
  exists w1, w2, w3, w4. rewrite E1, E2, E3, E4, E5, F1. split; [|split; [|split]].
  - f_equal. f_equal. unfold test_mse, rows, unit_row. cbn. field.
  - f_equal. f_equal. unfold test_mse, rows, unit_row. cbn. field.
  - f_equal. f_equal. unfold test_mse, rows. cbn. field.
  - repeat (split; auto).
Qed.
