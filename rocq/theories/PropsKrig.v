(** Properties C29-C32, C35, C68, C69: Kriging and linear regression surrogate models.
    The client programs [krig_session] and [lin_session], [setup], [points], [output], [trend], [same_inputs], [offered] are in KrigProg;
    [kriging], [kpredict], [kmat], [kcorr], [kvar_terms], [ridge], [normal_eqs], [lpredict] are in KrigSpec. *)
From Coq Require Import Reals Lra List Arith Lia ZArith Bool Permutation.
From Verif Require Import Base StM Num RealNum RSpec VecModel MatModel MatLemmas MatSpec VecProofs VecReal MatProofs MatProofs2 LuProofs BoundsModel DataModel DataSpec DataProofs DataReal CorrSpec
  KrigModel KrigSpec KrigMath KrigProofs KrigProofs2 KrigProofs3 KrigProg KrigProofs4 KrigProofs5.
Import ListNotations.
Local Open Scope R_scope.

(** ** C29 *)
(** the fitted model predicts, at every training point x_i, y_i - eps*w_i, where w are the kriging weights of the outputs (minus the linear
    trend, when it is on); and the deviations are, in the least squares sense, never larger than those of the constant prediction *)
Theorem C29_prediction_at_training_points : forall lin d b eps file perm hs th ga, setup lin d b eps file hs th ga ->
  exists k c w, krig_session lin d b eps 0 file perm hs krig_new = (k, Ok tt) /\
    let pts := points b d (rows file) in let y := output d (rows file) in
    (lin = true -> ridge d pts y (1 / 10 ^ 8) c) /\
    kriging d th ga eps pts (fun i => y i - trend lin d c (nth i pts [])) (k_beta0 k) w (k_s2 k) /\
    (forall i, (i < nrows file)%nat -> krig_interpolate k (nth i pts []) = Ok (y i - eps * w i)) /\
    rsum (nrows file) (fun i => (eps * w i) * (eps * w i)) <= rsum (nrows file) (fun i => (y i - trend lin d c (nth i pts []) - k_beta0 k) * (y i - trend lin d c (nth i pts []) - k_beta0 k)).
Proof.
  intros lin d b eps file perm hs th ga S. pose proof (setup_regular _ _ _ _ _ _ _ _ S) as HR. pose proof (su_par _ _ _ _ _ _ _ _ S) as HP.
  destruct (session_full lin d b eps file perm hs th ga S) as (k & c & w & E & D). exists k, c, w. split; auto. cbv zeta. set (pts := points b d (rows file)) in *.
  assert (length pts = nrows file) as Lp by (unfold pts; rewrite points_length, rows_length; auto).
  pose proof (de_kr _ _ _ _ _ _ _ _ _ _ D) as K. fold pts in K. split; [|split; [exact K|split]].
  - intros Hl. apply normal_ridge. lra. apply (de_lin _ _ _ _ _ _ _ _ _ _ D Hl).
  - intros i Hi. rewrite (de_int _ _ _ _ _ _ _ _ _ _ D) by (apply points_row; rewrite rows_length; auto). fold pts. f_equal.
    rewrite (kriging_reproduces d th ga eps pts _ _ _ _ i K) by lia. ring.
  - rewrite <- Lp. apply (kriging_error_bound d th ga eps pts HP HR) in K. exact K.
Qed.
Print Assumptions C29_prediction_at_training_points.
(** without regularisation the model interpolates *)
Theorem C29_interpolation : forall lin d b file perm hs th ga, setup lin d b 0 file hs th ga ->
  exists k, krig_session lin d b 0 0 file perm hs krig_new = (k, Ok tt) /\
    forall i, (i < nrows file)%nat -> krig_interpolate k (nth i (points b d (rows file)) []) = Ok (output d (rows file) i).
Proof.
  intros lin d b file perm hs th ga S. destruct (C29_prediction_at_training_points lin d b 0 file perm hs th ga S) as (k & c & w & E & _ & _ & H & _). exists k. split; auto.
  intros i Hi. rewrite H by auto. f_equal. ring.
Qed.
Print Assumptions C29_interpolation.
(** the same for the rows that remain for training when a part of the file is held out for validation *)
Theorem C29_with_validation_split : forall lin d b eps ratio file perm hs th ga, setup lin d b eps file hs th ga -> 0 < eps -> 0 < ratio < 1 -> Permutation perm (seq 0 (nrows file)) ->
  exists k c w q, krig_session lin d b eps ratio file perm hs krig_new = (k, Ok tt) /\ INR q <= ratio * INR (nrows file) < INR q + 1 /\
    let tr := unpicked (firstn q perm) (rows file) in let pts := points b d tr in let y := output d tr in
    length tr = (nrows file - q)%nat /\
    kriging d th ga eps pts (fun i => y i - trend lin d c (nth i pts [])) (k_beta0 k) w (k_s2 k) /\
    (forall i, (i < length tr)%nat -> krig_interpolate k (nth i pts []) = Ok (y i - eps * w i)).
Proof.
  intros lin d b eps ratio file perm hs th ga S He Hr Hp. pose proof (su_par _ _ _ _ _ _ _ _ S) as HP. destruct (session_split lin d b eps ratio file perm hs th ga S He Hr Hp) as (k & c & ys & q & E & Hq & Hqn & F).
  exists k, c, (vget (k_Rysb k)), q. split; auto. split; auto. cbv zeta. set (tr := unpicked (firstn q perm) (rows file)) in *. set (pts := points b d tr).
  pose proof (kregular_eps d th ga eps pts HP He) as HR. pose proof (fitted_kriging _ _ _ _ _ _ _ _ _ _ _ F HP HR) as K. fold pts in K.
  split; [|split; [exact K|]].
  - unfold tr. rewrite unpicked_length, rows_length.
    + rewrite firstn_length, (Permutation_length Hp), seq_length. lia.
    + apply NoDup_firstn. apply (Permutation_NoDup (Permutation_sym Hp)), seq_NoDup.
    + intros i Hi. assert (In i perm) as Hi' by (rewrite <- (firstn_skipn q perm); apply in_or_app; auto). apply (Permutation_in _ Hp) in Hi'. apply in_seq in Hi'. rewrite rows_length. lia.
  - intros i Hi. rewrite (fitted_predict _ _ _ _ _ _ _ _ _ _ _ _ F HP HR) by (apply points_row; auto). fold pts. f_equal.
    rewrite (kriging_reproduces d th ga eps pts _ _ _ _ i K) by (unfold pts; rewrite points_length; auto). ring.
Qed.
Print Assumptions C29_with_validation_split.

(** ** C30 *)
(** predictions are linear in the outputs *)
Theorem C30_linear_in_outputs : forall lin d b eps f1 f2 f3 p1 p2 p3 hs th ga a1 a2, setup lin d b eps f1 hs th ga -> same_inputs d f1 f2 -> same_inputs d f1 f3 ->
  (forall i, (i < nrows f1)%nat -> output d (rows f3) i = a1 * output d (rows f1) i + a2 * output d (rows f2) i) ->
  exists k1 k2 k3, krig_session lin d b eps 0 f1 p1 hs krig_new = (k1, Ok tt) /\ krig_session lin d b eps 0 f2 p2 hs krig_new = (k2, Ok tt) /\ krig_session lin d b eps 0 f3 p3 hs krig_new = (k3, Ok tt) /\
    forall x, length x = d -> exists v1 v2, krig_interpolate k1 x = Ok v1 /\ krig_interpolate k2 x = Ok v2 /\ krig_interpolate k3 x = Ok (a1 * v1 + a2 * v2).
Proof.
  intros lin d b eps f1 f2 f3 p1 p2 p3 hs th ga a1 a2 S1 I2 I3 Hy.
  pose proof (setup_same _ _ _ _ _ _ _ _ _ S1 I2) as S2. pose proof (setup_same _ _ _ _ _ _ _ _ _ S1 I3) as S3.
  destruct (session_full lin d b eps f1 p1 hs th ga S1) as (k1 & c1 & w1 & E1 & D1). destruct (session_full lin d b eps f2 p2 hs th ga S2) as (k2 & c2 & w2 & E2 & D2).
  destruct (session_full lin d b eps f3 p3 hs th ga S3) as (k3 & c3 & w3 & E3 & D3). exists k1, k2, k3. split; auto. split; auto. split; auto.
  pose proof (de_kr _ _ _ _ _ _ _ _ _ _ D1) as K1. pose proof (de_kr _ _ _ _ _ _ _ _ _ _ D2) as K2. rewrite (same_points b d f1 f2 I2) in K2.
  assert (length (points b d (rows f1)) = nrows f1) as Lp by (rewrite points_length, rows_length; auto). pose proof (su_n _ _ _ _ _ _ _ _ S1) as Hn.
  destruct (kriging_comb d th ga eps _ a1 a2 _ _ _ _ _ _ _ _ ltac:(rewrite Lp; exact Hn) K1 K2) as (s & K).
  assert (forall x, trend lin d (fun j => a1 * c1 j + a2 * c2 j) x = trend lin d c3 x) as HT.
  { apply (trend_unique lin d (points b d (rows f1)) (output d (rows f3))).
    - intros Hl. pose proof (de_lin _ _ _ _ _ _ _ _ _ _ D3 Hl) as N. rewrite (same_points b d f1 f3 I3) in N. exact N.
    - intros Hl. pose proof (de_lin _ _ _ _ _ _ _ _ _ _ D1 Hl) as N1. pose proof (de_lin _ _ _ _ _ _ _ _ _ _ D2 Hl) as N2. rewrite (same_points b d f1 f2 I2) in N2.
      apply (normal_eqs_ext d _ (fun i => a1 * output d (rows f1) i + a2 * output d (rows f2) i)). intros i Hi. apply Hy. lia. apply normal_comb; auto. }
  destruct (describes_pred k3 lin d b eps f3 th ga c3 w3 (fun j => a1 * c1 j + a2 * c2 j) (a1 * k_beta0 k1 + a2 * k_beta0 k2) (fun i => a1 * w1 i + a2 * w2 i) s) as (_ & P3); auto.
  { apply (su_n _ _ _ _ _ _ _ _ S3). } { apply (su_par _ _ _ _ _ _ _ _ S1). } { apply (setup_regular _ _ _ _ _ _ _ _ S3). }
  { rewrite (same_points b d f1 f3 I3). revert K. apply kriging_ext. intros i Hi. rewrite Hy by lia. rewrite trend_comb. ring. }
  intros x Hx. do 2 eexists. split. apply (de_int _ _ _ _ _ _ _ _ _ _ D1 x Hx). split. apply (de_int _ _ _ _ _ _ _ _ _ _ D2 x Hx). rewrite (P3 x Hx). f_equal.
  rewrite (same_points b d f1 f2 I2), (same_points b d f1 f3 I3), kpredict_comb, trend_comb. ring.
Qed.
Print Assumptions C30_linear_in_outputs.
(** scaling and (without the linear part) shifting the outputs scales and shifts the predictions, and scales the variances *)
Theorem C30_affine_outputs : forall lin d b eps f1 f2 p1 p2 hs th ga a s, setup lin d b eps f1 hs th ga -> same_inputs d f1 f2 -> (lin = true -> s = 0) ->
  (forall i, (i < nrows f1)%nat -> output d (rows f2) i = a * output d (rows f1) i + s) ->
  exists k1 k2, krig_session lin d b eps 0 f1 p1 hs krig_new = (k1, Ok tt) /\ krig_session lin d b eps 0 f2 p2 hs krig_new = (k2, Ok tt) /\
    forall x, length x = d -> exists f v, krig_interpolate k1 x = Ok f /\ krig_variance k1 x = Ok (f, v) /\
      krig_interpolate k2 x = Ok (a * f + s) /\ krig_variance k2 x = Ok (a * f + s, a * a * v).
Proof.
  intros lin d b eps f1 f2 p1 p2 hs th ga a s S1 I2 Hs Hy. pose proof (setup_same _ _ _ _ _ _ _ _ _ S1 I2) as S2. pose proof (setup_regular _ _ _ _ _ _ _ _ S1) as HR.
  destruct (session_full lin d b eps f1 p1 hs th ga S1) as (k1 & c1 & w1 & E1 & D1). destruct (session_full lin d b eps f2 p2 hs th ga S2) as (k2 & c2 & w2 & E2 & D2).
  exists k1, k2. split; auto. split; auto. pose proof (de_kr _ _ _ _ _ _ _ _ _ _ D1) as K1. apply (kriging_affine d th ga eps _ a s) in K1.
  assert (length (points b d (rows f1)) = nrows f1) as Lp by (rewrite points_length, rows_length; auto).
  assert (forall x, trend lin d (fun j => a * c1 j) x = trend lin d c2 x) as HT.
  { apply (trend_unique lin d (points b d (rows f1)) (output d (rows f2))).
    - intros Hl. pose proof (de_lin _ _ _ _ _ _ _ _ _ _ D2 Hl) as N. rewrite (same_points b d f1 f2 I2) in N. exact N.
    - intros Hl. pose proof (de_lin _ _ _ _ _ _ _ _ _ _ D1 Hl) as N1. apply (normal_eqs_ext d _ (fun i => a * output d (rows f1) i)). intros i Hi. rewrite Hy, (Hs Hl) by lia. ring. apply normal_scale; auto. }
  assert (forall x, trend lin d (fun j => a * c1 j) x = a * trend lin d c1 x) as HT2. { intros x. unfold trend. destruct lin. apply lpredict_scale. ring. }
  destruct (describes_pred k2 lin d b eps f2 th ga c2 w2 (fun j => a * c1 j) (a * k_beta0 k1 + s) (fun i => a * w1 i) (a ^ 2 * k_s2 k1)) as (Es2 & P2); auto.
  { apply (su_n _ _ _ _ _ _ _ _ S2). } { apply (su_par _ _ _ _ _ _ _ _ S1). } { apply (setup_regular _ _ _ _ _ _ _ _ S2). }
  { rewrite (same_points b d f1 f2 I2). revert K1. apply kriging_ext. intros i Hi. rewrite Hy, HT2 by lia. ring. }
  intros x Hx. destruct (de_var _ _ _ _ _ _ _ _ _ _ D1 x Hx) as (u & U & V1). destruct (de_var _ _ _ _ _ _ _ _ _ _ D2 x Hx) as (u' & U' & V2).
  rewrite (same_points b d f1 f2 I2) in U'. pose proof (kvar_factor_unique d th ga eps _ x u u' HR U U') as ->.
  do 2 eexists. split. apply (de_int _ _ _ _ _ _ _ _ _ _ D1 x Hx). split. exact V1.
  assert (krig_interpolate k2 x = Ok (a * (trend lin d c1 x + kpredict d th ga (points b d (rows f1)) (k_beta0 k1) w1 x) + s)) as P.
  { rewrite (P2 x Hx). f_equal. rewrite HT2, (same_points b d f1 f2 I2), kpredict_affine. ring. }
  split; auto. rewrite V2, Es2. f_equal. f_equal; [|ring]. rewrite (de_int _ _ _ _ _ _ _ _ _ _ D2 x Hx) in P. injection P as P. exact P.
Qed.
Print Assumptions C30_affine_outputs.
(** the order of the samples does not matter *)
Theorem C30_sample_order : forall lin d b eps f1 f2 p1 p2 hs th ga, setup lin d b eps f1 hs th ga -> setup lin d b eps f2 hs th ga -> Permutation (rows f1) (rows f2) ->
  exists k1 k2, krig_session lin d b eps 0 f1 p1 hs krig_new = (k1, Ok tt) /\ krig_session lin d b eps 0 f2 p2 hs krig_new = (k2, Ok tt) /\
    forall x, length x = d -> krig_interpolate k2 x = krig_interpolate k1 x /\ krig_variance k2 x = krig_variance k1 x.
Proof.
  intros lin d b eps f1 f2 p1 p2 hs th ga S1 S2 Pm. pose proof (setup_regular _ _ _ _ _ _ _ _ S2) as HR2. pose proof (su_par _ _ _ _ _ _ _ _ S1) as HP.
  destruct (session_full lin d b eps f1 p1 hs th ga S1) as (k1 & c1 & w1 & E1 & D1). destruct (session_full lin d b eps f2 p2 hs th ga S2) as (k2 & c2 & w2 & E2 & D2).
  exists k1, k2. split; auto. split; auto. destruct (perm_index (rows f1) (rows f2) [] Pm) as (s & Hs & Hi).
  set (q1 := points b d (rows f1)) in *. set (q2 := points b d (rows f2)) in *.
  assert (length q1 = length (rows f1)) as L1 by apply points_length. assert (length q2 = length q1) as L2 by (unfold q1, q2; rewrite !points_length; symmetry; apply Permutation_length; auto).
  assert (forall i, (i < length q1)%nat -> (s i < length q1)%nat /\ nth (s i) q1 [] = nth i q2 []) as HS.
  { intros i H. rewrite L1 in *. destruct (Hi i H) as (A & B). split; auto. unfold q1, q2, points, inputs. rewrite !map_map.
    rewrite (nth_indep (map _ (rows f1)) [] (unit_row b d (firstn d []))), (nth_indep (map _ (rows f2)) [] (unit_row b d (firstn d []))).
    - rewrite !(map_nth (fun r => unit_row b d (firstn d r))). rewrite B. auto.
    - rewrite map_length, <- (Permutation_length Pm). auto.
    - rewrite map_length. auto. }
  assert (forall i, (i < length q1)%nat -> output d (rows f2) i = output d (rows f1) (s i)) as HO.
  { intros i H. rewrite L1 in *. destruct (Hi i H) as (A & B). unfold output, outputs. rewrite (nth_indep (map _ (rows f2)) 0 (nth d (@nil R) 0)), (nth_indep (map _ (rows f1)) 0 (nth d (@nil R) 0)).
    - rewrite !(map_nth (fun r => nth d r 0)). rewrite B. auto.
    - rewrite map_length. auto.
    - rewrite map_length, <- (Permutation_length Pm). auto. }
  rewrite <- L1 in Hs.
  assert (forall x, trend lin d c1 x = trend lin d c2 x) as HT.
  { apply (trend_unique lin d q2 (output d (rows f2))). intros Hl. apply (de_lin _ _ _ _ _ _ _ _ _ _ D2 Hl).
    intros Hl. apply (normal_reindex d q1 q2 s L2 HS Hs (output d (rows f1))); auto. apply (de_lin _ _ _ _ _ _ _ _ _ _ D1 Hl). }
  destruct (describes_pred k2 lin d b eps f2 th ga c2 w2 c1 (k_beta0 k1) (fun i => w1 (s i)) (k_s2 k1)) as (Es2 & P2); auto.
  { apply (su_n _ _ _ _ _ _ _ _ S2). }
  { fold q2. apply (kriging_reindex d th ga eps q1 q2 s L2 HS Hs (fun i => output d (rows f1) i - trend lin d c1 (nth i q1 []))).
    intros i H. rewrite HO by auto. destruct (HS i H) as (_ & ->). auto. apply (de_kr _ _ _ _ _ _ _ _ _ _ D1). }
  intros x Hx. assert (krig_interpolate k2 x = krig_interpolate k1 x) as EI.
  { rewrite (P2 x Hx), (de_int _ _ _ _ _ _ _ _ _ _ D1 x Hx). fold q1 q2. rewrite (kpredict_reindex d th ga q1 q2 s L2 HS Hs). auto. }
  split; auto.
  destruct (de_var _ _ _ _ _ _ _ _ _ _ D1 x Hx) as (u & U & V1). destruct (de_var _ _ _ _ _ _ _ _ _ _ D2 x Hx) as (u' & U' & V2).
  apply (kvar_factor_reindex d th ga eps q1 q2 s x u L2 HS Hs) in U. pose proof (kvar_factor_unique d th ga eps _ x u u' HR2 U U') as ->.
  rewrite V1, V2, Es2. rewrite (de_int _ _ _ _ _ _ _ _ _ _ D1 x Hx), (de_int _ _ _ _ _ _ _ _ _ _ D2 x Hx) in EI. injection EI as ->. auto.
Qed.
Print Assumptions C30_sample_order.
(** with the linear part a shift of the outputs is not a shift of the predictions: one sample at x = 1 of [0,1], outputs 0 and 1 *)
Lemma box01 : box_ok (1 / 10 ^ 9) 1 (mkB 1 [0] [1] true).
Proof. unfold box_ok. cbn [b_set b_dim b_lo b_up length]. repeat split; auto. lra. intros [|j] Hj; cbn [nth]; [lra|lia]. Qed.
Lemma one_setup y : setup true 1 (mkB 1 [0] [1] true) (1 / 100) (mkMat 1 2 [1; y]) [] [1] [9 / 5].
Proof.
  constructor; auto; try lia; try lra. apply box01. split; [reflexivity|simpl; lia]. split; auto. split; auto. intros [|j] Hj; simpl; try lia. lra.
Qed.
Theorem C30_shift_with_linear_part_refuted : exists d b eps f1 f2 hs th ga x, setup true d b eps f1 hs th ga /\ same_inputs d f1 f2 /\
  (forall i, (i < nrows f1)%nat -> output d (rows f2) i = output d (rows f1) i + 1) /\ length x = d /\
  forall p1 p2, exists k1 k2 v1 v2, krig_session true d b eps 0 f1 p1 hs krig_new = (k1, Ok tt) /\ krig_session true d b eps 0 f2 p2 hs krig_new = (k2, Ok tt) /\
    krig_interpolate k1 x = Ok v1 /\ krig_interpolate k2 x = Ok v2 /\ Rabs (v2 - (v1 + 1)) > 4 / 10.
Proof.
  exists 1%nat, (mkB 1 [0] [1] true), (1 / 100), (mkMat 1 2 [1; 0]), (mkMat 1 2 [1; 1]), [], [1], [9 / 5], [0].
  split. apply one_setup. split. { split; [split; [reflexivity|simpl; lia]|auto]. } split. { intros [|i] Hi; cbn in *; [ring|lia]. } split; auto. intros p1 p2.
  assert (forall y p, exists k, krig_session true 1 (mkB 1 [0] [1] true) (1 / 100) 0 (mkMat 1 2 [1; y]) p [] krig_new = (k, Ok tt) /\ krig_interpolate k [0] = Ok (y - y / (2 + 1 / 10 ^ 8))) as One.
  { intros y p. destruct (session_full true 1 (mkB 1 [0] [1] true) (1 / 100) (mkMat 1 2 [1; y]) p [] [1] [9 / 5] (one_setup y)) as (k & c & w & E & [N K P _]). exists k. split; auto.
    assert (points (mkB 1 [0] [1] true) 1 (rows (mkMat 1 2 [1; y])) = [[1]]) as EP. { unfold points, inputs, unit_row. cbn. f_equal. f_equal. field. }
    assert (output 1 (rows (mkMat 1 2 [1; y])) 0 = y) as EO by reflexivity. rewrite EP in *. specialize (N eq_refl). destruct K as [K1 K2 K3].
    pose proof (N 0%nat ltac:(lia)) as N0. pose proof (N 1%nat ltac:(lia)) as N1. cbn [length rsum nth phi] in N0, N1. unfold lpredict in N0, N1. cbn [rsum nth] in N0, N1. rewrite EO in N0, N1.
    specialize (K1 0%nat ltac:(simpl; lia)). unfold mv, kmat, delta in K1. cbn [length rsum nth Nat.eqb] in K1, K2. unfold trend, lpredict in K1. cbn [rsum nth] in K1. rewrite EO in K1.
    assert (w 0%nat = 0) as W by lra. rewrite W in K1.
    rewrite P by auto. f_equal. unfold trend, lpredict, kpredict. cbn [length rsum nth]. rewrite W.
    assert (c 0%nat = c 1%nat) as C01 by lra. rewrite C01 in *. assert (c 1%nat = y / (2 + 1 / 10 ^ 8)) as C1. { apply (Rmult_eq_reg_r (2 + 1 / 10 ^ 8)); [|lra]. unfold Rdiv at 2. rewrite Rmult_assoc, Rinv_l by lra. lra. }
    rewrite <- C1. lra. }
  destruct (One 0 p1) as (k1 & E1 & V1). destruct (One 1 p2) as (k2 & E2 & V2). exists k1, k2. do 2 eexists. split; auto. split; auto. split; eauto. split; eauto.
  assert (4 / 10 < 1 / (2 + 1 / 10 ^ 8)) as H. { apply (Rmult_lt_reg_r (2 + 1 / 10 ^ 8)); [lra|]. unfold Rdiv at 3. rewrite Rmult_assoc, Rinv_l by lra. lra. }
  set (q := 1 / (2 + 1 / 10 ^ 8)) in *. replace (1 - q - (0 - 0 / (2 + 1 / 10 ^ 8) + 1)) with (- q) by (unfold Rdiv; ring). rewrite Rabs_left; lra.
Qed.
Print Assumptions C30_shift_with_linear_part_refuted.

(** ** C31 *)
(** beta0 is the generalised least squares mean: with R w = y - beta0 the weights w sum up to zero, beta0 minimises (y - b)^T R^-1 (y - b) over all
    constants b (and is the only minimiser), and the variance estimate is the minimum divided by n, hence not negative; it is zero only for constant residuals *)
Theorem C31_generalised_least_squares : forall lin d b eps file perm hs th ga, setup lin d b eps file hs th ga ->
  exists k c w, krig_session lin d b eps 0 file perm hs krig_new = (k, Ok tt) /\
    let n := nrows file in let pts := points b d (rows file) in let y i := output d (rows file) i - trend lin d c (nth i pts []) in let A := kmat d th ga eps pts in
    (lin = true -> ridge d pts (output d (rows file)) (1 / 10 ^ 8) c) /\
    (forall i, (i < n)%nat -> mv n A w i = y i - k_beta0 k) /\ rsum n w = 0 /\
    (forall m u, (forall i, (i < n)%nat -> mv n A u i = y i - m) ->
       INR n * k_s2 k <= rsum n (fun i => (y i - m) * u i) /\ (m <> k_beta0 k -> INR n * k_s2 k < rsum n (fun i => (y i - m) * u i))) /\
    INR n * k_s2 k = rsum n (fun i => (y i - k_beta0 k) * w i) /\
    0 <= k_s2 k /\ (k_s2 k = 0 <-> forall i, (i < n)%nat -> y i = k_beta0 k).
Proof.
  intros lin d b eps file perm hs th ga S. pose proof (setup_regular _ _ _ _ _ _ _ _ S) as HR. pose proof (su_par _ _ _ _ _ _ _ _ S) as HP.
  destruct (session_full lin d b eps file perm hs th ga S) as (k & c & w & E & D). exists k, c, w. split; auto. cbv zeta. set (pts := points b d (rows file)) in *.
  assert (length pts = nrows file) as Lp by (unfold pts; rewrite points_length, rows_length; auto). pose proof (su_n _ _ _ _ _ _ _ _ S) as Hn. rewrite <- Lp in *.
  pose proof (de_kr _ _ _ _ _ _ _ _ _ _ D) as K. fold pts in K. split. { intros Hl. apply normal_ridge. lra. apply (de_lin _ _ _ _ _ _ _ _ _ _ D Hl). }
  split. apply (kr_w _ _ _ _ _ _ _ _ _ K). split. apply (kr_beta _ _ _ _ _ _ _ _ _ K). split.
  { intros m u Hu. rewrite (kr_s2 _ _ _ _ _ _ _ _ _ K). destruct (kriging_gls d th ga eps pts HP HR _ _ _ _ m u K Hu) as (G1 & G2). split; auto. }
  split. apply (kr_s2 _ _ _ _ _ _ _ _ _ K). apply (kriging_s2_nonneg d th ga eps pts HP HR _ _ _ _ Hn K).
Qed.
Print Assumptions C31_generalised_least_squares.

(** ** C32 *)
(** the linear model: training always succeeds for fewer than 100 inputs; its weights solve the regularised normal equations, minimise the regularised sum of
    squares over all weights, are the only minimiser, and are the ones used for prediction *)
Theorem C32_ridge_regression : forall d b file, (0 < d < 100)%nat -> box_ok (1 / 10 ^ 9) d b -> table file -> (0 < nrows file)%nat -> ncols file = S d ->
  exists s c, lin_session d b file lmodel_new = (s, Ok tt) /\
    let pts := points b d (rows file) in let y := output d (rows file) in let lam := 1 / 10 ^ 8 in
    normal_eqs d pts y lam c /\ ridge d pts y lam c /\ (forall c', ridge_cost d pts y lam c' <= ridge_cost d pts y lam c -> forall j, (j <= d)%nat -> c' j = c j) /\
    (forall j, (j <= d)%nat -> nth j (l_w s) 0 = c j) /\ length (l_w s) = S d /\ forall x, length x = d -> lin_interpolate s x = Ok (lpredict d c x).
Proof.
  intros d b file [Hd Hd1] Hb Ht Hn Hc. destruct (lin_session_ok d b file Hd Hd1 Hb Ht Hn Hc) as (s & E & L1 & L2 & L3 & N & Q). exists s, (vget (l_w s)). split; auto. cbv zeta. split; auto.
  split. apply normal_ridge; auto. lra. split. intros c' Hc'. apply (normal_unique d (points b d (rows file)) (output d (rows file)) (1 / 10 ^ 8)); auto. lra. split; auto. split; auto. intros x Hx. apply lin_interpolate_ok; auto.
Qed.
Print Assumptions C32_ridge_regression.
(** the same after choosing another regularisation parameter (setRegularizationParameter, train) *)
Theorem C32_any_regularisation : forall d b file lam, (0 < d < 100)%nat -> box_ok (1 / 10 ^ 9) d b -> table file -> (0 < nrows file)%nat -> ncols file = S d -> 1 / 10 ^ 8 <= lam ->
  exists s c, (run lin_session d b file; run lin_setReg lam; lin_train) lmodel_new = (s, Ok tt) /\
    let pts := points b d (rows file) in let y := output d (rows file) in
    normal_eqs d pts y lam c /\ ridge d pts y lam c /\ (forall c', ridge_cost d pts y lam c' <= ridge_cost d pts y lam c -> forall j, (j <= d)%nat -> c' j = c j) /\
    (forall j, (j <= d)%nat -> nth j (l_w s) 0 = c j) /\ forall x, length x = d -> lin_interpolate s x = Ok (lpredict d c x).
Proof.
  intros d b file lam [Hd Hd1] Hb Ht Hn Hc Hlam. destruct (lin_session_ok d b file Hd Hd1 Hb Ht Hn Hc) as (s & E & L1 & L2 & L3 & N & Q).
  assert (lready (lset_reg lam s) d (points b d (rows file)) (outputs d (rows file))) as Q' by (destruct Q; constructor; auto).
  destruct (lin_train_ok _ _ _ _ Q') as (T1 & T2). cbn [lset_reg l_reg] in T1, T2. destruct T2 as (s' & E'). lra.
  { unfold tiny. assert (INR (S d) <= 100). { replace 100 with (INR 100). apply le_INR; lia. simpl; lra. } pose proof (pos_INR (S d)).
    apply Rle_trans with (1 / 10 ^ 8 * (1 / 10 ^ 8)). replace (1 / 10 ^ 8 * (1 / 10 ^ 8)) with (100 * (1 / 10 ^ 9 * (1 / 10 ^ 9))) by field. apply Rmult_le_compat_r; lra. apply Rmult_le_compat; lra. }
  destruct (T1 s' E') as (w & -> & Lw & N'). exists (lset_w w (lset_reg lam s)), (vget w). split. { rewrite (sbind_ok _ _ _ _ _ E). unfold lin_setReg, sbind, smod. auto. }
  cbv zeta. split; auto. split. apply normal_ridge; auto. lra. split. intros c' Hc'. apply (normal_unique d (points b d (rows file)) (output d (rows file)) lam); auto. lra. split; auto. intros x Hx. apply lin_interpolate_ok; auto.
Qed.
Print Assumptions C32_any_regularisation.
(** but a parameter chosen before the initialisation is silently replaced by 1e-8: the result does not depend on it *)
Theorem C32_initialisation_resets_regularisation : forall s lam lam' s1 s2, (run lin_setReg lam; lin_initialize) s = (s1, Ok tt) -> (run lin_setReg lam'; lin_initialize) s = (s2, Ok tt) ->
  s1 = s2 /\ l_reg s1 = 1 / 10 ^ 8.
Proof.
  intros s lam lam' s1 s2 H1 H2.
  assert (forall l, (run lin_setReg l; lin_initialize) s = lin_initialize (lset_reg l s)) as E by reflexivity. rewrite !E in *.
  assert (forall l, l_read s = true -> (l_dim s =? 0)%nat = false -> lin_initialize (lset_reg l s) = lin_initialize s) as E2.
  { intros l Hr Hd. clear H1 H2 E. destruct s as [sd sn sda sw sr srd snm si]. cbn [l_read l_dim] in Hr, Hd. subst srd. unfold lin_initialize. unfold sbind, sget, sthrow_if, smod, lset_reg, lset_w. cbn [l_read l_dim l_n l_data l_w l_reg l_norm l_init]. rewrite Hd. reflexivity. }
  assert (l_read s = true /\ (l_dim s =? 0)%nat = false) as (Hr & Hd).
  { unfold lin_initialize in H1. unfold sbind at 1, sget at 1 in H1. unfold lset_reg at 1 2 in H1. cbn [l_read l_dim] in H1. destruct (l_read s); [|discriminate]. split; auto. cbn [negb] in H1. unfold sthrow_if in H1. unfold sbind at 1, sret at 1 in H1. destruct (l_dim s =? 0)%nat; auto. discriminate. }
  rewrite E2 in H1, H2 by auto. split. congruence. destruct (lin_initialize_frame _ _ H1) as (w & ->). auto.
Qed.
Print Assumptions C32_initialisation_resets_regularisation.

(** ** C35 *)
(** offering any sequence of samples to a fitted model: the stored table (and the raw data of the model) becomes the one described by [offered]; every call returns,
    and for eps > 0 the model is the kriging model of the final table *)
Theorem C35_sequence_of_samples : forall lin d b eps file perm hs th ga fmt samples, setup lin d b eps file hs th ga -> Forall (fun p => length (fst p) = S d) samples ->
  exists k k' file', krig_session lin d b eps 0 file perm hs krig_new = (k, Ok tt) /\
    sfor samples (fun p => krig_addSample fmt (fst p) (snd p)) (k, file) = ((k', file'), Ok tt) /\
    offered fmt (rows file) (map fst samples) (rows file') /\ d_raw (k_data k') = file' /\ ncols file' = S d /\ table file' /\
    (0 < eps -> exists c w, let pts := points b d (rows file') in let y := output d (rows file') in
       kriging d th ga eps pts (fun i => y i - trend lin d c (nth i pts [])) (k_beta0 k') w (k_s2 k') /\
       forall i, (i < nrows file')%nat -> krig_interpolate k' (nth i pts []) = Ok (y i - eps * w i)).
Proof.
  intros lin d b eps file perm hs th ga fmt samples S HF. pose proof (su_par _ _ _ _ _ _ _ _ S) as HP. destruct (session_ok lin d b eps file perm hs th ga S) as (k & c & ys & E & F & DC).
  assert (forall l k file, Forall (fun p => length (fst p) = Datatypes.S d) l -> offerable d b lin eps th ga (k, file) -> exists k' file',
    sfor l (fun p => krig_addSample fmt (fst p) (snd p)) (k, file) = ((k', file'), Ok tt) /\ offered fmt (rows file) (map fst l) (rows file') /\ offerable d b lin eps th ga (k', file')) as Ind.
  { clear - S. rename file into fl. induction l as [|(x & pm) l IH]; intros k file HF O. { exists k, file. split; auto. split; auto. constructor. }
    pose proof (Forall_inv HF) as Hx. apply Forall_inv_tail in HF. cbn [fst] in Hx. cbn [sfor map fst snd].
    destruct (addSample_step d b lin eps th ga k file fmt x pm (su_box _ _ _ _ _ _ _ _ S) (su_d _ _ _ _ _ _ _ _ S) (su_lin _ _ _ _ _ _ _ _ S) O Hx) as [(C & E)|(C & k1 & f1 & E & R1 & O1)]; rewrite (sbind_ok _ _ _ _ _ E).
    - destruct (IH k file HF O) as (k' & file' & E' & Of & O'). exists k', file'. split; auto. split; auto. apply offered_dup; auto.
    - destruct (IH k1 f1 HF O1) as (k' & file' & E' & Of & O'). exists k', file'. split; auto. split; auto. apply offered_new; auto. rewrite <- R1. auto. }
  destruct (Ind samples k file HF) as (k' & file' & E' & Of & (T' & N' & C' & DC' & c' & ys' & F')). { pose proof S as []. split; [|split; [|split; [|split]]]; cbn [fst snd]; auto. exists c, ys. auto. }
  cbn [fst snd] in *. exists k, k', file'. split; auto. split; auto. split; auto. split. apply (ft_raw _ _ _ _ _ _ _ _ _ _ _ F'). split; auto. split; auto.
  intros He. exists c', (vget (k_Rysb k')). cbv zeta. set (pts := points b d (rows file')). pose proof (kregular_eps d th ga eps pts HP He) as HR. pose proof (fitted_kriging _ _ _ _ _ _ _ _ _ _ _ F' HP HR) as K. fold pts in K. split. exact K.
  intros i Hi. rewrite (fitted_predict _ _ _ _ _ _ _ _ _ _ _ _ F' HP HR) by (apply points_row; rewrite rows_length; auto). fold pts. f_equal.
  rewrite (kriging_reproduces d th ga eps pts _ _ _ _ i K) by (unfold pts; rewrite points_length, rows_length; auto). ring.
Qed.
Print Assumptions C35_sequence_of_samples.
(** hence no two samples of the table come within 1e-4 (less the rounding error of the file) of one another in every component, if none did before *)
Definition apart (tol : R) (rs : list (list R)) : Prop := ForallOrdPairs (fun r r' => ~ forall j, (j < length r')%nat -> Rabs (nth j r 0 - nth j r' 0) <= tol) rs.
Lemma apart_snoc tol rs x : apart tol rs -> (forall r, In r rs -> ~ forall j, (j < length x)%nat -> Rabs (nth j r 0 - nth j x 0) <= tol) -> apart tol (rs ++ [x]).
Proof.
  unfold apart. induction 1 as [|r l Hr Hl IH]; intros H; simpl. repeat constructor. constructor. 2:{ apply IH. intros; apply H; right; auto. }
  apply Forall_app. split; auto. constructor; auto. apply H. left; auto.
Qed.
Theorem C35_no_duplicates : forall fmt delta rs xs rs', (forall t, Rabs (fmt t - t) <= delta) -> offered fmt rs xs rs' -> apart (1 / 10 ^ 4 - delta) rs -> apart (1 / 10 ^ 4 - delta) rs'.
Proof.
  intros fmt delta rs xs rs' Hf. induction 1; auto. intros HA. apply IHoffered. apply apart_snoc; auto. intros r Hr Hall. apply (H r Hr). intros j Hj. rewrite map_length in Hall. specialize (Hall j Hj).
  rewrite (nth_indep (map fmt x) 0 (fmt 0)), map_nth in Hall by (rewrite map_length; auto). specialize (Hf (nth j x 0)).
  replace (nth j r 0 - nth j x 0) with ((nth j r 0 - fmt (nth j x 0)) + (fmt (nth j x 0) - nth j x 0)) by ring. eapply Rle_trans. apply Rabs_triang. lra.
Qed.
Print Assumptions C35_no_duplicates.
(** a sample of the wrong size is rejected and nothing changes, whatever the state *)
Theorem C35_wrong_size_rejected : forall fmt (k : krig R) file x perm, length x <> (d_dim (k_data k) + 1)%nat -> krig_addSample fmt x perm (k, file) = ((k, file), Throw RuntimeError).
Proof.
  intros fmt k file x perm H. unfold krig_addSample. unfold sbind at 1, sget at 1. destruct (Nat.eqb_spec (length x) (d_dim (k_data k) + 1)); [contradiction|]. reflexivity.
Qed.
Print Assumptions C35_wrong_size_rejected.

(** ** C68 *)
(** the predictive variance is never negative, never above the kriging formula s2*(t1+t2) and below it by at most s2*(1e-9 + 2e-18);
    at training points it is at most 2*eps*s2 *)
Theorem C68_predictive_variance : forall lin d b eps file perm hs th ga, setup lin d b eps file hs th ga ->
  exists k, krig_session lin d b eps 0 file perm hs krig_new = (k, Ok tt) /\ 0 <= k_s2 k /\
    (forall x, length x = d -> exists f v t1 t2, krig_variance k x = Ok (f, v) /\ krig_interpolate k x = Ok f /\ kvar_terms d th ga eps (points b d (rows file)) x t1 t2 /\
       0 <= v <= k_s2 k * (t1 + t2) /\ k_s2 k * (t1 + t2) - v <= k_s2 k * (1 / 10 ^ 9 + 2 / 10 ^ 18) /\ 0 <= t2 <= 1 /\ 0 <= t1) /\
    (forall i f v, (i < nrows file)%nat -> krig_variance k (nth i (points b d (rows file)) []) = Ok (f, v) -> v <= 2 * eps * k_s2 k).
Proof.
  intros lin d b eps file perm hs th ga S. pose proof (setup_regular _ _ _ _ _ _ _ _ S) as HR. pose proof (su_par _ _ _ _ _ _ _ _ S) as HP.
  destruct (session_full lin d b eps file perm hs th ga S) as (k & c & w & E & D). exists k. split; auto. set (pts := points b d (rows file)) in *.
  assert (length pts = nrows file) as Lp by (unfold pts; rewrite points_length, rows_length; auto). pose proof (su_n _ _ _ _ _ _ _ _ S) as Hn. rewrite <- Lp in *.
  pose proof (de_kr _ _ _ _ _ _ _ _ _ _ D) as K. fold pts in K. destruct (kriging_s2_nonneg d th ga eps pts HP HR _ _ _ _ Hn K) as (S0 & _). split; auto.
  assert (forall x, length x = d -> exists f v t1 t2, krig_variance k x = Ok (f, v) /\ krig_interpolate k x = Ok f /\ kvar_terms d th ga eps pts x t1 t2 /\
       0 <= v <= k_s2 k * (t1 + t2) /\ k_s2 k * (t1 + t2) - v <= k_s2 k * (1 / 10 ^ 9 + 2 / 10 ^ 18) /\ 0 <= t2 <= 1 /\ 0 <= t1) as G.
  { intros x Hx. destruct (de_var _ _ _ _ _ _ _ _ _ _ D x Hx) as (u & U & V). fold pts in U. destruct (kvar_factor_bounds d th ga eps pts HP HR x u Hn) as (t1 & t2 & KT & B1 & B2); auto. apply (su_eps _ _ _ _ _ _ _ _ S).
    do 2 eexists. exists t1, t2. split. exact V. split. apply (de_int _ _ _ _ _ _ _ _ _ _ D x Hx). split; auto. destruct (kvar_nonneg d th ga eps pts HP HR x t1 t2 Hn KT) as (P1 & P2).
    split. split. apply Rmult_le_pos; lra. apply Rmult_le_compat_l; lra. split; auto. rewrite <- Rmult_minus_distr_l. apply Rmult_le_compat_l; lra. }
  split; auto. intros i f v Hi V. destruct (G (nth i pts [])) as (f' & v' & t1 & t2 & V' & _ & KT & B1 & _). { apply points_row. rewrite rows_length. lia. }
  rewrite V in V'. injection V' as <- <-. destruct (kvar_training d th ga eps pts HP HR i t1 t2 Hi KT) as (Q1 & Q2). apply Rle_trans with (k_s2 k * (t1 + t2)). lra.
  apply Rle_trans with (k_s2 k * (2 * eps)). apply Rmult_le_compat_l; lra. lra.
Qed.
Print Assumptions C68_predictive_variance.

(** ** C69 *)
(** without held-out rows the in-sample error is the mean of the squared deviations at the training points *)
Theorem C69_in_sample_error : forall lin d b eps file perm hs th ga, setup lin d b eps file hs th ga ->
  exists k f, krig_session lin d b eps 0 file perm hs krig_new = (k, Ok tt) /\
    (forall i, (i < nrows file)%nat -> krig_interpolate k (nth i (points b d (rows file)) []) = Ok (f i)) /\
    krig_inSampleError k = Ok (rsum (nrows file) (fun i => (f i - output d (rows file) i) ^ 2) / INR (nrows file)).
Proof.
  intros lin d b eps file perm hs th ga S. pose proof (setup_regular _ _ _ _ _ _ _ _ S) as HR. pose proof (su_par _ _ _ _ _ _ _ _ S) as HP.
  destruct (session_ok lin d b eps file perm hs th ga S) as (k & c & ys & E & F & DC). eexists k, _. split; auto. assert (length (rows file) = nrows file) as LR by apply rows_length. rewrite <- LR.
  assert (forall i, (i < length (rows file))%nat -> krig_interpolate k (nth i (points b d (rows file)) []) = Ok ((fun i => (if lin then lpredict d c (nth i (points b d (rows file)) []) else 0) + kpredict d th ga (points b d (rows file)) (k_beta0 k) (vget (k_Rysb k)) (nth i (points b d (rows file)) [])) i)) as PI.
  { intros i Hi. apply (fitted_predict _ _ _ _ _ _ _ _ _ _ _ _ F HP HR). apply points_row; auto. }
  split. exact PI. apply (inSample_ok k d b lin eps (rows file) file c th ga ys); auto; try apply S. lia.
Qed.
Print Assumptions C69_in_sample_error.
(** with held-out rows it is not: the deviations are taken from the outputs of the first rows of the file, not of the training rows.
    Two rows of which the first is held out: the model reproduces its only training sample exactly, yet the reported error is 4 *)
Definition split_file : mat R := mkMat 2 2 [0; 1;  3; 5].
Lemma split_setup : setup false 1 (mkB 1 [0] [1] true) (1 / 100) split_file [] [1] [9 / 5].
Proof.
  constructor; auto; try lia; try lra; try discriminate. apply box01. split; [reflexivity|simpl; lia]. cbn. lia. split; auto. split; auto. intros [|j] Hj; simpl; try lia. lra.
Qed.
Theorem C69_in_sample_error_with_split_refuted : exists lin d b eps ratio file perm hs th ga k y, setup lin d b eps file hs th ga /\ 0 < eps /\ 0 < ratio < 1 /\ Permutation perm (seq 0 (nrows file)) /\
  krig_session lin d b eps ratio file perm hs krig_new = (k, Ok tt) /\ d_n (k_data k) = 1%nat /\ In [1; y] (rows file) /\
  rows (d_X (k_data k)) = [[1]] /\ krig_interpolate k [1] = Ok y /\ krig_inSampleError k = Ok 4.
Proof.
  exists false, 1%nat, (mkB 1 [0] [1] true), (1 / 100), (1 / 2), split_file, [0; 1]%nat, [], [1], [9 / 5].
  destruct (session_split false 1 (mkB 1 [0] [1] true) (1 / 100) (1 / 2) split_file [0; 1]%nat [] [1] [9 / 5] split_setup) as (k & c & ys & q & E & Hq & Hqn & F); try lra. apply Permutation_refl.
  exists k, 5. split. apply split_setup. split. lra. split. lra. split. apply Permutation_refl. split. exact E.
  assert (q = 1)%nat as ->. { simpl in Hq. destruct q as [|[|q]]; auto. simpl in Hq; lra. rewrite !S_INR in Hq. pose proof (pos_INR q). lra. }
  change (unpicked (firstn 1 [0; 1]%nat) (rows split_file)) with [[1; 5]] in F.
  assert (points (mkB 1 [0] [1] true) 1 [[1; 5]] = [[1]]) as EP. { unfold points, inputs, unit_row. cbn. f_equal. f_equal. field. }
  assert (kparams 1 [1] [9 / 5]) as HP. { split; auto. split; auto. intros [|j] Hj; simpl; try lia. lra. }
  pose proof (kregular_eps 1 [1] [9 / 5] (1 / 100) (points (mkB 1 [0] [1] true) 1 [[1; 5]]) HP ltac:(lra)) as HR.
  pose proof (fitted_kriging _ _ _ _ _ _ _ _ _ _ _ F HP HR) as [K1 K2 K3]. rewrite EP in *. cbn [length rsum] in K2. specialize (K1 0%nat ltac:(simpl; lia)). unfold mv in K1. cbn [length rsum] in K1.
  assert (vget (k_Rysb k) 0 = 0) as W by lra. rewrite W in K1. change (output 1 [[1; 5]] 0) with 5 in K1.
  assert (krig_interpolate k [1] = Ok 5) as PI. { rewrite (fitted_predict _ _ _ _ _ _ _ _ _ _ _ [1] F HP) by (rewrite ?EP; auto). rewrite EP. f_equal. unfold kpredict. cbn [length rsum nth]. rewrite W. lra. }
  split. apply (ft_dn _ _ _ _ _ _ _ _ _ _ _ F). split. right. left. auto. split. { destruct (ft_X _ _ _ _ _ _ _ _ _ _ _ F) as (X & _). rewrite X. exact EP. } split. exact PI.
  rewrite (inSample_ok _ _ _ _ _ _ _ _ _ _ _ (fun _ => 5) F); auto.
  - f_equal. cbn [length rsum]. change (output 1 (rows split_file) 0) with 3. simpl. lra.
  - split; [reflexivity|simpl; lia].
  - cbn. lia.
  - intros i Hi. rewrite EP. simpl in Hi. assert (i = 0)%nat as -> by lia. exact PI.
Qed.
Print Assumptions C69_in_sample_error_with_split_refuted.

(** the hypotheses are met: three samples with two inputs, with the linear part and after two hyper-parameter updates *)
Definition krig_example_file : mat R := mkMat 3 3 [0; 1; 2;  4; 2; 1;  10; 20; 15].
Lemma box24 : box_ok (1 / 10 ^ 9) 2 (mkB 2 [0; 0] [2; 4] true).
Proof. unfold box_ok. cbn [b_set b_dim b_lo b_up length]. repeat split; auto. lra. intros [|[|j]] Hj; cbn [nth]; try lra; lia. Qed.
Example krig_example_setup : setup true 2 (mkB 2 [0; 0] [2; 4] true) (1 / 10 ^ 8) krig_example_file [[1; 1; 1; 2]; [3; 0; 2; 1]] [3; 0] [2; 1].
Proof.
  constructor; auto; try lia; try lra. apply box24. all: try (split; [reflexivity|simpl; lia]). all: try (cbn; lia). split; auto. split; auto. intros [|[|j]] Hj; simpl; try lia; lra.
Qed.
(** and without regularisation: two different samples, default hyper-parameters *)
Example krig_example_setup0 : setup false 1 (mkB 1 [0] [1] true) 0 split_file [] [1] [9 / 5].
Proof.
  constructor; auto; try lia; try lra; try discriminate. apply box01. split; [reflexivity|simpl; lia]. cbn. lia. split; auto. split; auto. intros [|j] Hj; simpl; try lia. lra.
  intros _ x (i & Hi & Hx).
  assert (points (mkB 1 [0] [1] true) 1 (rows split_file) = [[0]; [1]]) as ->. { unfold points, inputs, unit_row. cbn. repeat f_equal; field. }
  assert (kparams 1 [1] [9 / 5]) as HP. { split; auto. split; auto. intros [|j] Hj; simpl; try lia. lra. }
  set (r := kcorr 1 [1] [9 / 5] [0] [1]).
  assert (0 < r < 1) as Hr. { split. apply (kcorr_range 1 [1] [9 / 5] [0] [1] HP). unfold r, kcorr, Kexp, co. cbn [rsum nth]. apply Rlt_le_trans with (exp 0); [|rewrite exp_0; lra]. apply exp_increasing.
    replace (Rabs (0 - 1)) with 1. 2:{ rewrite Rabs_left; lra. } unfold Rpow. destruct (Req_EM_T 1 0); [lra|]. unfold Rpower. rewrite ln_1, Rmult_0_r, exp_0. lra. }
  unfold quad, kmat, delta. change (nrows split_file) with 2%nat. cbn [rsum nth Nat.eqb]. rewrite !kcorr_self by auto. rewrite (kcorr_sym 1 [1] [9 / 5] [1] [0]). fold r.
  change (nrows split_file) with 2%nat in Hi. assert (0 < x 0%nat * x 0%nat + x 1%nat * x 1%nat) as Hp. { pose proof (Rle_0_sqr (x 0%nat)). pose proof (Rle_0_sqr (x 1%nat)). unfold Rsqr in *. destruct i as [|[|i]]; [| |lia]; apply Rsqr_pos_lt in Hx; unfold Rsqr in Hx; lra. }
  match goal with |- 0 < ?t => replace t with ((1 - r) * (x 0%nat * x 0%nat + x 1%nat * x 1%nat) + r * Rsqr (x 0%nat + x 1%nat)) by (unfold Rsqr; ring) end.
  assert (0 < (1 - r) * (x 0%nat * x 0%nat + x 1%nat * x 1%nat)) by (apply Rmult_lt_0_compat; lra). assert (0 <= r * Rsqr (x 0%nat + x 1%nat)) by (apply Rmult_le_pos; [lra|apply Rle_0_sqr]). lra.
Qed.
(** the sample that was offered last changes the table only when it is new *)
Example C35_example : offered (fun t => t) [[0; 3]; [1; 5]] [[1 / 2; 4]; [1 / 2 + 1 / 100000; 4]] [[0; 3]; [1; 5]; [1 / 2; 4]].
Proof.
  apply offered_new.
  - intros r [<-|[<-|[]]] H; specialize (H 1%nat ltac:(simpl; lia)); cbn [nth] in H; unfold Rabs in H; destruct (Rcase_abs _) in H; lra.
  - apply offered_dup. exists [1 / 2; 4]. split. right. right. left. auto. intros [|[|j]] Hj; cbn [nth length] in *; try lia; unfold Rabs; destruct (Rcase_abs _); lra. constructor.
Qed.
