(** What the training minimises: the values of the two objective functions over the reals. *)
From Coq Require Import Reals Lra Psatz List Arith Lia ZArith Bool Permutation.
From Verif Require Import Base StM Num RealNum RSpec VecModel MatModel MatLemmas MatSpec DetSpec VecProofs VecReal MatProofs MatReal LinSolverModel LinSolverProofs BoundsModel CorrModel CorrSpec CorrProofs CorrObj
  DataModel DataSpec DataProofs DataReal KrigModel KrigSpec KrigMath KrigProofs KrigProofs3 KrigProg KrigProofs4 PropsData KrigProofs5 PropsLin PropsKrig TrainModel TrainProofs TrainReal TrainEval TrainMore.
Import ListNotations.
Local Open Scope R_scope.

Lemma update_system (k k' : krig R) : krig_update k = (k', Ok tt) -> wf (corr_matrix k') -> exists ops, chol_history ops (k_sys k') /\ cs_A (k_sys k') = corr_matrix k'.
Proof.
  intros H. unfold krig_update in H. sstep H. injection H0 as <- <-.
  do 5 (sstep H; apply throw_if_inv in H0; destruct H0 as [_ ->]).
  sstep H. unfold in_kcf in H0. apply zoom_inv in H0. destruct H0 as (c & H0 & ->).
  sstep H. injection H1 as <- <-. sstep H. unfold in_ksys in H1. apply zoom_inv in H1. destruct H1 as (s & H1 & ->).
  assert (wf (cb_R (ec_b c)) -> chol_history (([] ++ [SetMatrix (cb_R (ec_b c))]) ++ [Factorize]) s /\ cs_A s = cb_R (ec_b c)) as HF.
  { intros W. change (chol_factorize (chol_setMatrix (@chol_new R RNum) (cb_R (ec_b c))) = (s, Ok a5)) in H1.
    assert (s = fst (chol_factorize (chol_setMatrix (@chol_new R RNum) (cb_R (ec_b c))))) as -> by (rewrite H1; auto). split. apply ch_factorize, ch_set_matrix; auto. apply ch_new.
    unfold chol_factorize. cbn [cs_A chol_setMatrix]. destruct (mat_cholesky _) as [[L|]|e|]; reflexivity. }
  clear H1. assert (forall k2 : krig R, k_sys k2 = s -> k_cf k2 = c -> wf (corr_matrix k2) -> exists ops, chol_history ops (k_sys k2) /\ cs_A (k_sys k2) = corr_matrix k2) as FIN.
  { intros k2 E1 E2. unfold corr_matrix. rewrite E1, E2. intros W. eexists. apply HF; auto. }
  sstep H. injection H1 as <- <-. unfold krig_resize in H. sstep H. sstep H1. injection H2 as <- <-. sstep H1. apply throw_if_inv in H2. destruct H2 as [_ ->]. injection H1 as <- <-.
  sstep H. injection H1 as <- <-. unfold swhen in H. destruct (chol_isDone _).
  - do 7 (sstep H; unfold slift in H1; injection H1 as <- _). injection H as <-. apply FIN; reflexivity.
  - injection H as <-. apply FIN; reflexivity.
Qed.

Definition neg_likelihood (n : nat) (s2 dt : R) : R := if Rlt_dec 0 s2 then INR n / 2 * ln s2 + 1 / 2 * ln dt else @ndblmax R RNum.
Lemma objective_likelihood k d b lin eps tr file c th0 ga0 ys th ga : fitted k d b lin eps tr file c th0 ga0 ys -> kparams d th ga -> 0 < eps ->
  let pts := points b d tr in
  0 < det (length tr) (kmat d th ga eps pts) /\ exists beta w s2, kriging d th ga eps pts (fun i => output d tr i - trend lin d c (nth i pts [])) beta w s2 /\
    train_objective false k (th ++ ga) = Ok (neg_likelihood (length tr) s2 (det (length tr) (kmat d th ga eps pts))).
Proof.
  intros F HP He pts. pose proof HP as (L1 & L2 & _). destruct (candidate _ _ _ _ _ _ _ _ _ _ _ th ga F L1 L2) as (k' & U & F' & D' & HM & _).
  pose proof (kregular_eps d th ga eps pts HP He) as HR. pose proof (fitted_kriging _ _ _ _ _ _ _ _ _ _ _ F' HP HR) as K. fold pts in K.
  assert (cs_done (k_sys k') = true) as DN by apply (v_done _ _ _ _ _ _ _ (ft_solved _ _ _ _ _ _ _ _ _ _ _ F' HP HR)).
  pose proof HM as (W & M1 & M2 & M3). destruct (update_system _ _ U W) as (ops & HH & EA).
  assert (k_n k' = length (upts b d tr)) as QN by apply (q_n _ _ _ _ _ _ _ (ft_ready _ _ _ _ _ _ _ _ _ _ _ F')).
  assert (length pts = length tr) as Lp by apply points_length. pose proof (ft_ready _ _ _ _ _ _ _ _ _ _ _ F) as []. assert (0 < length tr)%nat as Hn. { rewrite <- Lp. apply q_n0. }
  assert (forall i j, (i < length tr)%nat -> (j < length tr)%nat -> mget (cs_A (k_sys k')) i j = kmat d th ga eps pts i j) as EM.
  { intros i j Hi Hj. rewrite EA, M3 by auto. apply cmat_kmat; auto. }
  destruct (chol_det_ok ops (k_sys k') (length tr) HH DN) as (P1 & P2 & P3); auto.
  { rewrite EA, M1. auto. }
  { intros i j Hi Hj. rewrite !EM by auto. apply (kmat_sym d th ga eps pts (length tr)); auto. }
  { intros x Hx. rewrite (quad_ext _ _ (kmat d th ga eps pts)) by auto. apply (kmat_posdef d th ga eps pts); auto. }
  assert (det (length tr) (mget (cs_A (k_sys k'))) = det (length tr) (kmat d th ga eps pts)) as ED by (apply det_ext; auto). rewrite ED in *.
  split; auto. exists (k_beta0 k'), (vget (k_Rysb k')), (k_s2 k'). split; auto.
  unfold train_objective, train_evaluate, krig_likelihood. unfold sbind at 1. unfold sbind at 1, sget at 1. rewrite q_read, q_norm, q_n. cbn [negb]. destruct (Nat.eqb_spec (length (upts b d tr)) 0); [lia|]. unfold sthrow_if at 1 2 3. do 3 (unfold sbind at 1, sret at 1).
  rewrite (sbind_ok _ _ _ _ _ (setHyper_step _ _ _ _ _ _ _ _ _ _ _ (th ++ ga) F ltac:(rewrite app_length; lia))).
  rewrite firstn_app, L1, Nat.sub_diag, firstn_O, app_nil_r, firstn_all2 by lia. rewrite skipn_app, L1, Nat.sub_diag, skipn_all2 by lia. cbn [app skipn].
  rewrite (sbind_ok _ _ _ _ _ U). unfold sbind at 1, sget at 1. unfold chol_isDone. rewrite DN. cbn [negb]. rewrite P3. unfold sbind at 1, slift at 1. unfold sret at 1. unfold sret at 1. cbn [snd]. f_equal. rewrite QN.
  rewrite upts_length. unfold neg_likelihood. change (@nltb R RNum) with Rltb. change (@n0 R RNum) with 0. change (@nlit R RNum 5 (-1)) with (Rlit 5 (-1)). replace (Rlit 5 (-1)) with (1 / 2) by (unfold Rlit; simpl; field).
  unfold nofnat. change (nofZ (Z.of_nat (length tr))) with (IZR (Z.of_nat (length tr))). rewrite <- INR_IZR_INZ.
  destruct (Rltb_spec 0 (k_s2 k')); destruct (Rlt_dec 0 (k_s2 k')); try contradiction.
  - change (- (1) * ((0 - INR (length tr) / 2) * ln (k_s2 k') - 1 / 2 * ln (det (length tr) (kmat d th ga eps pts))) = INR (length tr) / 2 * ln (k_s2 k') + 1 / 2 * ln (det (length tr) (kmat d th ga eps pts))). ring.
  - change (- (1) * (0 - @ndblmax R RNum) = @ndblmax R RNum). ring.
Qed.

Lemma getRow_nth (m : mat R) i : (i < length (rows m))%nat -> mat_getRow m (Z.of_nat i) = Ok (nth i (rows m) []).
Proof.
  intros H. rewrite rows_length in H. rewrite nth_rows by auto. unfold mat_getRow. destruct (Z.leb_spec (Z.of_nat (nrows m)) (Z.of_nat i)); [lia|]. destruct (Z.ltb_spec (Z.of_nat i) (-1)); [lia|].
  destruct (Z.eqb_spec (Z.of_nat i) (-1)); [lia|]. destruct (Z.ltb_spec (Z.of_nat i) 0); [lia|]. rewrite Nat2Z.id. reflexivity.
Qed.
Lemma validation_sum k f n : rows (d_Xval (k_data k)) <> [] -> n = d_nv (k_data k) -> length (rows (d_Xval (k_data k))) = n -> length (d_yval (k_data k)) = n -> k_norm k = true ->
  (forall i, (i < n)%nat -> krig_interpolate k (nth i (rows (d_Xval (k_data k))) []) = Ok (f i)) ->
  krig_validationError k = Ok (rsum n (fun i => Rabs (f i - nth i (d_yval (k_data k)) 0)) / INR n).
Proof.
  intros Hne -> LX LY HN HF. unfold krig_validationError. set (n := d_nv (k_data k)) in *. assert (0 < n)%nat as Hn. { destruct (rows (d_Xval (k_data k))); [congruence|]. cbn in LX. lia. }
  rewrite (proj2 (Nat.ltb_lt 0 n) Hn), HN. cbn [negb].
  match goal with |- context [loopR n ?g ?s] => assert (forall m, (m <= n)%nat -> loopR m g s = Ok (rsum m (fun i => Rabs (f i - nth i (d_yval (k_data k)) 0)))) as L end.
  { induction m; intros Hm. reflexivity. cbn [loopR]. rewrite IHm by lia. cbn [bind]. rewrite getRow_nth by lia. cbn [bind]. rewrite HF by lia. cbn [bind]. unfold vec_at. rewrite LY. destruct (Nat.leb_spec n m); [lia|]. cbn [bind]. reflexivity. }
  rewrite L by lia. cbn [bind]. f_equal. unfold nofnat. change (nofZ (Z.of_nat n)) with (IZR (Z.of_nat n)). rewrite <- INR_IZR_INZ. reflexivity.
Qed.
