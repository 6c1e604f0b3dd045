(** * C56, C57: the gradient-descent optimiser *)
From Coq Require Import Reals Lra Lia Psatz List Arith Bool ZArith Sorted SpecFloat.
From Verif Require Import Base StM Num RealNum NumFloat VecModel VecReal DataProofs GradModel GradSpec GradProofs GradReal.
Import ListNotations.
Local Open Scope R_scope.

(** an object with an objective and a gradient callback and a starting point, ready for [optimize] *)
Definition configured (f : list R -> R) (gf : list R -> list R) (s : gopt R) : Prop :=
  g_fun s = Some f /\ g_grad s = Some gf /\ g_useFD s = false /\ (0 < g_dim s)%nat /\ length (p_x (g_cur s)) = g_dim s /\ g_init s = true /\ (0 < g_maxEval s)%Z /\ g_bounds s <> None.
Lemma start_consistent f gf s : configured f gf s -> exists s1, grad_start s = (s1, Ok tt) /\ consistent f gf s1 /\ p_x (g_cur s1) = p_x (g_cur s) /\ g_dim s1 = g_dim s /\
  g_maxStep s1 = g_maxStep s /\ g_tol s1 = g_tol s /\ g_maxEval s1 = g_maxEval s /\ g_opt s1 = g_opt s /\ g_n s1 = S (g_n s) /\ g_bounds s1 = g_bounds s.
Proof.
  intros (H1 & H2 & H3 & H4 & H5 & H6 & H7 & H8). rewrite (start_ok f) by (auto; repeat split; auto). rewrite (evalGradient_ok gf) by auto. eexists. split; [reflexivity|]. split.
  { constructor; auto. }
  cbn. rewrite Nat.add_1_r. repeat (split; auto).
Qed.

(** ** C56 *)
(** a completed line search has moved to the first of the points x - M*g, x - (M/2)*g, x - (M/4)*g, ... whose objective value is smaller than
    that of x; it has evaluated the objective once for each of them, and the gradient is that of the new point *)
Theorem C56_line_search : forall f gf s fuel s' r, consistent f gf s -> 0 < g_maxStep s -> line_search fuel s = Some (s', r) ->
  exists k, let at_step j := step_to (p_x (g_cur s)) (first_n (g_dim s) (gf (p_x (g_cur s)))) (g_maxStep s / 2 ^ j) in
    r = Ok tt /\ p_x (g_cur s') = at_step k /\ f (at_step k) < f (p_x (g_cur s)) /\ (forall j, (j < k)%nat -> f (p_x (g_cur s)) <= f (at_step j)) /\
    p_f (g_cur s') = f (at_step k) /\ p_g (g_cur s') = first_n (g_dim s) (gf (at_step k)) /\ g_opt s' = f (at_step k) /\ g_n s' = (g_n s + S k)%nat /\ consistent f gf s'.
Proof.
  intros f gf s fuel s' r C HM H. destruct (search_ok f gf s C HM fuel) as [A _]. destruct (A s' r H) as (k & Hk & -> & C1 & X & V & W & O & N & D & _). exists k. cbv beta zeta.
  assert (forall j, trial s (g_maxStep s / 2 ^ j) = step_to (p_x (g_cur s)) (first_n (g_dim s) (gf (p_x (g_cur s)))) (g_maxStep s / 2 ^ j)) as T.
  { intros j. unfold trial. rewrite (cons_g _ _ _ C). auto. }
  rewrite <- T. split; auto. split; auto. split. { rewrite <- X. auto. } split. { intros j Hj. rewrite <- T. auto. }
  split. { rewrite (cons_val _ _ _ C1), X. auto. } split. { rewrite (cons_g _ _ _ C1), X, D. auto. } split. { rewrite O, X. auto. } auto.
Qed.
Print Assumptions C56_line_search.

(** it terminates exactly when one of these points is better: there is no bound on the number of halvings *)
Theorem C56_line_search_terminates_iff : forall f gf s, consistent f gf s -> 0 < g_maxStep s ->
  ((exists fuel s' r, line_search fuel s = Some (s', r)) <->
   exists k, f (step_to (p_x (g_cur s)) (first_n (g_dim s) (gf (p_x (g_cur s)))) (g_maxStep s / 2 ^ k)) < f (p_x (g_cur s))).
Proof.
  intros f gf s C HM. split.
  - intros (fuel & s' & r & H). destruct (C56_line_search f gf s fuel s' r C HM H) as (k & _ & _ & V & _). eauto.
  - intros (k & Hk). exists (S k). destruct (search_ok f gf s C HM (S k)) as [_ B]. destruct (line_search (S k) s) as [[s' r]|]; eauto.
    exfalso. specialize (B eq_refl k (Nat.lt_succ_diag_r k)). unfold trial in B. rewrite (cons_g _ _ _ C) in B. lra.
Qed.
Print Assumptions C56_line_search_terminates_iff.

(** in particular it terminates when the callback returns the gradient, i.e. the slope of the objective along x - t*g is -|g|^2, and g is not 0;
    and it runs for ever at every point with no better point on the ray *)
Theorem C56_terminates_with_gradient : forall f gf s, consistent f gf s -> 0 < g_maxStep s ->
  let x := p_x (g_cur s) in let g := first_n (g_dim s) (gf x) in
  derivable_pt_lim (fun t => f (step_to x g t)) 0 (- norm2 g ^ 2) -> norm2 g <> 0 -> exists fuel s', line_search fuel s = Some (s', Ok tt).
Proof.
  intros f gf s C HM x g D N. destruct (ray_decrease f x g (g_maxStep s) HM) as [k Hk].
  { exists (- norm2 g ^ 2). split; auto. assert (0 < norm2 g ^ 2); [|lra]. assert (0 <= norm2 g) by apply sqrt_pos. apply pow_lt. lra. }
  destruct (proj2 (C56_line_search_terminates_iff f gf s C HM)) as (fuel & s' & r & H). eauto. exists fuel, s'. destruct (C56_line_search f gf s fuel s' r C HM H) as (_ & -> & _). auto.
Qed.
Print Assumptions C56_terminates_with_gradient.
Theorem C56_endless_at_minimum_refuted : forall f gf s, consistent f gf s -> 0 < g_maxStep s -> (forall y, f (p_x (g_cur s)) <= f y) -> forall fuel, line_search fuel s = None.
Proof.
  intros f gf s C HM H fuel. destruct (line_search fuel s) as [[s' r]|] eqn:E; auto. destruct (C56_line_search f gf s fuel s' r C HM E) as (k & _ & _ & V & _).
  specialize (H (step_to (p_x (g_cur s)) (first_n (g_dim s) (gf (p_x (g_cur s)))) (g_maxStep s / 2 ^ k))). lra.
Qed.
Print Assumptions C56_endless_at_minimum_refuted.

(** a finished run with callbacks: the visited points have strictly decreasing objective values; the run ends at the last of them, with its value,
    where the gradient is below the tolerance or the budget is used up *)
Theorem C56_run : forall f gf s fuel rounds s' r, configured f gf s -> 0 < g_maxStep s -> grad_optimize fuel rounds s = Some (s', r) ->
  r = Ok tt /\ exists xs, descends f gf (g_dim s) (g_maxStep s) (p_x (g_cur s)) xs /\ StronglySorted (fun a b => f b < f a) (p_x (g_cur s) :: xs) /\
    p_x (g_cur s') = last xs (p_x (g_cur s)) /\ p_f (g_cur s') = f (p_x (g_cur s')) /\
    (norm2 (first_n (g_dim s) (gf (p_x (g_cur s')))) < g_tol s \/ (g_maxEval s <= Z.of_nat (g_n s'))%Z) /\
    (xs <> [] -> g_opt s' = f (p_x (g_cur s'))) /\ (xs = [] -> g_opt s' = g_opt s) /\ (g_n s + S (length xs) <= g_n s')%nat.
Proof.
  intros f gf s fuel rounds s' r C HM H. destruct (start_consistent f gf s C) as (s1 & E & C1 & X1 & D1 & M1 & T1 & E1 & O1 & N1 & _).
  unfold grad_optimize in H. rewrite E in H. destruct (descend_ok f gf fuel rounds s1 s' r C1 ltac:(rewrite M1; auto) H) as (-> & C2 & T2 & E2 & xs & D & L & Y & O & N & Fin).
  rewrite X1, D1, M1, T1, E1, N1 in *. split; auto. exists xs. split; auto. split.
  { clear - D. induction D. repeat constructor. subst y. inversion IHD; subst. constructor; auto. constructor; auto. eapply Forall_impl; [|eauto]. cbn. intros; lra. }
  split; auto. split; [apply (cons_val _ _ _ C2)|]. split.
  { destruct Fin as [Fin|Fin]; auto. left. rewrite (cons_norm _ _ _ C2), (cons_g _ _ _ C2) in Fin. assert (g_dim s' = g_dim s) as <-; auto. rewrite <- D1.
    rewrite <- (cons_len _ _ _ C2), <- (cons_len _ _ _ C1), L, X1. clear - D. induction D; auto. rewrite last_cons. rewrite IHD. subst y. apply step_len. }
  split; auto. split. { intros ->. rewrite (Y eq_refl). auto. } lia.
Qed.
Print Assumptions C56_run.

(** when the starting point already satisfies the tolerance, the reported optimum is not the value there *)
Theorem C56_no_step_reports_default_refuted : forall f gf s fuel rounds, configured f gf s -> norm2 (first_n (g_dim s) (gf (p_x (g_cur s)))) < g_tol s ->
  exists s', grad_optimize fuel (S rounds) s = Some (s', Ok tt) /\ g_opt s' = g_opt s /\ p_x (g_cur s') = p_x (g_cur s).
Proof.
  intros f gf s fuel rounds C L. destruct (start_consistent f gf s C) as (s1 & E & C1 & X1 & D1 & M1 & T1 & E1 & O1 & N1 & _). exists s1. unfold grad_optimize. rewrite E. cbn [descend].
  change (@nltb R RNum) with Rltb. rewrite (proj2 (Rltb_true (p_norm (g_cur s1)) (g_tol s1))). auto. rewrite (cons_norm _ _ _ C1), (cons_g _ _ _ C1), X1, D1, T1. auto.
Qed.
Print Assumptions C56_no_step_reports_default_refuted.

(** examples: x^2 from 1 with maximal step 1 finds 0 in one line search of two trials *)
Definition square (x : list R) : R := nth 0 x 0 * nth 0 x 0.
Definition square' (x : list R) : list R := [2 * nth 0 x 0].
Definition demo (f : list R -> R) (gf : list R -> list R) (M : R) (x0 : R) : gopt R :=
  fst ((run grad_setDimension 1; run grad_setBounds [0] [2]; run grad_setFunction f; run grad_setGradient gf; run grad_setInitialPoint [x0]; run grad_setMaxStep M; grad_setMaxEval 1) grad_new).
Lemma demo_eq f gf M x0 : demo f gf M x0 = mkG 1 (Some f) (Some gf) (Some ([0], [2])) true false FdNone (mkP [x0] [] 0 0) point0 (Rlit 1 (-5)) (Rlit 1 (-3)) M 10 (IZR ((2 ^ 24 - 1) * 2 ^ 104)) 1 0.
Proof.
  assert (vec_gt [2] [0] = Ok true) as G. { unfold vec_gt. cbn -[Rleb]. change (Ok (negb (Rleb 2 0) && true) = Ok true). rewrite (proj2 (Rleb_false 2 0)) by lra. reflexivity. }
  unfold demo, grad_setBounds, sbind, sget, slift, smod, grad_setDimension, sthrow_if. cbn [length Nat.eqb negb g_dim gset_dim grad_new smod]. rewrite G. reflexivity.
Qed.
Lemma demo_configured f gf M x0 : configured f gf (demo f gf M x0).
Proof. rewrite demo_eq. unfold configured. cbn. repeat split; auto; try lia; try discriminate. Qed.
Lemma tol_pos : 0 < Rlit 1 (-5) < 1.
Proof. unfold Rlit. simpl. lra. Qed.
Example C56_example : exists s', grad_optimize 2 2 (demo square square' 1 1) = Some (s', Ok tt) /\ p_x (g_cur s') = [1 - 1 / 2 * (2 * 1)] /\ g_n s' = 3%nat /\ configured square square' (demo square square' 1 1).
Proof.
  destruct (start_consistent _ _ _ (demo_configured square square' 1 1)) as (s1 & E & C1 & X1 & D1 & M1 & T1 & E1 & O1 & N1 & _). rewrite demo_eq in X1, D1, M1, T1, E1, O1, N1. cbn [p_x g_cur g_dim g_maxStep g_tol g_maxEval g_opt g_n] in *.
  unfold grad_optimize. rewrite E. cbn [descend]. change (@nltb R RNum) with Rltb.
  assert (p_norm (g_cur s1) = 2) as HN. { rewrite (cons_norm _ _ _ C1), (cons_g _ _ _ C1), X1, D1. unfold norm2, first_n, square'. cbn. replace (0 + _) with (2 * 2) by ring. apply sqrt_square. lra. }
  pose proof tol_pos as HT. rewrite (proj2 (Rltb_false (p_norm (g_cur s1)) (g_tol s1))) by (rewrite HN, T1; lra).
  destruct (search_ok _ _ _ C1 ltac:(rewrite M1; lra) 2) as [A B]. unfold trial in A, B. rewrite (cons_g _ _ _ C1), X1, D1, M1 in A, B.
  destruct (line_search 2 s1) as [[s2 r]|] eqn:L.
  - destruct (A _ _ eq_refl) as (k & Hk & -> & C2 & X2 & V & _ & O2 & N2 & D2 & M2 & T2 & E2).
    assert (k = 1)%nat as ->. { destruct k as [|[|k]]; auto; [|lia]. exfalso. rewrite X2 in V. unfold square, step_to, first_n, square' in V. cbn in V. lra. }
    rewrite E2, E1, N2, N1. cbn [Nat.add Z.of_nat Pos.of_succ_nat Pos.succ Z.leb Z.compare Pos.compare Pos.compare_cont]. exists s2. split; auto. split.
    { rewrite X2. unfold step_to, first_n, square'. cbn. repeat f_equal. lra. }
    split; [rewrite N2, N1; reflexivity|]. apply demo_configured.
  - exfalso. specialize (B eq_refl 1%nat ltac:(lia)). unfold square, step_to, first_n, square' in B. cbn in B. lra.
Qed.

(** the box is ignored: minimising x from 1/2 leaves the box [0,2] *)
Theorem C56_box_ignored_refuted : exists f gf s s', configured f gf s /\ 0 < g_maxStep s /\ g_bounds s = Some ([0], [2]) /\ 0 <= nth 0 (p_x (g_cur s)) 0 <= 2 /\
  grad_optimize 1 2 s = Some (s', Ok tt) /\ nth 0 (p_x (g_cur s')) 0 < 0.
Proof.
  set (f := fun x : list R => nth 0 x 0). set (gf := fun _ : list R => [1]). set (s := demo f gf 1 (/ 2)).
  pose proof (demo_configured f gf 1 (/ 2)) as C. fold s in C. destruct (start_consistent _ _ _ C) as (s1 & E & C1 & X1 & D1 & M1 & T1 & E1 & O1 & N1 & _).
  assert (g_maxStep s = 1 /\ p_x (g_cur s) = [/ 2] /\ g_dim s = 1%nat /\ g_tol s = Rlit 1 (-5) /\ g_bounds s = Some ([0], [2]) /\ g_maxEval s = 1%Z /\ g_n s = 0%nat) as (Q1 & Q2 & Q3 & Q4 & Q5 & Q6 & Q7). { unfold s. rewrite demo_eq. cbn. auto 10. }
  exists f, gf, s. unfold grad_optimize. rewrite E. cbn [descend]. change (@nltb R RNum) with Rltb.
  assert (p_norm (g_cur s1) = 1) as HN. { rewrite (cons_norm _ _ _ C1), (cons_g _ _ _ C1), D1, Q3. unfold norm2, first_n, gf. cbn. replace (0 + _) with (1 * 1) by ring. apply sqrt_square. lra. }
  pose proof tol_pos as HT. rewrite (proj2 (Rltb_false (p_norm (g_cur s1)) (g_tol s1))) by (rewrite HN, T1, Q4; lra).
  destruct (search_ok _ _ _ C1 ltac:(rewrite M1; lra) 1) as [A B]. unfold trial in A, B. rewrite (cons_g _ _ _ C1), X1, D1, M1, Q1, Q2, Q3 in A, B.
  destruct (line_search 1 s1) as [[s2 r]|] eqn:L.
  - destruct (A _ _ eq_refl) as (k & Hk & -> & C2 & X2 & V & _ & O2 & N2 & D2 & M2 & T2 & E2). assert (k = 0)%nat as -> by lia.
    exists s2. split; auto. split; [lra|]. split; auto. split; [rewrite Q2; cbn; lra|]. split. { rewrite E2, E1, Q6. destruct (Z.leb_spec 1 (Z.of_nat (g_n s2))); [reflexivity|lia]. }
    rewrite X2. unfold step_to, first_n, gf. cbn. lra.
  - exfalso. specialize (B eq_refl 0%nat ltac:(lia)). unfold f, step_to, first_n, gf in B. cbn in B. lra.
Qed.
Print Assumptions C56_box_ignored_refuted.

(** neither the budget of evaluations nor the maximal number of line-search iterations bounds a line search: with budget 1, a run can use any number *)
Theorem C56_budget_ignored_refuted : forall N, exists f gf s, configured f gf s /\ 0 < g_maxStep s /\ g_maxEval s = 1%Z /\ g_lsIter s = 10%Z /\
  exists fuel s', grad_optimize fuel 2 s = Some (s', Ok tt) /\ (N < g_n s')%nat.
Proof.
  intros N. set (s := demo square square' (2 ^ N) 1). pose proof (demo_configured square square' (2 ^ N) 1) as C. fold s in C. destruct (start_consistent _ _ _ C) as (s1 & E & C1 & X1 & D1 & M1 & T1 & E1 & O1 & N1 & _).
  assert (g_maxStep s = 2 ^ N /\ p_x (g_cur s) = [1] /\ g_dim s = 1%nat /\ g_tol s = Rlit 1 (-5) /\ g_lsIter s = 10%Z /\ g_maxEval s = 1%Z /\ g_n s = 0%nat) as (Q1 & Q2 & Q3 & Q4 & Q5 & Q6 & Q7). { unfold s. rewrite demo_eq. cbn. auto 10. }
  assert (0 < 2 ^ N) as P by (apply pow_lt; lra).
  exists square, square', s. split; auto. split; [lra|]. split; auto. split; auto. exists (S (S N)). unfold grad_optimize. rewrite E. cbn [descend]. change (@nltb R RNum) with Rltb.
  assert (p_norm (g_cur s1) = 2) as HN. { rewrite (cons_norm _ _ _ C1), (cons_g _ _ _ C1), X1, Q2, D1, Q3. unfold norm2, first_n, square'. cbn. replace (0 + _) with (2 * 2) by ring. apply sqrt_square. lra. }
  pose proof tol_pos as HT. rewrite (proj2 (Rltb_false (p_norm (g_cur s1)) (g_tol s1))) by (rewrite HN, T1, Q4; lra).
  destruct (search_ok _ _ _ C1 ltac:(rewrite M1; lra) (S (S N))) as [A B]. unfold trial in A, B. rewrite (cons_g _ _ _ C1), X1, D1, M1, Q1, Q2, Q3 in A, B.
  destruct (line_search (S (S N)) s1) as [[s2 r]|] eqn:L.
  - destruct (A _ _ eq_refl) as (k & Hk & -> & C2 & X2 & V & _ & O2 & N2 & D2 & M2 & T2 & E2). exists s2. split. { rewrite E2, E1, Q6. destruct (Z.leb_spec 1 (Z.of_nat (g_n s2))); [reflexivity|lia]. }
    rewrite N2, N1, Q7. destruct (Nat.le_gt_cases N k); [lia|]. exfalso. rewrite X2 in V. unfold square, step_to, first_n, square' in V. cbn in V.
    assert (1 <= 2 ^ N / 2 ^ k). { apply (Rmult_le_reg_r (2 ^ k)). apply pow_lt; lra. unfold Rdiv. rewrite Rmult_assoc, Rinv_l, Rmult_1_r, Rmult_1_l by (apply pow_nonzero; lra). apply Rle_pow; lra || lia. }
    nra.
  - exfalso. specialize (B eq_refl (S N) ltac:(lia)). replace (2 ^ N / 2 ^ S N) with (/ 2) in B by (simpl; field; lra). unfold square, step_to, first_n, square' in B. cbn in B. lra.
Qed.
Print Assumptions C56_budget_ignored_refuted.

(** with finite differences the comparison value of the current point is overwritten by the last evaluation of the difference quotient:
    a run can accept a worse point, and the reported optimum is not the objective value of the final point *)
Definition para (x : list R) : R := (nth 0 x 0 - 2) * (nth 0 x 0 - 2).
Theorem C56_finite_difference_ascent_refuted : exists s s', g_fun s = Some para /\ g_method s = FdCentral /\ 0 < g_eps s < 1 / 10 /\ p_x (g_cur s) = [1] /\
  grad_optimize 1 2 s = Some (s', Ok tt) /\ para (p_x (g_cur s)) < para (p_x (g_cur s')) /\ g_opt s' <> para (p_x (g_cur s')).
Proof.
  set (s := mkG 1 (Some para) None (Some ([0], [4])) true true FdCentral (mkP [1] [] 0 0) point0 (Rlit 1 (-5)) (1 / 100) (501 / 500) 10 0 1 0).
  exists s. unfold grad_optimize. rewrite (start_ok para) by (repeat split; cbn; auto; try lia; discriminate).
  rewrite (evalGradient_central para) by (cbn; auto). cbn [descend]. change (@nltb R RNum) with Rltb.
  set (s1 := gset_cur _ _).
  assert (cd_quot para (1 / 100) [1] 0 = - 2) as HQ. { rewrite (cd_quot_R para (1 / 100) [1] 0). unfold para. cbn. field. }
  assert (p_g (g_cur s1) = [-2]) as HG. { change (p_g (g_cur s1)) with [cd_quot para (1 / 100) [1] 0]. rewrite HQ. auto. }
  assert (p_norm (g_cur s1) = 2) as HN. { change (p_norm (g_cur s1)) with (vec_norm L2 [cd_quot para (1 / 100) [1] 0]). rewrite norm_norm2. rewrite HQ. unfold norm2. cbn. replace (0 + -2 * -2) with (2 * 2) by ring. apply sqrt_square. lra. }
  assert (p_f (g_cur s1) = 10201 / 10000) as HF. { unfold s1. cbn [p_f g_cur gset_cur]. rewrite cd_value_R. unfold para. cbn. field. }
  pose proof tol_pos as HT. rewrite HN. change (g_tol s1) with (Rlit 1 (-5)). rewrite (proj2 (Rltb_false 2 (Rlit 1 (-5)))) by lra.
  unfold line_search. change (nltb n0 (g_maxStep s1)) with (Rltb 0 (501 / 500)). rewrite (proj2 (Rltb_true 0 (501 / 500))) by lra. cbn [negb].
  rewrite (backtrack_try para) by (cbn; auto). cbv zeta. rewrite HG, HF. change (p_x (g_cur s1)) with [1]. change (g_maxStep s1) with (501 / 500).
  assert (step_to [1] [-2] (501 / 500) = [3004 / 1000]) as HS. { unfold step_to. cbn. f_equal. field. } rewrite HS.
  rewrite (proj2 (Rltb_true (para [3004 / 1000]) (10201 / 10000))) by (unfold para; cbn; lra).
  unfold sbind at 1, smod at 1. unfold sbind. rewrite (evalGradient_central para) by (cbn; auto). unfold smod. cbn [g_maxEval g_n]. set (s2 := gset_opt _ _).
  change (g_maxEval s2) with 1%Z. change (g_n s2) with 6%nat. exists s2. split; auto. split; auto. split; [cbn; lra|]. split; auto. split; [reflexivity|].
  change (p_x (g_cur s2)) with [3004 / 1000]. split. { unfold para; cbn; lra. }
  unfold s2. cbn [g_opt gset_opt p_f g_cur gset_cur]. rewrite cd_value_R. unfold para. cbn. lra.
Qed.
Print Assumptions C56_finite_difference_ascent_refuted.

(** ** C57 *)
(** central differences, made with 2d evaluations, are within M h^2 / 6 of the partial derivative, for every coordinate that is not 0;
    h is the relative step times the coordinate and M bounds the third derivative in that coordinate *)
Theorem C57_central_error : forall f (s : gopt R) (p : dpoint R) i f1 f2 f3 M, g_fun s = Some f -> length (p_x p) = g_dim s -> (i < g_dim s)%nat -> 0 < g_eps s ->
  let x := p_x p in let xi := nth i x 0 in xi <> 0 ->
  (forall t, Rabs (t - xi) <= Rabs (g_eps s * xi) -> partial f (upd x i t) i (f1 t) /\ derivable_pt_lim f1 t (f2 t) /\ derivable_pt_lim f2 t (f3 t) /\ Rabs (f3 t) <= M) ->
  exists s' p' g, grad_central p s = (s', Ok (p', g)) /\ length g = g_dim s /\ p_x p' = x /\ g_n s' = (g_n s + 2 * g_dim s)%nat /\
    Rabs (nth i g 0 - f1 xi) <= M * (g_eps s * xi) ^ 2 / 6.
Proof.
  intros f s p i f1 f2 f3 M Hf Hl Hi He x xi Hx HD. rewrite (central_ok f) by auto. do 3 eexists. split; [reflexivity|]. split; [rewrite map_length, seq_length; auto|]. split; auto. split; auto.
  rewrite nth_map_seq by auto. cbn [Nat.add]. fold x. rewrite (cd_quot_R f (g_eps s) x i). fold xi.
  apply (central_error (fun t => f (upd x i t)) f1 f2 f3). { apply Rmult_integral_contrapositive_currified; lra. }
  intros t Ht. destruct (HD t Ht) as (D1 & D2 & D3 & B). split; auto. apply partial_upd in D1; [|rewrite upd_length; unfold x; lia]. rewrite nth_upd_same in D1 by (unfold x; lia).
  intros e He2. destruct (D1 e He2) as [d Hd]. exists d. intros h H0 H1. specialize (Hd h H0 H1). rewrite !upd_upd in Hd. auto.
Qed.
Print Assumptions C57_central_error.

(** exact for a function that is quadratic in every coordinate; the point is restored but its value is that of the last evaluation *)
Theorem C57_central_exact : forall f (s : gopt R) (p : dpoint R), g_fun s = Some f -> length (p_x p) = g_dim s -> 0 < g_eps s ->
  let x := p_x p in (forall i, (i < g_dim s)%nat -> nth i x 0 <> 0) ->
  (forall i, (i < g_dim s)%nat -> exists a b c, forall t, f (upd x i t) = a * t ^ 2 + b * t + c) ->
  exists s' p' g, grad_central p s = (s', Ok (p', g)) /\ length g = g_dim s /\ p_x p' = x /\ (forall i, (i < g_dim s)%nat -> partial f x i (nth i g 0)) /\
    p_f p' = match g_dim s with O => p_f p | S k => f (upd x k ((1 - g_eps s) * nth k x 0)) end.
Proof.
  intros f s p Hf Hl He x Hx HQ. rewrite (central_ok f) by auto. do 3 eexists. split; [reflexivity|]. split; [rewrite map_length, seq_length; auto|]. split; auto. split.
  - intros i Hi. rewrite nth_map_seq by auto. cbn [Nat.add]. fold x. rewrite (cd_quot_R f (g_eps s) x i). apply partial_upd; [unfold x; lia|]. destruct (HQ i Hi) as (a & b & c & Q). specialize (Hx i Hi).
    rewrite !Q, central_quadratic by (apply Rmult_integral_contrapositive_currified; lra).
    intros e He2. destruct (quadratic_deriv a b c (nth i x 0) e He2) as [d Hd]. exists d. intros h H0 H1. specialize (Hd h H0 H1). rewrite !Q. auto.
  - cbn [p_f pset_f]. rewrite cd_value_R. fold x. destruct (g_dim s); auto. f_equal. f_equal. ring.
Qed.
Print Assumptions C57_central_exact.
Example C57_example : let f := fun x => nth 0 x 0 * nth 1 x 0 + 3 * nth 1 x 0 ^ 2 in let x := [1; 2] in
  (forall i, (i < 2)%nat -> nth i x 0 <> 0) /\ (forall i, (i < 2)%nat -> exists a b c, forall t, f (upd x i t) = a * t ^ 2 + b * t + c).
Proof.
  intros f x. split; intros i Hi; destruct i as [|[|i]]; try lia; cbn; try lra.
  - exists 0, 2, 12. intros t. unfold f. cbn. ring.
  - exists 3, 1, 0. intros t. unfold f. cbn. ring.
Qed.

(** the forward variant makes its d+1 evaluations and leaves the gradient of the point as it was; a run with it stops at once at the starting point *)
Theorem C57_forward_dropped_refuted : forall {T} {NT : Num T} f (s : gopt T) (p : dpoint T), g_fun s = Some f -> g_useFD s = true -> g_method s = FdForward -> (0 < g_dim s)%nat -> length (p_x p) = g_dim s ->
  exists s' p', grad_evalGradient p s = (s', Ok p') /\ p_g p' = p_g p /\ p_x p' = p_x p /\ g_n s' = (g_n s + S (g_dim s))%nat.
Proof. intros T NT f s p Hf Hd Hm H0 Hl. rewrite (evalGradient_forward f) by auto. do 2 eexists. split; [reflexivity|]. repeat split; auto. Qed.
Print Assumptions C57_forward_dropped_refuted.
Theorem C57_forward_run_refuted : forall f (s : gopt R) fuel rounds, g_fun s = Some f -> g_useFD s = true -> g_method s = FdForward -> checked s -> length (p_x (g_cur s)) = g_dim s -> p_g (g_cur s) = [] -> 0 < g_tol s ->
  exists s', grad_optimize fuel (S rounds) s = Some (s', Ok tt) /\ p_x (g_cur s') = p_x (g_cur s) /\ g_opt s' = g_opt s /\ g_n s' = (g_n s + g_dim s + 2)%nat.
Proof.
  intros f s fuel rounds Hf Hd Hm C Hl Hg Ht. unfold grad_optimize. rewrite (start_ok f) by auto. rewrite (evalGradient_forward f); auto; [|apply C]. cbn [descend]. change (@nltb R RNum) with Rltb.
  cbn [p_norm g_cur gset_cur p_g pset_f ticks gset_n g_tol]. rewrite Hg, norm_norm2. unfold norm2. cbn [length rsum]. rewrite sqrt_0, (proj2 (Rltb_true 0 (g_tol s)) Ht). eexists. split; [reflexivity|]. cbn. split; auto. split; auto. lia.
Qed.
Print Assumptions C57_forward_run_refuted.
Example C57_forward_example : exists s : gopt R, g_fun s = Some para /\ g_useFD s = true /\ g_method s = FdForward /\ checked s /\ length (p_x (g_cur s)) = g_dim s /\ p_g (g_cur s) = [] /\ 0 < g_tol s.
Proof.
  exists (mkG 1 (Some para) None (Some ([0], [4])) true true FdForward (mkP [1] [] 0 0) point0 (Rlit 1 (-5)) (1 / 100) 1 10 0 1 0). pose proof tol_pos. unfold checked. cbn. repeat split; auto; try lia; try discriminate. lra.
Qed.

(** binary64: a coordinate 0 makes its relative step 0 and the quotient NaN; with an objective that is NaN at NaN arguments, the run never ends *)
Lemma F_sub_self (v : F) : SFsub prec64 emax64 v v = S754_zero false \/ SFsub prec64 emax64 v v = S754_nan \/ v = S754_zero true.
Proof.
  destruct v as [[]|[]| |b m e]; auto. left. unfold SFsub. set (z := fst (shl_align m e (Z.min e e))). cbv zeta.
  replace (cond_Zopp b (Z.pos z) - cond_Zopp b (Z.pos z))%Z with 0%Z by lia. reflexivity.
Qed.
Lemma F_nan_sum n f k : (k < n)%nat -> f k = S754_nan -> nsum (T:=F) n f = S754_nan.
Proof.
  intros Hk Hf. induction n; [lia|]. destruct (Nat.eq_dec k n) as [<-|].
  - change (SFadd prec64 emax64 (nsum (T:=F) k f) (f k) = S754_nan). rewrite Hf. destruct (nsum (T:=F) k f) as [[]|[]| |]; reflexivity.
  - change (SFadd prec64 emax64 (nsum (T:=F) n f) (f n) = S754_nan). rewrite IHn by lia. destruct (f n) as [[]|[]| |]; reflexivity.
Qed.
Lemma F_nan_quot f (e : F) x i : (exists m ex, e = S754_finite false m ex) -> nth i x (S754_zero false) = S754_zero false -> cd_quot (T:=F) f e x i = S754_nan.
Proof.
  intros (m & ex & ->) Hx. unfold cd_quot, cd_up, cd_lo. change (@n0 F FNum) with (S754_zero false). rewrite Hx.
  change (S754_zero false +! S754_finite false m ex *! S754_zero false) with (S754_zero false). set (v := f _).
  change (f (upd x i (S754_zero false -! nofZ 2 *! (S754_finite false m ex *! S754_zero false)))) with v.
  change (nofZ 2 *! (S754_finite false m ex *! S754_zero false)) with (S754_zero false). change (SFdiv prec64 emax64 (SFsub prec64 emax64 v v) (S754_zero false) = S754_nan).
  destruct (F_sub_self v) as [->|[->| ->]]; reflexivity.
Qed.
Theorem C57_zero_coordinate_hangs_refuted : forall (f : list F -> F) (s : gopt F), g_fun s = Some f -> g_useFD s = true -> g_method s = FdCentral -> checked s -> length (p_x (g_cur s)) = g_dim s ->
  (exists i, (i < g_dim s)%nat /\ nth i (p_x (g_cur s)) (S754_zero false) = S754_zero false) -> (exists m e, g_eps s = S754_finite false m e) -> SFltb (S754_zero false) (g_maxStep s) = true ->
  (forall y, In S754_nan y -> f y = S754_nan) -> forall fuel rounds, grad_optimize fuel rounds s = None.
Proof.
  intros f s Hf Hd Hm C Hl (i & Hi & Hx) He HM HN fuel rounds. unfold grad_optimize. rewrite (start_ok f) by auto. rewrite (evalGradient_central f); auto; [|apply C].
  set (g := map _ _). set (s1 := gset_cur _ _).
  assert (nth i g (S754_zero false) = S754_nan) as HG. { unfold g. rewrite nth_map_seq by (cbn; auto). cbn [Nat.add]. apply F_nan_quot; auto. }
  assert (length g = g_dim s) as LG. { unfold g. rewrite map_length, seq_length. reflexivity. }
  destruct rounds; [reflexivity|]. cbn [descend].
  assert (p_norm (g_cur s1) = S754_nan) as NN. { change (p_norm (g_cur s1)) with (vec_norm (T:=F) L2 g). unfold vec_norm. rewrite (F_nan_sum _ _ i); [reflexivity|lia|]. unfold vget. change (@n0 F FNum) with (S754_zero false). rewrite HG. reflexivity. }
  rewrite NN. change (nltb S754_nan (g_tol s1)) with false. cbv iota.
  unfold line_search. change (nltb n0 (g_maxStep s1)) with (SFltb (S754_zero false) (g_maxStep s)). rewrite HM. cbn [negb].
  assert (forall fuel t s2, g_fun s2 = Some f -> p_g (g_cur s2) = g -> p_x (g_cur s2) = p_x (g_cur s) -> backtrack fuel t s2 = None) as B.
  { clear - HG LG Hl Hi HN. intros fuel. induction fuel; intros t s2 Hf Hg Hx; auto. cbn [backtrack]. unfold sbind at 1, slift.
    assert (exists y, vec_sub (p_x (g_cur s2)) (vec_scale (p_g (g_cur s2)) t) = Ok y /\ In S754_nan y) as (y & Hy & Ny).
    { rewrite Hg, Hx. unfold vec_sub, vec_scale, vbuild. rewrite map_length, seq_length, LG, Hl, Nat.eqb_refl. eexists. split; [reflexivity|].
      apply in_map_iff. exists i. split; [|apply in_seq; lia]. unfold vget. rewrite nth_map_seq by auto. cbn [Nat.add]. change (@n0 F FNum) with (S754_zero false). rewrite HG.
      change (SFsub prec64 emax64 (nth i (p_x (g_cur s)) (S754_zero false)) S754_nan = S754_nan). destruct (nth i (p_x (g_cur s)) (S754_zero false)) as [[]|[]| |]; reflexivity. }
    rewrite Hy. unfold sbind at 1, smod at 1. unfold sbind. rewrite (eval_ok f) by auto. unfold smod. cbn [p_f g_next gset_next g_cur pset_f pset_x p_x]. rewrite (HN y Ny).
    change (nltb S754_nan (p_f (g_cur (gset_next (pset_f S754_nan (pset_x y (g_next s2))) (ticks 1 (gset_next (pset_x y (g_next s2)) s2)))))) with false. cbv iota. apply IHfuel; auto. }
  rewrite B; auto.
Qed.
Print Assumptions C57_zero_coordinate_hangs_refuted.
(** the sum of squares from the origin, with the default step of the differences *)
Example C57_hang_example : let f := fun x : list F => vec_sum (map (fun t => t *! t) x) in
  let s := mkG (T:=F) 2 (Some f) None (Some ([], [])) true true FdCentral (mkP [n0; n1] [] n0 n0) point0 (nlit 1 (-5)) (nlit 1 (-3)) n1 10 n0 5 0 in
  checked s /\ (exists m e, g_eps s = S754_finite false m e) /\ SFltb (S754_zero false) (g_maxStep s) = true /\ (forall y, In S754_nan y -> f y = S754_nan).
Proof.
  intros f s. unfold checked, s. split; [cbn; repeat split; auto; try lia; discriminate|]. split. { eexists _, _. vm_compute. reflexivity. } split; [reflexivity|].
  intros y Hy. destruct (In_nth _ _ (S754_zero false) Hy) as (k & Hk & Ek). unfold f, vec_sum. rewrite map_length. apply (F_nan_sum _ _ k Hk). unfold vget.
  rewrite (nth_indep _ _ (S754_zero false *! S754_zero false)) by (rewrite map_length; auto). rewrite (map_nth (fun t : F => t *! t)). rewrite Ek. reflexivity.
Qed.
