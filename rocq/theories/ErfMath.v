(** The error function as the integral 2/sqrt(pi) * int_0^x exp(-t^2) dt, and the bound |erf| < 1 (Gaussian integral). *)
From Coq Require Import Reals Lra Lia Psatz.
From Coquelicot Require Import Coquelicot.
Local Open Scope R_scope.

Definition gauss (t : R) : R := exp (- (t * t)).
Definition gaussInt (x : R) : R := RInt gauss 0 x.
Definition erf (x : R) : R := 2 / sqrt PI * gaussInt x.

Lemma gauss_pos t : 0 < gauss t.
Proof. apply exp_pos. Qed.
Lemma gauss_derive t : is_derive gauss t (- 2 * t * gauss t).
Proof. unfold gauss. auto_derive; auto. ring. Qed.
Lemma gauss_cont t : continuous gauss t.
Proof. apply (ex_derive_continuous gauss). eexists. apply gauss_derive. Qed.
Lemma gauss_int a b : ex_RInt gauss a b.
Proof. apply (ex_RInt_continuous (V:=R_CompleteNormedModule)). intros. apply gauss_cont. Qed.
Lemma gaussInt_derive x : is_derive gaussInt x (gauss x).
Proof.
  unfold gaussInt. apply (is_derive_RInt gauss (fun x => RInt gauss 0 x) 0 x).
  - exists (mkposreal 1 Rlt_0_1). intros y _. apply (RInt_correct gauss). apply gauss_int.
  - apply gauss_cont.
Qed.
Lemma gaussInt_0 : gaussInt 0 = 0.
Proof. unfold gaussInt. rewrite RInt_point. reflexivity. Qed.
Lemma gaussInt_inc x y : x < y -> gaussInt x < gaussInt y.
Proof.
  intros H. destruct (MVT_gen gaussInt x y gauss) as (c & Hc & E).
  - intros z Hz. apply gaussInt_derive.
  - intros z Hz. apply continuity_pt_filterlim. apply (ex_derive_continuous gaussInt). eexists. apply gaussInt_derive.
  - pose proof (gauss_pos c). nra.
Qed.
Lemma gaussInt_odd x : gaussInt (- x) = - gaussInt x.
Proof.
  assert (forall z, is_derive (fun t => gaussInt (- t) + gaussInt t) z 0) as D.
  { intros z. assert (is_derive (fun t => - t) z (-1)) as Do by (auto_derive; auto; ring).
    evar_last. apply (is_derive_plus (fun t => gaussInt (- t)) gaussInt).
    apply (is_derive_comp gaussInt (fun t => - t) z _ _ (gaussInt_derive (- z)) Do). apply gaussInt_derive.
    unfold plus, scal; simpl. unfold mult; simpl. unfold gauss. replace (- z * - z) with (z * z) by ring. ring. }
  assert (gaussInt (- x) + gaussInt x = gaussInt (- 0) + gaussInt 0) as E.
  { destruct (Req_dec x 0) as [->|Hx]; auto.
    destruct (MVT_gen (fun t => gaussInt (- t) + gaussInt t) 0 x (fun _ => 0)) as (c & _ & E).
    - intros z _. apply D.
    - intros z _. apply continuity_pt_filterlim. apply (ex_derive_continuous (fun t => gaussInt (- t) + gaussInt t)). eexists. apply D.
    - lra. }
  rewrite Ropp_0, gaussInt_0 in E. lra.
Qed.
Lemma gaussInt_nonneg x : 0 <= x -> 0 <= gaussInt x.
Proof.
  intros [H| <-]. rewrite <- gaussInt_0. left. apply gaussInt_inc; auto. rewrite gaussInt_0. lra.
Qed.

(** the auxiliary function of the classical proof *)
Definition aux (x t : R) : R := exp (- (x * x * (1 + t * t))) / (1 + t * t).
Definition auxInt (x : R) : R := RInt (aux x) 0 1.
Lemma sq1 t : 0 < 1 + t * t.
Proof. nra. Qed.
Lemma aux_derive_x x t : is_derive (fun u => aux u t) x (- 2 * x * exp (- (x * x * (1 + t * t)))).
Proof.
  unfold aux. pose proof (sq1 t). auto_derive. lra. field. lra.
Qed.
Lemma aux_cont x t : continuous (aux x) t.
Proof.
  apply (ex_derive_continuous (aux x)). unfold aux. pose proof (sq1 t). auto_derive. lra.
Qed.
Lemma aux_int x a b : ex_RInt (aux x) a b.
Proof. apply (ex_RInt_continuous (V:=R_CompleteNormedModule)). intros. apply aux_cont. Qed.
Lemma aux_Derive x t : Derive (fun u => aux u t) x = - 2 * x * exp (- (x * x * (1 + t * t))).
Proof. apply is_derive_unique. apply aux_derive_x. Qed.
Lemma auxInt_derive x : is_derive auxInt x (RInt (fun t => - 2 * x * exp (- (x * x * (1 + t * t)))) 0 1).
Proof.
  unfold auxInt.
  rewrite <- (RInt_ext (fun t => Derive (fun u => aux u t) x)) by (intros; apply aux_Derive).
  apply is_derive_RInt_param.
  - exists (mkposreal 1 Rlt_0_1). intros y _ t _. eexists. apply aux_derive_x.
  - intros t _. apply (continuity_2d_pt_ext (fun u v => - 2 * u * exp (- (u * u * (1 + v * v))))).
    + intros u v. symmetry. apply aux_Derive.
    + apply continuity_2d_pt_mult. apply continuity_2d_pt_mult. apply continuity_2d_pt_const. apply continuity_2d_pt_id1.
      apply (continuity_1d_2d_pt_comp exp). { apply derivable_continuous_pt. apply derivable_pt_exp. }
      apply continuity_2d_pt_opp. apply continuity_2d_pt_mult. apply continuity_2d_pt_mult; apply continuity_2d_pt_id1.
      apply continuity_2d_pt_plus. apply continuity_2d_pt_const. apply continuity_2d_pt_mult; apply continuity_2d_pt_id2.
  - exists (mkposreal 1 Rlt_0_1). intros y _. apply aux_int.
Qed.
Lemma auxInt_derive' x : is_derive auxInt x (- 2 * gauss x * gaussInt x).
Proof.
  evar_last. apply auxInt_derive.
  assert (gaussInt x = RInt (fun t => x * gauss (x * t)) 0 1) as ->.
  { unfold gaussInt. pose proof (RInt_comp_lin gauss x 0 0 1) as H. rewrite !Rplus_0_r, Rmult_0_r, Rmult_1_r in H.
    rewrite <- H by apply gauss_int. apply RInt_ext. intros t _. unfold scal; simpl. unfold mult; simpl. rewrite Rplus_0_r. auto. }
  transitivity (scal (-2 * gauss x) (RInt (fun t => x * gauss (x * t)) 0 1)); [|reflexivity].
  rewrite <- (RInt_scal (fun t => x * gauss (x * t)) 0 1 (-2 * gauss x)).
  - apply RInt_ext. intros t _. unfold scal; simpl. unfold mult; simpl. unfold gauss.
    replace (- (x * x * (1 + t * t))) with (- (x * x) + - (x * t * (x * t))) by ring. rewrite exp_plus. ring.
  - apply (ex_RInt_continuous (V:=R_CompleteNormedModule)). intros z _. apply (ex_derive_continuous (fun t => x * gauss (x * t))).
    unfold gauss. auto_derive. auto.
Qed.
Lemma auxInt_0 : auxInt 0 = PI / 4.
Proof.
  unfold auxInt. apply is_RInt_unique.
  replace (PI / 4) with (minus (atan 1) (atan 0)).
  - apply (is_RInt_derive atan).
    + intros t _. evar_last. apply is_derive_atan. unfold aux. rewrite Rmult_0_l, Rmult_0_l, Ropp_0, exp_0. pose proof (sq1 t). unfold Rdiv. rewrite Rmult_1_l. f_equal. unfold Rsqr, pow. try ring.
    + intros t _. apply aux_cont.
  - rewrite atan_1, atan_0. unfold minus, plus, opp; simpl. ring.
Qed.
(** (int_0^x e^{-t^2} dt)^2 + int_0^1 e^{-x^2(1+t^2)}/(1+t^2) dt = pi/4 *)
Lemma gauss_identity x : gaussInt x * gaussInt x + auxInt x = PI / 4.
Proof.
  set (h := fun x => gaussInt x * gaussInt x + auxInt x).
  assert (forall z, is_derive h z 0) as D.
  { intros z. unfold h. evar_last. apply (is_derive_plus (fun x => gaussInt x * gaussInt x) auxInt).
    apply (is_derive_mult gaussInt gaussInt); try apply gaussInt_derive. intros; apply Rmult_comm. apply auxInt_derive'.
    unfold plus, mult; simpl. ring. }
  change (h x = PI / 4). replace (PI / 4) with (h 0) by (unfold h; rewrite gaussInt_0, auxInt_0; ring).
  destruct (Req_dec x 0) as [->|Hx]; auto.
  destruct (MVT_gen h 0 x (fun _ => 0)) as (c & _ & E).
  - intros z _. apply D.
  - intros z _. apply continuity_pt_filterlim. apply (ex_derive_continuous h). eexists. apply D.
  - lra.
Qed.
Lemma auxInt_pos x : 0 < auxInt x.
Proof.
  unfold auxInt. apply RInt_gt_0. lra.
  - intros t _. unfold aux. pose proof (sq1 t). apply Rdiv_lt_0_compat; auto. apply exp_pos.
  - intros t _. apply aux_cont.
Qed.
Lemma auxInt_le x : auxInt x <= exp (- (x * x)).
Proof.
  unfold auxInt. replace (exp (- (x * x))) with (RInt (fun _ => exp (- (x * x))) 0 1).
  2:{ rewrite RInt_const. unfold scal; simpl. unfold mult; simpl. ring. }
  apply RInt_le. lra. apply aux_int. apply ex_RInt_const. intros t Ht. unfold aux. pose proof (sq1 t).
  apply Rmult_le_reg_r with (1 + t * t); auto. unfold Rdiv. rewrite Rmult_assoc, Rinv_l, Rmult_1_r by lra.
  assert (exp (- (x * x * (1 + t * t))) <= exp (- (x * x))) as E.
  { destruct (Req_dec (x * x * (t * t)) 0) as [Z|Z]. right; f_equal; nra. left. apply exp_increasing. nra. }
  pose proof (exp_pos (- (x * x))). nra.
Qed.
Lemma gaussInt_bound x : Rabs (gaussInt x) < sqrt PI / 2.
Proof.
  assert (gaussInt x * gaussInt x < (sqrt PI / 2) * (sqrt PI / 2)) as H.
  { pose proof (gauss_identity x). pose proof (auxInt_pos x). replace (sqrt PI / 2 * (sqrt PI / 2)) with (sqrt PI * sqrt PI / 4) by field.
    rewrite sqrt_sqrt by (left; apply PI_RGT_0). lra. }
  assert (0 < sqrt PI / 2) as Hp. { pose proof (sqrt_lt_R0 PI PI_RGT_0). lra. }
  rewrite <- (Rabs_pos_eq (sqrt PI / 2)) by lra. apply Rsqr_lt_abs_0. exact H.
Qed.

Lemma sqrtPI_pos : 0 < sqrt PI.
Proof. apply sqrt_lt_R0. apply PI_RGT_0. Qed.
Lemma erf_bound x : -1 < erf x < 1.
Proof.
  pose proof (gaussInt_bound x) as H. pose proof sqrtPI_pos. apply Rabs_def2 in H. unfold erf.
  assert (2 / sqrt PI * (sqrt PI / 2) = 1) as E by (field; lra).
  assert (0 < 2 / sqrt PI) by (apply Rdiv_lt_0_compat; lra). split; nra.
Qed.
Lemma erf_odd x : erf (- x) = - erf x.
Proof. unfold erf. rewrite gaussInt_odd. ring. Qed.
Lemma erf_inc x y : x < y -> erf x < erf y.
Proof.
  intros H. apply gaussInt_inc in H. unfold erf. pose proof sqrtPI_pos. assert (0 < 2 / sqrt PI) by (apply Rdiv_lt_0_compat; lra). nra.
Qed.
Lemma erf_0 : erf 0 = 0.
Proof. unfold erf. rewrite gaussInt_0. ring. Qed.
Lemma erf_derive x : is_derive erf x (2 / sqrt PI * gauss x).
Proof. unfold erf. apply (is_derive_scal gaussInt x (2 / sqrt PI)). apply gaussInt_derive. Qed.
(** erf -> 1, with an explicit rate *)
Lemma erf_tail x : 0 <= x -> 1 - erf x <= 4 / PI * exp (- (x * x)).
Proof.
  intros Hx. pose proof (gauss_identity x). pose proof (auxInt_le x). pose proof (gaussInt_nonneg x Hx). pose proof sqrtPI_pos. pose proof PI_RGT_0.
  pose proof (erf_bound x). assert (0 <= erf x). { unfold erf. apply Rmult_le_pos; auto. left. apply Rdiv_lt_0_compat; lra. }
  assert (erf x * erf x = 4 / PI * (gaussInt x * gaussInt x)) as E.
  { unfold erf. replace (4 / PI) with (4 / (sqrt PI * sqrt PI)) by (rewrite sqrt_sqrt; lra). field. lra. }
  assert (0 < 4 / PI) by (apply Rdiv_lt_0_compat; lra).
  assert (4 / PI * (PI / 4) = 1) by (field; lra).
  assert (1 - erf x * erf x <= 4 / PI * exp (- (x * x))) by nra. nra.
Qed.
