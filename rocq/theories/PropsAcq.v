(** Properties C46, C47, C48 and C70: acquisition values. *)
From Coq Require Import Reals Lra Lia Psatz List Arith Bool Permutation.
From Verif Require Import Base StM Num RealNum VecModel ErfMath PiMath AcqModel AcqSpec AcqProofs.
Import ListNotations.
Local Open Scope R_scope.

(** *** C46 *)
Theorem C46_normal_cdf : forall v mu s,
  (s < 0 -> normalCdf v mu s = Throw InvalidArgument) /\
  (0 <= s -> exists p, normalCdf v mu s = Ok p /\ 0 <= p <= 1 /\
     (1 / 10 ^ 12 <= s -> Rabs (p - prob_below v mu s) <= 1 / 10 ^ 18) /\
     (s < 1 / 10 ^ 12 -> (mu <= v -> p = 1) /\ (v < mu -> p = 0))).
Proof.
  intros v mu s. split; intros H.
  - unfold normalCdf. simpl. rewrite (proj2 (Rltb_true _ _) H). reflexivity.
  - rewrite normalCdf_val by auto. eexists. split; [reflexivity|].
    split. apply (normalCdf_range v mu s). apply normalCdf_val; auto.
    assert (Rlit 1 (-12) = 1 / 10 ^ 12) as E by (unfold Rlit; simpl; lra). cbn [nltb RNum]. rewrite E. split; intros Hs.
    + rewrite (proj2 (Rltb_false _ _)) by lra. unfold prob_below. pose proof (Ph_close ((v - mu) / s)). lra.
    + rewrite (proj2 (Rltb_true _ _) Hs). split; intros. rewrite (proj2 (Rltb_false _ _)); auto; lra. rewrite (proj2 (Rltb_true _ _)); auto.
Qed.
Print Assumptions C46_normal_cdf.
Theorem C46_monotone : forall v1 v2 mu s p1 p2, v1 <= v2 -> normalCdf v1 mu s = Ok p1 -> normalCdf v2 mu s = Ok p2 -> p1 <= p2.
Proof.
  intros v1 v2 mu s p1 p2 Hv E1 E2. destruct (Rlt_dec s 0) as [L|L].
  - unfold normalCdf in E1. simpl in E1. rewrite (proj2 (Rltb_true _ _) L) in E1. discriminate.
  - rewrite normalCdf_val in E1, E2 by lra. injection E1 as <-. injection E2 as <-. simpl.
    destruct (Rltb_spec s (Rlit 1 (-12))) as [S|S].
    + destruct (Rltb_spec v1 mu), (Rltb_spec v2 mu); lra.
    + assert (0 < s) by (unfold Rlit in S; simpl in S; lra). destruct Hv as [Hv| ->]; [|lra]. left. apply Ph_inc.
      apply Rmult_lt_compat_r. apply Rinv_0_lt_compat; auto. lra.
Qed.
Print Assumptions C46_monotone.
Theorem C46_below_and_above : forall v mu s,
  (0 <= s -> exists p q, probLess v mu s = Ok p /\ probGreater v mu s = Ok q /\ 0 <= p <= 1 /\ 0 <= q <= 1 /\ p + q = 1) /\
  (s < 0 -> probLess v mu s = Throw InvalidArgument /\ probGreater v mu s = Throw InvalidArgument).
Proof.
  intros v mu s. split; intros H.
  - destruct (proj2 (C46_normal_cdf v mu s) H) as (p & E & R & _). exists p, (1 - p). unfold probLess, probGreater. rewrite E. cbn [bind]. repeat split; auto; lra.
  - unfold probLess, probGreater. rewrite (proj1 (C46_normal_cdf v mu s) H). auto.
Qed.
Print Assumptions C46_below_and_above.
Example C46_example : exists p, normalCdf 1 1 2 = Ok p /\ p = 1 / 2.
Proof.
  rewrite normalCdf_val by lra. eexists. split; [reflexivity|]. simpl. rewrite (proj2 (Rltb_false _ _)) by (unfold Rlit; simpl; lra).
  replace ((1 - 1) / 2) with 0 by lra. apply Ph_0.
Qed.

(** the density used for the acquisition value is the normal density with mean mu and deviation s *)
Theorem C46_density : forall x mu s, 0 < s -> Rabs (bo_pdf x mu s - phi ((x - mu) / s) / s) <= / 10 ^ 16 / s.
Proof.
  intros x mu s Hs. assert (bo_pdf x mu s = ph ((x - mu) / s) / s) as ->.
  { unfold bo_pdf, ph. rewrite half_val. replace (- (1 / 2) * ((x - mu) / s) * ((x - mu) / s)) with (- ((x - mu) / s * ((x - mu) / s) / 2)) by (field; lra). field. lra. }
  pose proof (ph_close ((x - mu) / s)) as H. unfold Rdiv at 1 3. rewrite <- Rmult_minus_distr_r, Rabs_mult. rewrite (Rabs_pos_eq (/ s)) by (left; apply Rinv_0_lt_compat; auto).
  rewrite Rabs_pos_eq by lra. apply Rmult_le_compat_r. left; apply Rinv_0_lt_compat; auto. lra.
Qed.
Print Assumptions C46_density.

(** *** C47 *)
(** [pred] is the prediction of the surrogate: mean and variance at a design *)
Theorem C47_expected_improvement : forall (pred : list R -> R * R) fmin k b, 0 <= k ->
  let m := fst (pred (bo_dv b)) in let s := k * sqrt (snd (pred (bo_dv b))) in let b' := expectedImprovement pred fmin k b in
  bo_dv b' = bo_dv b /\ bo_f b' = m /\ bo_sigma b' = sqrt (snd (pred (bo_dv b))) /\ 0 <= bo_acq b' /\
  (s <= 1 / 10 ^ 13 -> bo_acq b' = 0) /\
  (1 / 10 ^ 13 < s -> 0 < bo_acq b' /\ Rabs (bo_acq b' - EI fmin m s) <= Rabs (fmin - m) / 10 ^ 18 + s / 10 ^ 16).
Proof.
  intros pred fmin k b Hk. cbv zeta. unfold expectedImprovement. destruct (pred (bo_dv b)) as [m v]. cbn [fst snd bo_set_pred bo_dv bo_f bo_acq bo_sigma].
  assert (0 <= k * sqrt v) as Hs by (pose proof (sqrt_pos v); nra). set (s := k * sqrt v) in *. rewrite <- !eps_val.
  repeat split; auto.
  - apply ei_nonneg; auto.
  - intros H. apply ei_small. lra.
  - rewrite ei_big by auto. rewrite eps_val in H. pose proof (Gv_pos ((fmin - m) / s)). nra.
  - apply ei_close; auto.
Qed.
Print Assumptions C47_expected_improvement.
(** more uncertainty never lowers the value, a lower predicted mean strictly raises it *)
Theorem C47_monotone : forall fmin (p1 p2 : list R -> R * R) k b, 0 <= k ->
  let m1 := fst (p1 (bo_dv b)) in let m2 := fst (p2 (bo_dv b)) in let s1 := k * sqrt (snd (p1 (bo_dv b))) in let s2 := k * sqrt (snd (p2 (bo_dv b))) in
  let a1 := bo_acq (expectedImprovement p1 fmin k b) in let a2 := bo_acq (expectedImprovement p2 fmin k b) in
  (m1 = m2 -> s1 <= s2 -> a1 <= a2) /\ (m1 = m2 -> 1 / 10 ^ 13 < s2 -> s1 < s2 -> a1 < a2) /\
  (s1 = s2 -> m2 <= m1 -> a1 <= a2) /\ (s1 = s2 -> 1 / 10 ^ 13 < s1 -> m2 < m1 -> a1 < a2).
Proof.
  intros fmin p1 p2 k b Hk. cbv zeta. unfold expectedImprovement. destruct (p1 (bo_dv b)) as [m1 v1], (p2 (bo_dv b)) as [m2 v2]. cbn [fst snd bo_set_pred bo_acq].
  assert (0 <= k * sqrt v1) as H1 by (pose proof (sqrt_pos v1); nra). assert (0 <= k * sqrt v2) as H2 by (pose proof (sqrt_pos v2); nra).
  set (s1 := k * sqrt v1) in *. set (s2 := k * sqrt v2) in *. rewrite <- eps_val. repeat split.
  - intros -> ?. apply ei_sigma; auto.
  - intros -> E L. rewrite (ei_big _ _ s2) by auto. destruct (Rlt_dec EPSILON s1).
    + rewrite ei_big by auto. apply sG_inc; auto. rewrite eps_val in r. lra.
    + rewrite ei_small by lra. rewrite eps_val in E. pose proof (Gv_pos ((fmin - m2) / s2)). nra.
  - intros -> [L| ->]; [|lra]. destruct (Rlt_dec EPSILON s2). left; apply ei_mean; auto. rewrite !ei_small by lra. lra.
  - intros -> E L. apply ei_mean; auto.
Qed.
Print Assumptions C47_monotone.
(** at the incumbent the value is s / sqrt(2 pi) up to rounding of the constant *)
Example C47_example : exists a, a = bo_acq (expectedImprovement (fun _ => (3, 4)) 3 1 (bod_new 2 0)) /\ a = 2 * INVSQRT2PI /\ 79 / 100 < a < 80 / 100.
Proof.
  eexists. split; [reflexivity|]. unfold expectedImprovement. cbn [bo_set_pred bo_acq]. replace (sqrt 4) with 2. 2:{ symmetry. replace 4 with (2 * 2) by ring. apply sqrt_square. lra. }
  rewrite ei_big by (rewrite eps_val; lra). assert (2 * Gv ((3 - 3) / (1 * 2)) = 2 * INVSQRT2PI) as E.
  { unfold Gv, ph. replace ((3 - 3) / (1 * 2)) with 0 by field. replace (- (0 * 0 / 2)) with 0 by field. rewrite exp_0. ring. }
  replace (1 * 2 * Gv ((3 - 3) / (1 * 2))) with (2 * Gv ((3 - 3) / (1 * 2))) by ring. rewrite E, c_val. split; lra.
Qed.

(** *** C48 *)
(** what the probability of satisfaction of a constraint with mean m and deviation s has to be *)
Definition is_prob (c : cfun) (m s p : R) : Prop :=
  0 <= p <= 1 /\
  (1 / 10 ^ 12 <= s -> Rabs (p - match cf_ty c with LT => prob_below (cf_target c) m s | GT => prob_above (cf_target c) m s end) <= 1 / 10 ^ 18) /\
  (s < 1 / 10 ^ 12 -> (satisfied_or_active c m -> p = 1) /\ (~ satisfied_or_active c m -> p = 0)).
Definition dev_of (c : cfun) (x : list R) : R := match cf_kind c with UserFun _ => 1 / 10 ^ 13 | Surrogate p => sqrt (snd (p x)) end.
Lemma probSat_is c m s : is_prob c m s (probSat c m s).
Proof.
  unfold is_prob. split. apply probSat_range. unfold probSat. assert (Rlit 1 (-12) = 1 / 10 ^ 12) as E by (unfold Rlit; simpl; lra). cbn [nltb RNum]. rewrite E.
  split; intros H.
  - rewrite (proj2 (Rltb_false _ _)) by lra. pose proof (Ph_close ((cf_target c - m) / s)) as Q. unfold prob_above, prob_below. destruct (cf_ty c).
    + replace (1 - Ph ((cf_target c - m) / s) - (1 - Phi ((cf_target c - m) / s))) with (- (Ph ((cf_target c - m) / s) - Phi ((cf_target c - m) / s))) by ring. rewrite Rabs_Ropp. lra.
    + lra.
  - rewrite (proj2 (Rltb_true _ _) H). unfold satisfied_or_active. destruct (cf_ty c), (Rltb_spec (cf_target c) m); split; intros; lra.
Qed.
Theorem C48_feasibility_weighting : forall lb ub cs b,
  length lb = length (bo_dv b) -> length ub = length (bo_dv b) -> ids_ok cs -> length (bo_cval b) = length cs -> length (bo_csig b) = length cs ->
  exists b' (p : cfun -> R), addPenalty lb ub cs b = Ok b' /\ bo_dv b' = bo_dv b /\
    (forall c, In c cs -> is_prob c (mean_of lb ub c (bo_dv b)) (dev_of c (bo_dv b)) (p c)) /\
    (forall c, In c cs -> nth (cf_id c) (bo_cprob b') 0 = p c) /\
    bo_acq b' = bo_acq b * product (map p cs) /\ (0 <= bo_acq b -> 0 <= bo_acq b' <= bo_acq b).
Proof.
  intros lb ub cs b Hlb Hub Hid H1 H2. destruct (penalty_ok lb ub cs b Hlb Hub Hid H1 H2) as (b' & E & D & _ & _ & A & P).
  exists b', (fun c => probSat c (fst (est lb ub c (bo_dv b))) (snd (est lb ub c (bo_dv b)))). split; auto. split; auto.
  assert (forall c, is_prob c (mean_of lb ub c (bo_dv b)) (dev_of c (bo_dv b)) (probSat c (fst (est lb ub c (bo_dv b))) (snd (est lb ub c (bo_dv b))))) as Q.
  { intros c. rewrite est_mean. assert (snd (est lb ub c (bo_dv b)) = dev_of c (bo_dv b)) as ->. { unfold est, dev_of. destruct (cf_kind c); auto. apply eps_val. } apply probSat_is. }
  split; auto. split.
  - intros c Hc. destruct cs; [destruct Hc|]. apply P; auto. discriminate.
  - split; auto. intros H0. rewrite A. assert (0 <= product (map (fun c => probSat c (fst (est lb ub c (bo_dv b))) (snd (est lb ub c (bo_dv b)))) cs) <= 1) as R.
    { apply rprod_range. intros p Hp. apply in_map_iff in Hp as (c & <- & _). apply probSat_range. } nra.
Qed.
Print Assumptions C48_feasibility_weighting.
(** with user defined constraints only, the value is kept when all hold (a '<' constraint may be active) and is 0 otherwise *)
Theorem C48_user_constraints_are_a_switch : forall lb ub cs b,
  length lb = length (bo_dv b) -> length ub = length (bo_dv b) -> ids_ok cs -> length (bo_cval b) = length cs -> length (bo_csig b) = length cs ->
  (forall c, In c cs -> exists f, cf_kind c = UserFun f) ->
  exists b', addPenalty lb ub cs b = Ok b' /\
    ((forall c, In c cs -> satisfied_or_active c (mean_of lb ub c (bo_dv b))) -> bo_acq b' = bo_acq b) /\
    ((exists c, In c cs /\ ~ satisfied_or_active c (mean_of lb ub c (bo_dv b))) -> bo_acq b' = 0).
Proof.
  intros lb ub cs b Hlb Hub Hid H1 H2 HU. destruct (C48_feasibility_weighting lb ub cs b Hlb Hub Hid H1 H2) as (b' & p & E & _ & P & _ & A & _).
  exists b'. split; auto. rewrite A. clear A E H1 H2 Hid.
  assert (forall c, In c cs -> dev_of c (bo_dv b) < 1 / 10 ^ 12) as D. { intros c Hc. unfold dev_of. destruct (HU c Hc) as [f ->]. lra. }
  split.
  - intros H. assert (product (map p cs) = 1) as ->; [|ring]. induction cs as [|c cs IH]; auto. cbn [map product fold_right]. fold (product (map p cs)).
    rewrite IH by (intros; try apply P; try apply HU; try apply D; try apply H; right; auto). destruct (P c ltac:(left; auto)) as (_ & _ & Q). destruct (Q (D c ltac:(left; auto))) as [Q1 _]. rewrite Q1 by (apply H; left; auto). ring.
  - intros (c & Hc & N). assert (product (map p cs) = 0) as ->; [|ring].
    destruct (P c Hc) as (_ & _ & Q). destruct (Q (D c Hc)) as [_ Q1]. specialize (Q1 N). clear - Hc Q1. induction cs as [|a cs IH]; [destruct Hc|]. cbn [map product fold_right]. fold (product (map p cs)).
    destruct Hc as [->|Hc]. rewrite Q1. ring. rewrite IH by auto. ring.
Qed.
Print Assumptions C48_user_constraints_are_a_switch.
(** two constraints listed in the reverse order of their identifiers, one surrogate and one user defined (x0 + x1 > 1 in original units) *)
Example C48_example : exists b', addPenalty [0; 0] [2; 2] [mkCF 1 GT 1 (UserFun (fun x => nth 0 x 0 + nth 1 x 0)); mkCF 0 LT 5 (Surrogate (fun _ => (5, 1)))]
    (mkBO [1 / 4; 1 / 4] 0 8 0 [0; 0] [0; 0] []) = Ok b' /\ bo_acq b' = 4.
Proof.
  destruct (penalty_ok [0; 0] [2; 2] [mkCF 1 GT 1 (UserFun (fun x => nth 0 x 0 + nth 1 x 0)); mkCF 0 LT 5 (Surrogate (fun _ => (5, 1)))]
    (mkBO [1 / 4; 1 / 4] 0 8 0 [0; 0] [0; 0] [])) as (b' & E & _ & _ & _ & A & _); auto.
  { unfold ids_ok. simpl. apply perm_swap. }
  exists b'. split; auto. rewrite A. cbn [bo_acq bo_dv map product fold_right est cf_kind fst snd]. unfold est. cbn [cf_kind fst snd]. unfold probSat. cbn [cf_ty cf_target].
  unfold unscale. cbn [length seq map nth INR nltb RNum]. rewrite eps_val. assert (Rlit 1 (-12) = 1 / 10 ^ 12) as L by (unfold Rlit; simpl; lra). rewrite L.
  rewrite (proj2 (Rltb_true (1 / 10 ^ 13) _)) by lra. rewrite (proj2 (Rltb_true 1 _)) by lra. rewrite sqrt_1. rewrite (proj2 (Rltb_false 1 _)) by lra.
  replace ((5 - 5) / 1) with 0 by field. rewrite Ph_0. lra.
Qed.

(** *** C70: the probability of improvement *)
(** The acquisition value is the probability that a normal variable is below the incumbent value, but its mean is the value
    stored in the design before the call, not the prediction of this call. *)
Theorem C70_probability_uses_stored_mean : forall (pred : list R -> R * R) fmin b, 0 < snd (pred (bo_dv b)) ->
  let b' := probabilityOfImprovement pred fmin b in
  bo_f b' = fst (pred (bo_dv b)) /\ Rabs (bo_acq b' - prob_below fmin (bo_f b) (sqrt (snd (pred (bo_dv b))))) <= 1 / 10 ^ 18.
Proof.
  intros pred fmin b H. cbv zeta. unfold probabilityOfImprovement. destruct (pred (bo_dv b)) as [m v]. cbn [fst snd bo_set_pred bo_f bo_acq] in *. split; auto.
  rewrite bo_cdf_Ph by (apply sqrt_lt_R0; auto). unfold prob_below. pose proof (Ph_close ((fmin - bo_f b) / sqrt v)). lra.
Qed.
Print Assumptions C70_probability_uses_stored_mean.
(** so the second call on the same design is right *)
Theorem C70_second_call : forall (pred : list R -> R * R) fmin b, 0 < snd (pred (bo_dv b)) ->
  Rabs (bo_acq (probabilityOfImprovement pred fmin (probabilityOfImprovement pred fmin b)) - prob_below fmin (fst (pred (bo_dv b))) (sqrt (snd (pred (bo_dv b))))) <= 1 / 10 ^ 18.
Proof.
  intros pred fmin b H. set (b1 := probabilityOfImprovement pred fmin b).
  assert (bo_dv b1 = bo_dv b) as E. { unfold b1, probabilityOfImprovement. destruct (pred (bo_dv b)); reflexivity. }
  pose proof (C70_probability_uses_stored_mean pred fmin b1) as P. cbv zeta in P. rewrite E in P. destruct (P H) as [_ Q].
  destruct (C70_probability_uses_stored_mean pred fmin b H) as [F _]. fold b1 in F. rewrite F in Q. exact Q.
Qed.
Print Assumptions C70_second_call.
(** on a fresh design the value can be as wrong as 1/2: the prediction is 20 with unit deviation, the incumbent value 0 *)
Theorem C70_probability_of_improvement_refuted : exists (pred : list R -> R * R) fmin b,
  0 < snd (pred (bo_dv b)) /\ b = bod_new 1 0 /\
  Rabs (bo_acq (probabilityOfImprovement pred fmin b) - prob_below fmin (fst (pred (bo_dv b))) (sqrt (snd (pred (bo_dv b))))) > 1 / 4.
Proof.
  exists (fun _ => (20, 1)), 0, (bod_new 1 0). cbn [snd fst bod_new bo_dv]. split; [lra|]. split; auto.
  unfold probabilityOfImprovement. cbn [bod_new bo_dv bo_set_pred bo_acq bo_f]. rewrite sqrt_1. rewrite bo_cdf_Ph by lra.
  replace ((0 - 0) / 1) with 0 by field. rewrite Ph_0. unfold prob_below.
  assert (Phi ((0 - 20) / 1) <= 1 / 8) as L.
  { pose proof (Ph_close ((0 - 20) / 1)) as Q. assert (Ph ((0 - 20) / 1) <= 1 / 9) as P.
    { replace ((0 - 20) / 1) with (- (20)) by field. pose proof (Ph_tail 20 ltac:(lra)) as T. replace (- (20 * 20 / 2)) with (- (200)) in T by field. rewrite exp_Ropp in T.
      pose proof (exp_ineq1_le 200). assert (/ exp 200 <= / 201) by (apply Rinv_le_contravar; lra).
      assert (0 < 2 / PI <= 1). { pose proof PI_RGT_0. pose proof PI2_1. split. apply Rdiv_lt_0_compat; lra. apply Rmult_le_reg_r with PI; auto. unfold Rdiv. rewrite Rmult_assoc, Rinv_l by lra. lra. }
      pose proof (exp_pos 200). assert (0 < / exp 200) by (apply Rinv_0_lt_compat; auto). nra. }
    unfold Rabs in Q. destruct (Rcase_abs _); lra. }
  rewrite Rabs_pos_eq; lra.
Qed.
Print Assumptions C70_probability_of_improvement_refuted.
