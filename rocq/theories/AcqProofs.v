From Coq Require Import Reals Lra Lia Psatz List Arith Bool Permutation.
From Coquelicot Require Import Coquelicot.
From Verif Require Import Base StM Num RealNum VecModel VecReal ErfMath PiMath AcqModel AcqSpec.
Import ListNotations.
Local Open Scope R_scope.

Lemma c_val : INVSQRT2PI = 3989422804014327 / 10 ^ 16.
Proof. unfold INVSQRT2PI, Rlit. simpl. lra. Qed.
Lemma s2_val : SQRT2 = 14142135623730950488 / 10 ^ 19.
Proof. unfold SQRT2, Rlit. simpl. lra. Qed.
Lemma half_val : Rlit 5 (-1) = 1 / 2.
Proof. unfold Rlit. simpl. lra. Qed.
Lemma eps_val : EPSILON = 1 / 10 ^ 13.
Proof. unfold EPSILON, Rlit. simpl. lra. Qed.
Lemma s2_pos : 0 < SQRT2.
Proof. rewrite s2_val. lra. Qed.
Lemma c_pos : 0 < INVSQRT2PI.
Proof. rewrite c_val. lra. Qed.
Lemma s2_sq : SQRT2 * SQRT2 <= 2.
Proof. rewrite s2_val. lra. Qed.
(** 1/(SQRT2 * sqrt pi) <= INVSQRT2PI *)
Lemma c_ge : / (SQRT2 * sqrt PI) <= INVSQRT2PI.
Proof.
  pose proof s2_pos. pose proof c_pos. pose proof sqrtPI_pos. pose proof PI_RGT_0.
  assert (0 < SQRT2 * sqrt PI) as Hp by nra.
  apply Rmult_le_reg_r with (SQRT2 * sqrt PI); auto. rewrite Rinv_l by lra.
  set (q := INVSQRT2PI * (SQRT2 * sqrt PI)). assert (0 < q) by (unfold q; nra).
  assert (q * q >= 1).
  { unfold q. replace (INVSQRT2PI * (SQRT2 * sqrt PI) * (INVSQRT2PI * (SQRT2 * sqrt PI))) with (INVSQRT2PI * SQRT2 * (INVSQRT2PI * SQRT2) * (sqrt PI * sqrt PI)) by ring.
    rewrite sqrt_sqrt by lra. pose proof pi_lower. rewrite c_val, s2_val in *.
    set (k := 3989422804014327 / 10 ^ 16 * (14142135623730950488 / 10 ^ 19)). assert (k * k * (3141592653589793238 / 10 ^ 18) >= 1) by (unfold k; lra).
    assert (0 <= k * k) by nra. nra. }
  nra.
Qed.

(** the standard normal distribution function and density as computed with the source constants *)
Definition Ph (z : R) : R := 1 / 2 * (1 + erf (z / SQRT2)).
Definition ph (z : R) : R := INVSQRT2PI * exp (- (z * z / 2)).
Definition kap (z : R) : R := / (SQRT2 * sqrt PI) * exp (- (z * z / (SQRT2 * SQRT2))).
Lemma Ph_bound z : 0 < Ph z < 1.
Proof. unfold Ph. pose proof (erf_bound (z / SQRT2)). lra. Qed.
Lemma Ph_inc x y : x < y -> Ph x < Ph y.
Proof. intros H. unfold Ph. pose proof s2_pos. assert (x / SQRT2 < y / SQRT2) by (apply Rmult_lt_compat_r; auto; apply Rinv_0_lt_compat; auto). apply erf_inc in H1. lra. Qed.
Lemma Ph_sym z : Ph (- z) = 1 - Ph z.
Proof. unfold Ph. replace (- z / SQRT2) with (- (z / SQRT2)) by (unfold Rdiv; ring). rewrite erf_odd. lra. Qed.
Lemma Ph_0 : Ph 0 = 1 / 2.
Proof. unfold Ph. unfold Rdiv at 2. rewrite Rmult_0_l, erf_0. lra. Qed.
Lemma Ph_derive z : is_derive Ph z (kap z).
Proof.
  pose proof s2_pos. pose proof sqrtPI_pos.
  assert (is_derive (fun z => z / SQRT2) z (/ SQRT2)) as D1 by (auto_derive; auto; field; lra).
  assert (is_derive (fun z => erf (z / SQRT2)) z (/ SQRT2 * (2 / sqrt PI * gauss (z / SQRT2)))) as D2.
  { apply (is_derive_comp erf (fun z => z / SQRT2) z _ _ (erf_derive (z / SQRT2)) D1). }
  unfold Ph. evar_last. apply (is_derive_scal (fun z => 1 + erf (z / SQRT2)) z (1 / 2)).
  apply (is_derive_plus (fun _ => 1) (fun z => erf (z / SQRT2))). apply is_derive_const. exact D2.
  unfold plus, zero; simpl. unfold kap, gauss. replace (z / SQRT2 * (z / SQRT2)) with (z * z / (SQRT2 * SQRT2)) by (field; lra). unfold scal; simpl; unfold mult; simpl. field. lra.
Qed.
Lemma ph_derive z : is_derive ph z (- z * ph z).
Proof. unfold ph. auto_derive; auto. unfold Rdiv. set (e := exp _). simpl in *. change (z : R) with (z:R). generalize e; intros w. revert z e. intros z _. field. Qed.
Lemma ph_pos z : 0 < ph z.
Proof. unfold ph. apply Rmult_lt_0_compat. apply c_pos. apply exp_pos. Qed.
Lemma kap_pos z : 0 < kap z.
Proof. unfold kap. apply Rmult_lt_0_compat. apply Rinv_0_lt_compat. apply Rmult_lt_0_compat. apply s2_pos. apply sqrtPI_pos. apply exp_pos. Qed.
Lemma exp_le x y : x <= y -> exp x <= exp y.
Proof. intros [H| ->]. left. apply exp_increasing; auto. lra. Qed.
Lemma kap_le z : kap z <= ph z.
Proof.
  unfold kap, ph. apply Rmult_le_compat. left; apply Rinv_0_lt_compat; apply Rmult_lt_0_compat; [apply s2_pos|apply sqrtPI_pos].
  left; apply exp_pos. apply c_ge. apply exp_le. apply Ropp_le_contravar. unfold Rdiv. apply Rmult_le_compat_l. nra.
  apply Rinv_le_contravar. pose proof s2_pos. nra. apply s2_sq.
Qed.
Definition Gv (z : R) : R := z * Ph z + ph z.
Lemma Gv_derive z : is_derive Gv z (Ph z - z * (ph z - kap z)).
Proof.
  unfold Gv. evar_last. apply (is_derive_plus (fun z => z * Ph z) ph).
  apply (is_derive_mult (fun z => z) Ph). apply is_derive_id. apply Ph_derive. intros; apply Rmult_comm. apply ph_derive.
  unfold plus, mult, one; simpl. ring.
Qed.
Lemma z_exp z : z * exp (- (z * z / 2)) <= 1.
Proof.
  assert (z <= exp (z * z / 2)). { pose proof (exp_ineq1_le (z * z / 2)). nra. }
  rewrite exp_Ropp. pose proof (exp_pos (z * z / 2)). apply Rmult_le_reg_r with (exp (z * z / 2)); auto. rewrite Rmult_assoc, Rinv_l by lra. lra.
Qed.
Lemma Gv_derive_pos z : 0 < Ph z - z * (ph z - kap z).
Proof.
  pose proof (Ph_bound z). pose proof (kap_le z). pose proof (kap_pos z). pose proof (ph_pos z).
  destruct (Rle_dec z 0). nra.
  assert (1 / 2 <= Ph z). { rewrite <- Ph_0. left. apply Ph_inc. lra. }
  assert (z * ph z <= INVSQRT2PI). { unfold ph. pose proof (z_exp z). pose proof c_pos. nra. }
  rewrite c_val in *. nra.
Qed.
Lemma Gv_inc x y : x < y -> Gv x < Gv y.
Proof.
  intros H. destruct (MVT_gen Gv x y (fun z => Ph z - z * (ph z - kap z))) as (c & Hc & E).
  - intros z _. apply Gv_derive.
  - intros z _. apply continuity_pt_filterlim. apply (ex_derive_continuous Gv). eexists. apply Gv_derive.
  - pose proof (Gv_derive_pos c). nra.
Qed.
Lemma Ph_tail z : 0 <= z -> Ph (- z) <= 2 / PI * exp (- (z * z / 2)).
Proof.
  intros Hz. rewrite Ph_sym. unfold Ph. pose proof s2_pos. pose proof PI_RGT_0.
  assert (0 <= z / SQRT2) by (apply Rmult_le_pos; auto; left; apply Rinv_0_lt_compat; auto).
  pose proof (erf_tail _ H1). replace (z / SQRT2 * (z / SQRT2)) with (z * z / (SQRT2 * SQRT2)) in H2 by (field; lra).
  assert (exp (- (z * z / (SQRT2 * SQRT2))) <= exp (- (z * z / 2))).
  { apply exp_le. apply Ropp_le_contravar. unfold Rdiv. apply Rmult_le_compat_l. nra. apply Rinv_le_contravar. nra. apply s2_sq. }
  assert (0 < 2 / PI) by (apply Rdiv_lt_0_compat; lra).
  replace (4 / PI) with (2 * (2 / PI)) in H2 by (field; lra). nra.
Qed.
Lemma Gv_nonneg z : 0 <= Gv z.
Proof.
  destruct (Rle_dec 0 (Gv z)) as [|N]; auto. exfalso. apply Rnot_le_lt in N.
  set (e := - Gv z) in *. assert (0 < e) by (unfold e; lra).
  set (w := Rmax (1 + Rabs z) (4 / e)). assert (1 + Rabs z <= w /\ 4 / e <= w) as [W1 W2] by (split; [apply Rmax_l|apply Rmax_r]).
  pose proof (Rabs_pos z). pose proof (Rle_abs (- z)) as Ha. rewrite Rabs_Ropp in Ha.
  assert (Gv (- w) < Gv z) as L by (apply Gv_inc; lra).
  assert (- w * Ph (- w) >= - (2 / PI * (w * exp (- (w * w / 2))))) as B. { pose proof (Ph_tail w ltac:(lra)). nra. }
  pose proof (ph_pos (- w)) as P. unfold Gv at 1 in L.
  assert (w * exp (- (w * w / 2)) <= 2 / w) as Q.
  { rewrite exp_Ropp. pose proof (exp_ineq1_le (w * w / 2)) as X. assert (w * w / 2 <= exp (w * w / 2)) as X2 by lra. pose proof (exp_pos (w * w / 2)).
    apply Rmult_le_reg_r with (exp (w * w / 2)); auto. rewrite Rmult_assoc, Rinv_l by lra. rewrite Rmult_1_r.
    apply Rle_trans with (2 / w * (w * w / 2)). right. field. lra. apply Rmult_le_compat_l; auto. left. apply Rdiv_lt_0_compat; lra. }
  assert (2 / w <= e / 2) as Q2.
  { apply Rmult_le_reg_r with w. lra. unfold Rdiv at 1. rewrite Rmult_assoc, Rinv_l by lra. assert (4 <= e * w). { apply Rmult_le_compat_l with (r := e) in W2; [|lra]. replace (e * (4 / e)) with 4 in W2 by (field; lra). lra. } lra. }
  assert (2 / PI <= 1) as Q3. { pose proof PI_RGT_0. pose proof PI2_1. apply Rmult_le_reg_r with PI; auto. unfold Rdiv. rewrite Rmult_assoc, Rinv_l by lra. lra. }
  assert (0 < 2 / PI) by (apply Rdiv_lt_0_compat; [lra|apply PI_RGT_0]).
  assert (0 <= w * exp (- (w * w / 2))). { pose proof (exp_pos (- (w * w / 2))). nra. }
  unfold e in *. nra.
Qed.
Lemma Gv_pos z : 0 < Gv z.
Proof. apply Rle_lt_trans with (Gv (z - 1)). apply Gv_nonneg. apply Gv_inc. lra. Qed.

(** the model functions *)
Lemma bo_cdf_Ph x mu s : 0 < s -> bo_cdf x mu s = Ph ((x - mu) / s).
Proof. intros. unfold bo_cdf, Ph. rewrite half_val. pose proof s2_pos. do 3 f_equal. field. lra. Qed.
Lemma bo_pdf_ph z : bo_pdf z 0 1 = ph z.
Proof. unfold bo_pdf, ph. rewrite half_val. replace (- (1 / 2) * ((z - 0) / 1) * ((z - 0) / 1)) with (- (z * z / 2)) by field. field. Qed.
Lemma ei_big fmin ft s : EPSILON < s -> ei_value fmin ft s = s * Gv ((fmin - ft) / s).
Proof.
  intros H. assert (0 < s) by (rewrite eps_val in H; lra). unfold ei_value. rewrite Rabs_pos_eq by lra. simpl. rewrite (proj2 (Rltb_true _ _) H).
  rewrite bo_cdf_Ph by lra. rewrite bo_pdf_ph. unfold Gv. rewrite Rdiv_1, Rminus_0_r. field. lra.
Qed.
Lemma ei_small fmin ft s : 0 <= s <= EPSILON -> ei_value fmin ft s = 0.
Proof. intros H. unfold ei_value. rewrite Rabs_pos_eq by lra. simpl. rewrite (proj2 (Rltb_false _ _)) by lra. auto. Qed.
Lemma ei_nonneg fmin ft s : 0 <= s -> 0 <= ei_value fmin ft s.
Proof.
  intros H. destruct (Rlt_dec EPSILON s). rewrite ei_big by auto. pose proof (Gv_pos ((fmin - ft) / s)). nra. rewrite ei_small; lra.
Qed.
Lemma sG_inc i s1 s2 : 0 < s1 -> s1 < s2 -> s1 * Gv (i / s1) < s2 * Gv (i / s2).
Proof.
  intros H1 H2. set (h := fun s => i * Ph (i / s) + s * ph (i / s)).
  assert (forall s, 0 < s -> s * Gv (i / s) = h s) as Eh. { intros s Hs. unfold h, Gv. field. lra. }
  rewrite !Eh by lra.
  set (dh := fun s => ph (i / s) + (i / s) * (i / s) * (ph (i / s) - kap (i / s))).
  assert (forall s, 0 < s -> is_derive h s (dh s)) as D.
  { intros s Hs. assert (is_derive (fun s => i / s) s (- i / (s * s))) as Di by (auto_derive; [lra|field; lra]).
    unfold h. evar_last. apply (is_derive_plus (fun s => i * Ph (i / s)) (fun s => s * ph (i / s))).
    apply (is_derive_scal (fun s => Ph (i / s)) s i). apply (is_derive_comp Ph (fun s => i / s) s _ _ (Ph_derive (i / s)) Di).
    apply (is_derive_mult (fun s => s) (fun s => ph (i / s))). apply is_derive_id. apply (is_derive_comp ph (fun s => i / s) s _ _ (ph_derive (i / s)) Di). intros; apply Rmult_comm.
    unfold plus, mult, one, scal; simpl. unfold mult; simpl. unfold dh. field. lra. }
  destruct (MVT_gen h s1 s2 dh) as (c & Hc & E).
  - intros z Hz. rewrite Rmin_left, Rmax_right in Hz by lra. apply D. lra.
  - intros z Hz. rewrite Rmin_left, Rmax_right in Hz by lra. apply continuity_pt_filterlim. apply (ex_derive_continuous h). eexists. apply D. lra.
  - assert (0 < dh c) as Q. { unfold dh. pose proof (ph_pos (i / c)). pose proof (kap_le (i / c)). assert (0 <= i / c * (i / c) * (ph (i / c) - kap (i / c))). { apply Rmult_le_pos. apply Rle_0_sqr. lra. } lra. }
    assert (0 < dh c * (s2 - s1)) by (apply Rmult_lt_0_compat; lra). lra.
Qed.
Lemma ei_sigma fmin ft s1 s2 : 0 <= s1 -> s1 <= s2 -> ei_value fmin ft s1 <= ei_value fmin ft s2.
Proof.
  intros H0 H. destruct (Rlt_dec EPSILON s1).
  - rewrite !ei_big by lra. destruct H as [H| ->]; [|lra]. left. apply sG_inc; auto. rewrite eps_val in r. lra.
  - rewrite ei_small by lra. apply ei_nonneg. lra.
Qed.
Lemma ei_mean fmin f1 f2 s : EPSILON < s -> f1 < f2 -> ei_value fmin f2 s < ei_value fmin f1 s.
Proof.
  intros Hs H. assert (0 < s) by (rewrite eps_val in Hs; lra). rewrite !ei_big by auto. apply Rmult_lt_compat_l; auto. apply Gv_inc.
  apply Rmult_lt_compat_r. apply Rinv_0_lt_compat; auto. lra.
Qed.

(** normalCdf *)
Lemma normalCdf_val v mu s : 0 <= s -> normalCdf v mu s = Ok (if s <! Rlit 1 (-12) then (if v <! mu then 0 else 1) else Ph ((v - mu) / s)).
Proof.
  intros Hs. unfold normalCdf. simpl. rewrite (proj2 (Rltb_false _ _)) by lra.
  destruct (Rltb_spec s (Rlit 1 (-12))) as [H|H]; auto. f_equal. rewrite half_val. unfold Ph. pose proof s2_pos. do 3 f_equal. assert (0 < s). { unfold Rlit in H. simpl in H. lra. } field. lra.
Qed.
Lemma normalCdf_range v mu s p : normalCdf v mu s = Ok p -> 0 <= p <= 1.
Proof.
  intros H. destruct (Rlt_dec s 0) as [L|L].
  - unfold normalCdf in H. simpl in H. rewrite (proj2 (Rltb_true _ _) L) in H. discriminate.
  - rewrite normalCdf_val in H by lra. injection H as <-. simpl. destruct (Rltb s (Rlit 1 (-12))); [destruct (Rltb v mu); lra|]. pose proof (Ph_bound ((v - mu) / s)). lra.
Qed.

(** *** constraints *)
Lemma rprod_perm l1 l2 : Permutation l1 l2 -> product l1 = product l2.
Proof. induction 1; simpl; try congruence. ring. Qed.
Lemma fold_mult l : forall a, fold_left (fun a p => a * p) l a = a * product l.
Proof. induction l; intros; simpl. ring. rewrite IHl. ring. Qed.
Lemma rprod_range l : (forall p, In p l -> 0 <= p <= 1) -> 0 <= product l <= 1.
Proof. induction l; simpl; intros H. lra. pose proof (H a ltac:(auto)). assert (0 <= product l <= 1) by auto. nra. Qed.

Definition fill {C : Type} (id : C -> nat) (g : C -> R) (cs : list C) (v : list R) : list R := fold_left (fun v c => upd v (id c) (g c)) cs v.
Lemma fill_length {C} id g (cs : list C) : forall v, length (fill id g cs v) = length v.
Proof. induction cs; intros; simpl; auto. unfold fill in *. simpl. rewrite IHcs, upd_length. auto. Qed.
Lemma fill_other {C} id g (cs : list C) i : forall v, ~ In i (map id cs) -> nth i (fill id g cs v) 0 = nth i v 0.
Proof. induction cs; intros v H; auto. unfold fill in *. cbn [fold_left]. simpl in H. rewrite IHcs by tauto. apply nth_upd_other. tauto. Qed.
Lemma fill_in {C} id g (cs : list C) c : forall v, NoDup (map id cs) -> In c cs -> (id c < length v)%nat -> nth (id c) (fill id g cs v) 0 = g c.
Proof.
  induction cs; intros v Hn Hi Hl. destruct Hi. cbn [map] in Hn. inversion_clear Hn. unfold fill. cbn [fold_left]. fold (fill id g cs (upd v (id a) (g a))).
  destruct Hi as [->|Hi].
  - rewrite fill_other by auto. apply nth_upd_same; auto.
  - apply IHcs; auto. rewrite upd_length; auto.
Qed.
Lemma fill_rprod {C} id g (cs : list C) v : Permutation (map id cs) (seq 0 (length cs)) -> length v = length cs ->
  product (fill id g cs v) = product (map g cs).
Proof.
  intros Hp Hl. set (w := fill id g cs v). assert (length w = length cs) as Lw by (unfold w; rewrite fill_length; auto).
  assert (NoDup (map id cs)) as Hn. { eapply Permutation_NoDup. symmetry; eauto. apply seq_NoDup. }
  transitivity (product (map (fun i => nth i w 0) (seq 0 (length cs)))).
  - f_equal. apply (list_ext _ _ 0). rewrite map_length, seq_length. auto. intros i Hi. rewrite nth_map_seq by lia. auto.
  - rewrite <- (rprod_perm _ _ (Permutation_map (fun i => nth i w 0) Hp)). rewrite map_map. f_equal. apply map_ext_in. intros c Hc.
    unfold w. apply fill_in; auto. rewrite Hl. assert (In (id c) (seq 0 (length cs))) as Q. { eapply Permutation_in; eauto. apply in_map; auto. }
    apply in_seq in Q. lia.
Qed.

Lemma ids_lt cs c : ids_ok cs -> In c cs -> (cf_id c < length cs)%nat.
Proof. intros H Hc. assert (In (cf_id c) (seq 0 (length cs))) as Q. { eapply Permutation_in; eauto. apply in_map; auto. } apply in_seq in Q. lia. Qed.
Lemma ids_nodup cs : ids_ok cs -> NoDup (map cf_id cs).
Proof. intros H. eapply Permutation_NoDup. symmetry; eauto. apply seq_NoDup. Qed.
Lemma vset_ok (v : list R) i x : (i < length v)%nat -> vec_set v i x = Ok (upd v i x).
Proof. intros. unfold vec_set. destruct (Nat.leb_spec (length v) i); auto; lia. Qed.
Lemma vat_ok (v : list R) i : (i < length v)%nat -> vec_at v i = Ok (nth i v 0).
Proof. intros. unfold vec_at. destruct (Nat.leb_spec (length v) i); auto; lia. Qed.
Definition est (lb ub : vec R) (c : cfun) (x : vec R) : R * R :=
  match cf_kind c with UserFun f => (f (unscale lb ub x), EPSILON) | Surrogate p => (fst (p x), sqrt (snd (p x))) end.
Lemma est_mean lb ub c x : fst (est lb ub c x) = mean_of lb ub c x.
Proof. unfold est, mean_of. destruct (cf_kind c); reflexivity. Qed.
Lemma est_nonneg lb ub c x : 0 <= snd (est lb ub c x).
Proof. unfold est. destruct (cf_kind c); simpl. rewrite eps_val. lra. apply sqrt_pos. Qed.
Lemma cf_est_ok lb ub c x : length lb = length x -> length ub = length x -> cf_est lb ub c x = Ok (est lb ub c x).
Proof.
  intros H1 H2. unfold cf_est, est. destruct (cf_kind c); auto. rewrite denormalize_ok by auto. cbn [bind]. unfold unscale. do 4 f_equal.
  unfold vbuild, vget. apply map_ext. intros i. rewrite INR_IZR_INZ. reflexivity.
Qed.
Lemma estimate_ok lb ub cs b : length lb = length (bo_dv b) -> length ub = length (bo_dv b) ->
  ids_ok cs -> length (bo_cval b) = length cs -> length (bo_csig b) = length cs ->
  estimateConstraints lb ub cs b = Ok (mkBO (bo_dv b) (bo_f b) (bo_acq b) (bo_sigma b) (fill cf_id (fun c => fst (est lb ub c (bo_dv b))) cs (bo_cval b)) (fill cf_id (fun c => snd (est lb ub c (bo_dv b))) cs (bo_csig b)) (bo_cprob b)).
Proof.
  intros Hlb Hub Hid H1 H2. unfold estimateConstraints. rewrite H1, Nat.eqb_refl. cbn [negb].
  assert (forall c, In c cs -> (cf_id c < length (bo_cval b) /\ cf_id c < length (bo_csig b))%nat) as HI. { intros c Hc. pose proof (ids_lt _ _ Hid Hc). lia. }
  clear Hid H1 H2. set (x := bo_dv b) in *. assert (bo_dv b = x) as Ex by reflexivity. clearbody x. revert b Ex HI.
  induction cs as [|c cs IH]; intros b Hx HI; unfold fill. rewrite <- Hx. destruct b; reflexivity. cbn [fold_left].
  rewrite cf_est_ok by auto. destruct (HI c) as [L1 L2]; [left; auto|]. cbn [bind]. rewrite !vset_ok by auto. cbn [bind]. fold (@fill cfun).
  rewrite (IH (mkBO (bo_dv b) (bo_f b) (bo_acq b) (bo_sigma b) (upd (bo_cval b) (cf_id c) (fst (est lb ub c x))) (upd (bo_csig b) (cf_id c) (snd (est lb ub c x))) (bo_cprob b))); auto.
  intros c' Hc'. cbn [bo_cval bo_csig]. rewrite !upd_length. apply HI. right; auto.
Qed.
(** the probability that the normal variable of mean m and deviation s satisfies the constraint *)
Definition probSat (c : cfun) (m s : R) : R :=
  let below := if s <! Rlit 1 (-12) then (if cf_target c <! m then 0 else 1) else Ph ((cf_target c - m) / s) in
  match cf_ty c with LT => below | GT => 1 - below end.
Lemma probSat_range c m s : 0 <= probSat c m s <= 1.
Proof.
  unfold probSat. simpl. destruct (Rltb s (Rlit 1 (-12))); destruct (cf_ty c); try (destruct (Rltb (cf_target c) m); lra).
  all: pose proof (Ph_bound ((cf_target c - m) / s)); lra.
Qed.
Lemma feas_ok cs b : ids_ok cs -> length (bo_cval b) = length cs -> length (bo_csig b) = length cs ->
  (forall c, In c cs -> 0 <= nth (cf_id c) (bo_csig b) 0) ->
  feasibilityProbabilities cs b = Ok (mkBO (bo_dv b) (bo_f b) (bo_acq b) (bo_sigma b) (bo_cval b) (bo_csig b)
    (fill cf_id (fun c => probSat c (nth (cf_id c) (bo_cval b) 0) (nth (cf_id c) (bo_csig b) 0)) cs (repeat 0 (length cs)))).
Proof.
  intros Hid H1 H2 Hs. unfold feasibilityProbabilities.
  assert (forall l v, (forall c, In c l -> In c cs) -> length v = length cs ->
    fold_left (fun r c => p <- r ;; m <- vec_at (bo_cval b) (cf_id c) ;; s <- vec_at (bo_csig b) (cf_id c) ;;
         q <- match cf_ty c with GT => probGreater (cf_target c) m s | LT => probLess (cf_target c) m s end ;; vec_set p (cf_id c) q) l (Ok v) =
    Ok (fill cf_id (fun c => probSat c (nth (cf_id c) (bo_cval b) 0) (nth (cf_id c) (bo_csig b) 0)) l v)) as G.
  { induction l as [|c l IH]; intros v Hl Lv. reflexivity. unfold fill. cbn [fold_left].
    pose proof (ids_lt cs c Hid (Hl c ltac:(left; auto))) as Lc. pose proof (Hs c (Hl c ltac:(left; auto))) as Sc. cbn [bind].
    rewrite !vat_ok by lia. cbn [bind].
    assert ((match cf_ty c with GT => probGreater (cf_target c) (nth (cf_id c) (bo_cval b) 0) (nth (cf_id c) (bo_csig b) 0)
             | LT => probLess (cf_target c) (nth (cf_id c) (bo_cval b) 0) (nth (cf_id c) (bo_csig b) 0) end) = Ok (probSat c (nth (cf_id c) (bo_cval b) 0) (nth (cf_id c) (bo_csig b) 0))) as ->.
    { unfold probGreater, probLess, probSat. rewrite normalCdf_val by auto. destruct (cf_ty c); reflexivity. }
    cbn [bind]. rewrite vset_ok by lia. fold (@fill cfun). apply IH. intros; apply Hl; right; auto. rewrite upd_length; auto. }
  rewrite G by (auto; apply repeat_length). reflexivity.
Qed.
Lemma penalty_ok lb ub cs b : length lb = length (bo_dv b) -> length ub = length (bo_dv b) ->
  ids_ok cs -> length (bo_cval b) = length cs -> length (bo_csig b) = length cs ->
  exists b', addPenalty lb ub cs b = Ok b' /\ bo_dv b' = bo_dv b /\ bo_f b' = bo_f b /\ bo_sigma b' = bo_sigma b /\
    bo_acq b' = bo_acq b * product (map (fun c => probSat c (fst (est lb ub c (bo_dv b))) (snd (est lb ub c (bo_dv b)))) cs) /\
    (cs <> [] -> length (bo_cprob b') = length cs /\ forall c, In c cs -> nth (cf_id c) (bo_cprob b') 0 = probSat c (fst (est lb ub c (bo_dv b))) (snd (est lb ub c (bo_dv b)))).
Proof.
  intros Hlb Hub Hid H1 H2. destruct cs as [|c0 cs0] eqn:Ecs.
  - exists b. cbn. repeat split; auto. ring. tauto. tauto.
  - rewrite <- Ecs in *. assert (addPenalty lb ub cs b = (b <- estimateConstraints lb ub cs b ;; b <- feasibilityProbabilities cs b ;; Ok (updateAcquisition b))) as -> by (rewrite Ecs; reflexivity).
    rewrite estimate_ok by auto. cbn [bind].
    assert (forall c g v, In c cs -> length v = length cs -> nth (cf_id c) (fill cf_id g cs v) 0 = g c) as FI.
    { intros c g v Hc Hv. apply fill_in; auto. apply ids_nodup; auto. rewrite Hv. apply ids_lt; auto. }
    rewrite feas_ok; cbn [bo_cval bo_csig bo_dv]; rewrite ?fill_length; auto.
    2:{ intros c Hc. rewrite FI by auto. apply est_nonneg. }
    cbn [bind]. eexists. split; [reflexivity|]. cbn [updateAcquisition bo_dv bo_f bo_sigma bo_acq bo_cval bo_csig bo_cprob].
    repeat split; auto.
    + rewrite fold_mult. f_equal. rewrite fill_rprod by (auto; apply repeat_length). f_equal. apply map_ext_in. intros c Hc. rewrite !FI by auto. auto.
    + rewrite fill_length. apply repeat_length.
    + intros c Hc. rewrite FI by (auto; apply repeat_length). rewrite !FI by auto. auto.
Qed.

(** *** agreement with the exact normal distribution *)
Lemma sqrt2_bounds : SQRT2 <= sqrt 2 <= SQRT2 + / 10 ^ 19.
Proof.
  pose proof s2_pos. pose proof (sqrt_pos 2). pose proof (sqrt_sqrt 2 ltac:(lra)) as E. split.
  - pose proof s2_sq. nra.
  - assert (2 <= (SQRT2 + / 10 ^ 19) * (SQRT2 + / 10 ^ 19)) by (rewrite s2_val; lra). assert (0 < SQRT2 + / 10 ^ 19) by (rewrite s2_val; lra). nra.
Qed.
Lemma Phi_erf z : Phi z = 1 / 2 * (1 + erf (z / sqrt 2)).
Proof.
  unfold Phi, erf. assert (0 < sqrt 2) as S2 by (apply sqrt_lt_R0; lra). pose proof sqrtPI_pos as SP.
  assert (RInt phi 0 z = / sqrt PI * gaussInt (z / sqrt 2)) as ->. 2:{ field. lra. }
  unfold gaussInt. replace 0 with (/ sqrt 2 * 0 + 0) at 2 by ring. replace (z / sqrt 2) with (/ sqrt 2 * z + 0) by (unfold Rdiv; ring).
  rewrite <- (RInt_comp_lin gauss (/ sqrt 2) 0 0 z). 2: apply gauss_int.
  transitivity (scal (/ sqrt PI) (RInt (fun y => scal (/ sqrt 2) (gauss (/ sqrt 2 * y + 0))) 0 z)). 2: reflexivity.
  rewrite <- (RInt_scal (V := R_CompleteNormedModule) (fun y => scal (/ sqrt 2) (gauss (/ sqrt 2 * y + 0))) 0 z (/ sqrt PI)).
  - apply RInt_ext. intros t _. unfold phi, gauss. rewrite sqrt_mult by (try lra; left; apply PI_RGT_0).
    unfold scal; simpl; unfold mult; simpl. rewrite Rinv_mult. replace ((/ sqrt 2 * t + 0) * (/ sqrt 2 * t + 0)) with (t * t / (sqrt 2 * sqrt 2)) by (field; lra).
    rewrite sqrt_sqrt by lra. ring.
  - apply (ex_RInt_continuous (V:=R_CompleteNormedModule)). intros y _. apply (continuous_scal_r (/ sqrt 2) (fun y => gauss (/ sqrt 2 * y + 0))).
    apply (continuous_comp (fun y => / sqrt 2 * y + 0) gauss). 2: apply gauss_cont. apply (ex_derive_continuous (fun y => / sqrt 2 * y + 0)). auto_derive. auto.
Qed.
Lemma Ph_close z : Rabs (Ph z - Phi z) <= / 10 ^ 18.
Proof.
  pose proof sqrt2_bounds as [B1 B2]. pose proof s2_pos as S0. pose proof sqrtPI_pos as SP.
  assert (forall z, 0 < z -> 0 <= erf (z / SQRT2) - erf (z / sqrt 2) <= / 10 ^ 18) as G.
  { clear z. intros z Hz. set (a := z / SQRT2). set (b := z / sqrt 2).
    assert (0 < b) as Hb by (apply Rdiv_lt_0_compat; lra).
    assert (a - b = b * ((sqrt 2 - SQRT2) / SQRT2)) as Eab by (unfold a, b; field; lra).
    assert (0 <= (sqrt 2 - SQRT2) / SQRT2 <= / 10 ^ 19) as Hr.
    { split. apply Rmult_le_pos. lra. left; apply Rinv_0_lt_compat; auto. apply Rmult_le_reg_r with SQRT2; auto. unfold Rdiv. rewrite Rmult_assoc, Rinv_l by lra. rewrite s2_val in *. lra. }
    assert (b <= a) as Hba by nra. destruct Hba as [Hba|Hba].
    2:{ rewrite Hba. lra. }
    destruct (MVT_gen erf b a (fun t => 2 / sqrt PI * gauss t)) as (c & Hc & E).
    - intros t _. apply erf_derive.
    - intros t _. apply continuity_pt_filterlim. apply (ex_derive_continuous erf). eexists. apply erf_derive.
    - rewrite Rmin_left, Rmax_right in Hc by lra. rewrite E, Eab. set (r := (sqrt 2 - SQRT2) / SQRT2) in *.
      pose proof (gauss_pos c) as Gc.
      assert (b * gauss c <= 1) as Q.
      { apply Rle_trans with (c * gauss c). nra. unfold gauss. rewrite exp_Ropp. pose proof (exp_ineq1_le (c * c)). pose proof (exp_pos (c * c)).
        apply Rmult_le_reg_r with (exp (c * c)); auto. rewrite Rmult_assoc, Rinv_l by lra. nra. }
      assert (0 < 2 / sqrt PI <= 2) as Q2.
      { split. apply Rdiv_lt_0_compat; lra. assert (1 <= sqrt PI). { rewrite <- sqrt_1. apply sqrt_le_1_alt. pose proof pi_lower. lra. }
        apply Rmult_le_reg_r with (sqrt PI); auto. unfold Rdiv. rewrite Rmult_assoc, Rinv_l by lra. lra. }
      set (k := 2 / sqrt PI) in *. replace (k * gauss c * (b * r)) with (k * (b * gauss c) * r) by ring.
      assert (0 <= b * gauss c) by nra. assert (0 <= k * (b * gauss c) <= 2) by nra. nra. }
  rewrite Phi_erf. unfold Ph. replace (1 / 2 * (1 + erf (z / SQRT2)) - 1 / 2 * (1 + erf (z / sqrt 2))) with (1 / 2 * (erf (z / SQRT2) - erf (z / sqrt 2))) by ring.
  destruct (Rtotal_order z 0) as [H|[->|H]].
  - pose proof (G (- z) ltac:(lra)) as Q. replace (- z / SQRT2) with (- (z / SQRT2)) in Q by (unfold Rdiv; ring). replace (- z / sqrt 2) with (- (z / sqrt 2)) in Q by (unfold Rdiv; ring).
    rewrite !erf_odd in Q. rewrite Rabs_left1; lra.
  - unfold Rdiv. rewrite !Rmult_0_l. rewrite Rminus_diag_eq by auto. rewrite Rmult_0_r, Rabs_R0. lra.
  - pose proof (G z H). rewrite Rabs_pos_eq; lra.
Qed.
Lemma c_close : 0 <= INVSQRT2PI - / sqrt (2 * PI) <= / 10 ^ 16.
Proof.
  assert (0 < 2 * PI) as P by (pose proof PI_RGT_0; lra). set (q := sqrt (2 * PI)). assert (0 < q) as Q by (apply sqrt_lt_R0; auto).
  assert (q * q = 2 * PI) as E by (apply sqrt_sqrt; lra). pose proof pi_lower as L. pose proof pi_upper as U.
  assert (5 / 2 < q) by (assert (6 < 2 * PI) by lra; nra).
  rewrite c_val. split.
  - assert (/ q <= 3989422804014327 / 10 ^ 16); [|lra]. apply Rmult_le_reg_r with q; auto. rewrite Rinv_l by lra.
    set (k := 3989422804014327 / 10 ^ 16) in *. assert (k * k * (2 * (3141592653589793238 / 10 ^ 18)) >= 1) by (unfold k; lra). assert (0 < k) by (unfold k; lra).
    assert ((k * q) * (k * q) >= 1). { replace (k * q * (k * q)) with (k * k * (q * q)) by ring. rewrite E. nra. } assert (0 < k * q) by nra. nra.
  - assert (3989422804014327 / 10 ^ 16 - / 10 ^ 16 <= / q); [|lra]. set (k := 3989422804014327 / 10 ^ 16 - / 10 ^ 16) in *.
    apply Rmult_le_reg_r with q; auto. rewrite Rinv_l by lra.
    assert (k * k * (2 * (3141592653589793239 / 10 ^ 18)) <= 1) by (unfold k; lra). assert (0 < k) by (unfold k; lra).
    assert ((k * q) * (k * q) <= 1). { replace (k * q * (k * q)) with (k * k * (q * q)) by ring. rewrite E. nra. } assert (0 < k * q) by nra. nra.
Qed.
Lemma ph_close z : 0 <= ph z - phi z <= / 10 ^ 16.
Proof.
  unfold ph, phi. rewrite <- Rmult_minus_distr_r. pose proof c_close. set (e := exp _). assert (0 < e <= 1).
  { split. apply exp_pos. unfold e. rewrite <- exp_0 at 1. apply exp_le. nra. } nra.
Qed.
Lemma ei_close fmin ft s : EPSILON < s -> Rabs (ei_value fmin ft s - EI fmin ft s) <= Rabs (fmin - ft) * / 10 ^ 18 + s * / 10 ^ 16.
Proof.
  intros H. rewrite ei_big by auto. unfold EI, Gv. assert (0 < s) by (rewrite eps_val in H; lra). set (z := (fmin - ft) / s).
  replace (s * (z * Ph z + ph z) - ((fmin - ft) * Phi z + s * phi z)) with ((fmin - ft) * (Ph z - Phi z) + s * (ph z - phi z)) by (unfold z; field; lra).
  eapply Rle_trans. apply Rabs_triang. rewrite !Rabs_mult. rewrite (Rabs_pos_eq s) by lra. pose proof (Ph_close z). pose proof (ph_close z). rewrite (Rabs_pos_eq (ph z - phi z)) by lra.
  pose proof (Rabs_pos (fmin - ft)). pose proof (Rabs_pos (Ph z - Phi z)). nra.
Qed.
