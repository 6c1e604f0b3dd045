(** The evolutionary optimiser over the reals: genes in the box, fitness, probabilities, selection, survival of the best. *)
From Coq Require Import Reals Lra Psatz List Arith Lia ZArith Bool Permutation Sorted.
From Verif Require Import Base Num RealNum RSpec VecModel MatModel MatLemmas VecProofs VecReal VecProofs2 MatReal PropsStat PropsLin PropsVec EaModel EaProofs EaRun.
Import ListNotations.
Local Open Scope R_scope.

(** ** Genes inside the box *)
Definition inside (c : econf R) (g : vec R) : Prop :=
  length g = c_dim c /\ forall k, (k < c_dim c)%nat -> nth k (c_lo c) 0 <= nth k g 0 <= nth k (c_up c) 0.
Definition sound (c : econf R) (x : nat * (vec R * R)) : Prop := inside c (fst (snd x)) /\ c_f c (fst (snd x)) = Ok (snd (snd x)).

Lemma randomBetween_box (lo up : vec R) u g : vec_randomBetween lo up u = Ok g ->
  length lo = length up /\ forall k, (k < length lo)%nat -> nth k lo 0 <= nth k up 0.
Proof.
  unfold vec_randomBetween. intros H. destruct (Nat.eqb_spec (length lo) (length up)) as [Hl|]; [|discriminate]. cbn [negb] in H.
  destruct (existsb _ _) eqn:E; [discriminate|]. split; auto. intros k Hk.
  assert (Rltb (nth k up 0) (nth k lo 0) = false) as K.
  { destruct (Rltb (nth k up 0) (nth k lo 0)) eqn:K; auto. rewrite <- E. symmetry. apply existsb_seq. exists k. split; auto. }
  apply Rltb_false in K. auto.
Qed.
Lemma random_sound c t u i : (forall k, 0 <= u k < 1) -> ea_random c t u = Ok i -> sound c (core i).
Proof.
  intros Hu H. unfold ea_random in H. ok_steps H. pose proof (randomBetween_box _ _ _ _ E0) as [B1 B2].
  destruct (randomBetween_spec _ _ u Hu B1 B2) as (w & W1 & W2 & W3). rewrite E0 in W1. injection W1 as <-.
  unfold ind_initGenes in E1. cbn [i_dim ind_new] in E1. ok_steps E1. injection E1 as <-. apply call_spec in H. cbn in H.
  destruct H as (H1 & H2 & H3 & H4). split; cbn; rewrite H2; auto. split; auto. intros k Hk. apply W3. lia.
Qed.
Lemma clamp_box lo up x : lo <= up -> lo <= clamp lo up x <= up.
Proof.
  intros H. unfold clamp. cbn. destruct (Rltb_spec x lo); cbn.
  - destruct (Rltb_spec up lo); lra.
  - destruct (Rltb_spec up x); lra.
Qed.
Lemma mutate_box (c : econf R) g u m g' : ea_mutate c g u m = Ok g' -> length g' = length g /\
  length (c_lo c) = length (c_up c) /\ forall k, (k < length (c_lo c))%nat -> nth k (c_lo c) 0 <= nth k (c_up c) 0.
Proof.
  unfold ea_mutate. intros H. ok_steps H. split. 2:{ eapply randomBetween_box; eauto. }
  apply (f_equal (fun r => match r with Ok v => length v | _ => 0%nat end)) in H. rewrite <- H. apply vbuild_len.
Qed.
Lemma crossOver_inside c mo fa z u m g : length (i_genes mo) = c_dim c -> ea_crossOver c mo fa z u m = Ok g -> inside c g.
Proof.
  intros Hl. unfold ea_crossOver. intros H. ok_step H. ok_step H. ok_step H. apply mutate_box in E1. destruct E1 as (L & B1 & B2).
  unfold vbuild in L. rewrite vbuild_len, Hl in L. ok_step H. rewrite !orb_false_iff, !Nat.ltb_ge in E1. destruct E1 as [[_ E1] E2].
  assert (forall f, inside c (vbuild (length a) f) <-> forall k, (k < c_dim c)%nat -> nth k (c_lo c) 0 <= f k <= nth k (c_up c) 0) as K.
  { intros f. unfold inside. split; intros K.
    - intros k Hk. rewrite <- (vget_vbuild (length a) f k) by lia. apply K; auto.
    - split. unfold vbuild. rewrite vbuild_len; auto. intros k Hk. change (nth k (vbuild (length a) f) 0) with (vget (vbuild (length a) f) k).
      rewrite vget_vbuild by lia. auto. }
  injection H as <-. apply K. intros k Hk. rewrite (proj2 (Nat.ltb_lt _ _) Hk). apply clamp_box, B2. lia.
Qed.
Lemma child_inside c p t w i : (forall j, In j (p_inds p) -> length (i_genes j) = c_dim c) -> ea_child c p t w = Ok (Some i) -> inside c (i_genes i).
Proof.
  intros Hp H. unfold ea_child in H. ok_step H. destruct a as [[mo fa]|]; [|discriminate]. ok_step H. ok_step H. injection H as <-. cbn.
  assert (In mo (p_inds p)) as Hmo.
  { unfold pop_parents in E. ok_step E. ok_step E. ok_step E. injection E as E. destruct a1; [|discriminate]. injection E as <- _. eapply roulette_in; exact E3. }
  apply crossOver_inside in E1; auto.
Qed.

(** ** Fitness *)
Lemma coefficients_value p c : pop_coefficients p = Ok c -> exists a, a * ((p_min p - p_max p) * (p_min p - p_max p)) = 99 / 100 /\
  forall x, fit_value c x = a * ((x - p_max p) * (x - p_max p)) + 1 / 100.
Proof.
  unfold pop_coefficients. intros H. ok_step H.
  assert (wf (fit_matrix (p_min p) (p_max p))) as W by reflexivity.
  destruct (C22_invert _ _ W E) as (W1 & R1 & C1 & HI & _). cbn [nrows fit_matrix] in *.
  unfold mat_vec in H. rewrite C1 in H. cbn [length Nat.eqb negb] in H. rewrite R1 in H. injection H as <-.
  assert (Rlit 1 (-2) = 1 / 100) as EL. { unfold Rlit; simpl; field. }
  set (mn := p_min p) in *. set (mx := p_max p) in *.
  pose proof (HI 0 0)%nat as H00. pose proof (HI 0 1)%nat as H01. pose proof (HI 1 0)%nat as H10. pose proof (HI 1 1)%nat as H11.
  pose proof (HI 2 0)%nat as H20. pose proof (HI 2 1)%nat as H21.
  unfold mm, delta in *. cbn in H00, H01, H10, H11, H20, H21.
  specialize (H00 ltac:(lia) ltac:(lia)). specialize (H01 ltac:(lia) ltac:(lia)). specialize (H10 ltac:(lia) ltac:(lia)).
  specialize (H11 ltac:(lia) ltac:(lia)). specialize (H20 ltac:(lia) ltac:(lia)). specialize (H21 ltac:(lia) ltac:(lia)).
  exists (mget a 0 0 + mget a 0 1 / 100). unfold fit_value. cbn [vbuild map seq vget nth]. cbn -[mget Rlit]. rewrite !EL.
  split.
  - nra.
  - intros x. nra.
Qed.
(** the quadratic distribution: 1 at mn, 1/100 at mx *)
Definition quad (mn mx x : R) : R := 99 / 100 * ((mx - x) / (mx - mn)) ^ 2 + 1 / 100.
Lemma coefficients_quad p c : pop_coefficients p = Ok c -> p_min p <> p_max p /\ forall x, fit_value c x = quad (p_min p) (p_max p) x.
Proof.
  intros H. apply coefficients_value in H. destruct H as (a & Ha & Hx).
  assert (p_min p <> p_max p) as Hne. { intros E. rewrite E in Ha. nra. }
  split; auto. intros x. rewrite Hx. unfold quad.
  assert (a = 99 / 100 / ((p_max p - p_min p) * (p_max p - p_min p))) as ->. { rewrite <- Ha. field. lra. }
  field. lra.
Qed.
Lemma quad_best mn mx : mn <> mx -> quad mn mx mn = 1.
Proof. intros. unfold quad. field. lra. Qed.
Lemma quad_worst mn mx : quad mn mx mx = 1 / 100.
Proof. unfold quad. replace (mx - mx) with 0 by ring. unfold Rdiv at 2. rewrite Rmult_0_l. ring. Qed.
Lemma quad_decr mn mx x y : mn < mx -> x < y <= mx -> quad mn mx y < quad mn mx x.
Proof.
  intros H Hy. unfold quad. assert (0 <= (mx - y) / (mx - mn) < (mx - x) / (mx - mn)) as [K1 K2].
  { split. apply Rmult_le_pos. lra. left. apply Rinv_0_lt_compat. lra. apply Rmult_lt_compat_r. apply Rinv_0_lt_compat. lra. lra. }
  nra.
Qed.
Lemma quad_range mn mx x : mn < mx -> mn <= x <= mx -> 1 / 100 <= quad mn mx x <= 1.
Proof.
  intros H [H1 H2]. pose proof (quad_best mn mx ltac:(lra)) as B. pose proof (quad_worst mn mx) as W. split.
  - destruct (Rlt_or_le x mx) as [K|K]. pose proof (quad_decr mn mx x mx H ltac:(lra)). lra. assert (x = mx) as -> by lra. lra.
  - destruct (Rlt_or_le mn x) as [K|K]. pose proof (quad_decr mn mx mn x H ltac:(lra)). lra. assert (x = mn) as -> by lra. lra.
Qed.

(** ** Sums *)
Lemma sum_of_total (f : ind R -> R) l : sum_of f l = total (map f l).
Proof.
  unfold sum_of. cbn. assert (forall a, fold_left (fun s i => s + f i) l a = a + total (map f l)) as H.
  { induction l; cbn; intros; [lra|]. rewrite IHl. unfold total. lra. }
  rewrite H. ring.
Qed.
Lemma vec_sum_total v : vec_sum (v : vec R) = total v.
Proof. rewrite total_rsum. unfold vec_sum. rewrite nsum_rsum. reflexivity. Qed.
Lemma total_app a b : total (a ++ b) = total a + total b.
Proof. unfold total. induction a; cbn; [lra|]. rewrite IHa. lra. Qed.
Lemma total_nonneg l : (forall x, In x l -> 0 <= x) -> 0 <= total l.
Proof. induction l; cbn; intros H; [lra|]. assert (0 <= a) by auto. assert (0 <= total l) by auto. unfold total in *. lra. Qed.
Lemma total_member l x : (forall x, In x l -> 0 <= x) -> In x l -> x <= total l.
Proof.
  intros H Hx. apply in_split in Hx. destruct Hx as (a & b & ->). rewrite total_app. cbn.
  assert (0 <= total a). { apply total_nonneg. intros. apply H, in_or_app; auto. }
  assert (0 <= total b). { apply total_nonneg. intros. apply H, in_or_app; simpl; auto. }
  unfold total in *. lra.
Qed.
Lemma total_scale k l : total (map (fun x => x / k) l) = total l / k.
Proof. unfold total. induction l; cbn. lra. rewrite IHl. lra. Qed.

(** ** The state after updatePopulationProperties *)
Definition wt (q f : R) : R := if Rltb q f then 0 else 1 / f.
Lemma weights_map fits q : death_weights (fits : vec R) q = map (wt q) fits.
Proof.
  apply (list_ext _ _ 0). rewrite death_weights_len, map_length; auto. rewrite death_weights_len. intros i Hi.
  change (nth i (death_weights fits q) 0) with (vget (death_weights fits q) i). unfold death_weights. rewrite vget_vbuild by auto.
  rewrite (nth_indep _ 0 (wt q 0)) by (rewrite map_length; auto). rewrite map_nth. reflexivity.
Qed.
Lemma combine_map_r {A B} (f : A -> B) l : combine l (map f l) = map (fun a => (a, f a)) l.
Proof. induction l; cbn; congruence. Qed.
Lemma forall2_map_l {A B C} (f : A -> B) (P : B -> C -> Prop) l l' : Forall2 P (map f l) l' <-> Forall2 (fun a => P (f a)) l l'.
Proof.
  revert l'. induction l; cbn; intros l'; split; intros H; inversion H; subst; constructor; auto; apply IHl; auto.
Qed.
Lemma forall2_in_r {A B} (P : A -> B -> Prop) l l' b : Forall2 P l l' -> In b l' -> exists a, In a l /\ P a b.
Proof. induction 1; cbn; intros H1; [tauto|]. destruct H1 as [<-|H1]; eauto. destruct (IHForall2 H1) as (a & ? & ?); eauto. Qed.

Record rated (p0 p : pop R) : Prop := mkRt {
  rt_ne : p_min p0 <> p_max p0;
  rt_fit : forall i, In i (p_inds p) -> i_fit i = quad (p_min p0) (p_max p0) (i_obj i) /\ 0 < i_fit i;
  rt_rep : forall i, In i (p_inds p) -> i_rep i = i_fit i / total (map i_fit (p_inds p)) /\ 0 < i_rep i < 1;
  rt_death : exists q, vec_quantile (map i_fit (p_inds p)) (9 / 10) = Ok q /\
     forall i, In i (p_inds p) -> i_death i = wt q (i_fit i) / total (map (wt q) (map i_fit (p_inds p))) /\ 0 <= i_death i <= 1 }.
Lemma lit9 : Rlit 9 (-1) = 9 / 10.
Proof. unfold Rlit; simpl; field. Qed.
Lemma update_rated p0 p : pop_update p0 = Ok p -> rated p0 p.
Proof.
  intros H. unfold pop_update in H. ok_step H. ok_step H. ok_step H.
  apply fitness_spec in E0. destruct E0 as (c & l & Ec & -> & HF). apply coefficients_quad in Ec. destruct Ec as [Hne Hq].
  apply reproduction_spec in E1. destruct E1 as (l1 & -> & HR). cbn [p_inds pset_inds] in *. rewrite sum_of_total in HR.
  apply death_spec in H. destruct H as (q & l2 & Eq & -> & HD). cbn [p_inds pset_inds] in *. cbn zeta in HD.
  change (nlit 9 (-1)) with (Rlit 9 (-1)) in Eq. rewrite lit9 in Eq.
  rewrite weights_map, map_map, combine_map_r, forall2_map_l in HD. rewrite vec_sum_total in HD. cbn [fst snd] in HD.
  assert (map i_fit l1 = map i_fit l) as F1. { eapply forall2_map_eq; [|exact HR]. intros a b Hb. apply setRep_core in Hb. tauto. }
  assert (map i_fit l2 = map i_fit l1) as F2. { eapply forall2_map_eq; [|exact HD]. intros a b Hb. apply setDeath_core in Hb. tauto. }
  assert (forall i, In i l2 -> exists j, In j l1 /\ core i = core j /\ i_fit i = i_fit j /\ i_rep i = i_rep j /\
     ind_setDeath j (wt q (i_fit j) / total (map (fun x => wt q (i_fit x)) l1)) = Ok i) as K2.
  { intros i Hi. destruct (forall2_in_r _ _ _ _ HD Hi) as (j & J1 & J2). exists j. split; auto. pose proof (setDeath_core _ _ _ J2). tauto. }
  assert (forall i, In i l1 -> exists j, In j l /\ core i = core j /\ i_fit i = i_fit j /\
     ind_setRep j (i_fit j / total (map i_fit l)) = Ok i) as K1.
  { intros i Hi. destruct (forall2_in_r _ _ _ _ HR Hi) as (j & J1 & J2). exists j. split; auto. pose proof (setRep_core _ _ _ J2). tauto. }
  assert (forall i, In i l -> i_fit i = quad (p_min p0) (p_max p0) (i_obj i) /\ 0 < i_fit i) as K0.
  { intros i Hi. destruct (forall2_in_r _ _ _ _ HF Hi) as (j & J1 & J2 & J3). subst i. cbn [i_fit i_obj iset_fit]. rewrite Hq in *. split; [reflexivity|].
    apply Rleb_false in J3. exact J3. }
  split; cbn [p_inds pset_inds]; auto.
  - intros i Hi. destruct (K2 i Hi) as (j & J1 & C1 & F & _). destruct (K1 j J1) as (k & I1 & C2 & F' & _).
    destruct (K0 k I1) as [A B]. injection C1 as _ _ O1. injection C2 as _ _ O2. rewrite O1, O2, F, F'. auto.
  - intros i Hi. destruct (K2 i Hi) as (j & J1 & C1 & F & RR & _). destruct (K1 j J1) as (k & I1 & C2 & F' & SR).
    rewrite F2, F1, F, RR, F'. unfold ind_setRep in SR. cbn in SR.
    destruct (Rleb_spec (i_fit k / total (map i_fit l)) 0); [discriminate|]. destruct (Rleb_spec 1 (i_fit k / total (map i_fit l))); [discriminate|].
    injection SR as <-. cbn. split; auto. lra.
  - exists q. rewrite F2. split; auto. intros i Hi. destruct (K2 i Hi) as (j & J1 & C1 & F & RR & SD).
    rewrite map_map, F. unfold ind_setDeath in SD. cbn in SD.
    destruct (Rltb_spec (wt q (i_fit j) / total (map (fun x => wt q (i_fit x)) l1)) 0); [discriminate|].
    destruct (Rltb_spec 1 (wt q (i_fit j) / total (map (fun x => wt q (i_fit x)) l1))); [discriminate|].
    injection SD as <-. cbn. split; auto. lra.
Qed.
Lemma map_ext_in' {A B} (f g : A -> B) l : (forall a, In a l -> f a = g a) -> map f l = map g l.
Proof. apply map_ext_in. Qed.
Lemma rated_sums p0 p : rated p0 p -> p_inds p <> [] -> total (map i_rep (p_inds p)) = 1 /\ total (map i_death (p_inds p)) = 1.
Proof.
  intros [H1 H2 H3 (q & Hq & H4)] Hn. split.
  - rewrite (map_ext_in i_rep (fun i => i_fit i / total (map i_fit (p_inds p)))) by (intros; apply H3; auto).
    rewrite <- (map_map i_fit (fun x => x / total (map i_fit (p_inds p)))), total_scale. apply Rinv_r.
    destruct (p_inds p) as [|x l] eqn:E; [congruence|]. assert (0 < i_fit x) by (apply H2; left; auto).
    pose proof (total_member (map i_fit (x :: l)) (i_fit x)) as M. assert (i_fit x <= total (map i_fit (x :: l))); [apply M|lra].
    + intros y Hy. apply in_map_iff in Hy. destruct Hy as (z & <- & Hz). left. apply H2; auto.
    + left; auto.
  - rewrite (map_ext_in i_death (fun i => wt q (i_fit i) / total (map (wt q) (map i_fit (p_inds p))))) by (intros; apply H4; auto).
    rewrite <- (map_map (fun i => wt q (i_fit i)) (fun x => x / total (map (wt q) (map i_fit (p_inds p))))), total_scale. rewrite map_map. apply Rinv_r.
    destruct (quantile_range (map i_fit (p_inds p)) (9 / 10)) as (q' & Hq' & (x & Hx & Hle) & _). destruct (p_inds p); simpl; congruence. lra.
    rewrite Hq in Hq'. injection Hq' as <-.
    apply in_map_iff in Hx. destruct Hx as (j & <- & Hj). assert (0 < i_fit j) by (apply H2; auto).
    assert (wt q (i_fit j) = 1 / i_fit j) as Ew. { unfold wt. destruct (Rltb_spec q (i_fit j)); auto. lra. }
    assert (1 / i_fit j <= total (map (fun i => wt q (i_fit i)) (p_inds p))).
    { apply total_member.
      - intros y Hy. apply in_map_iff in Hy. destruct Hy as (z & <- & Hz). unfold wt. destruct (Rltb q (i_fit z)); [lra|].
        assert (0 < i_fit z) by (apply H2; auto). apply Rlt_le, Rdiv_lt_0_compat; lra.
      - apply in_map_iff. exists j. auto. }
    assert (0 < 1 / i_fit j) by (apply Rdiv_lt_0_compat; lra). lra.
Qed.

(** ** Roulette wheel *)
Lemma roulette_spec (f : ind R -> R) l : forall r acc i, roulette f l r acc = Ok i -> acc <= r ->
  exists a b, l = a ++ i :: b /\ acc + total (map f a) <= r < acc + total (map f a) + f i.
Proof.
  induction l as [|x l IH]; cbn; intros r acc i H Hr; [discriminate|].
  destruct (Rltb_spec r (acc + f x)) as [K|K].
  - injection H as <-. exists [], l. cbn. split; auto. lra.
  - apply IH in H; [|lra]. destruct H as (a & b & -> & H). exists (x :: a), b. cbn. split; auto. unfold total in *. lra.
Qed.
Lemma roulette_total (f : ind R -> R) l : forall r acc, r < acc + total (map f l) -> acc <= r -> exists i, roulette f l r acc = Ok i.
Proof.
  induction l as [|x l IH]; cbn; intros r acc H Hr; [lra|].
  destruct (Rltb_spec r (acc + f x)) as [K|K]; eauto. apply IH; [|lra]. unfold total in *. lra.
Qed.
Lemma split_unique (f : ind R -> R) (a b a' b' : list (ind R)) i i' r acc : (forall x, In x (a ++ i :: b) -> 0 <= f x) -> a ++ i :: b = a' ++ i' :: b' ->
  acc + total (map f a) <= r < acc + total (map f a) + f i -> acc + total (map f a') <= r < acc + total (map f a') + f i' -> a = a' /\ i = i' /\ b = b'.
Proof.
  revert acc a'. induction a as [|x a IH]; intros acc [|x' a'] Hf E H H'; cbn in *.
  - injection E as <- <-. auto.
  - injection E as <- ->. assert (0 <= total (map f a')). { apply total_nonneg. intros y Hy. apply in_map_iff in Hy. destruct Hy as (z & <- & Hz). apply Hf. right. apply in_or_app; auto. }
    unfold total in *. lra.
  - injection E as -> <-. assert (0 <= total (map f a)). { apply total_nonneg. intros y Hy. apply in_map_iff in Hy. destruct Hy as (z & <- & Hz). apply Hf. right. apply in_or_app; auto. }
    unfold total in *. lra.
  - injection E as <- E. destruct (IH (acc + f x) a') as (-> & -> & ->); auto. unfold total in *; lra. unfold total in *; lra.
Qed.

(** ** The best individual survives *)
Lemma sorted_snoc l (M : R) : Sorted Rle l -> (forall x, In x l -> x <= M) -> Sorted Rle (l ++ [M]).
Proof.
  induction 1 as [|x l Hs IH Hh]; cbn; intros Hm. repeat constructor.
  constructor. apply IH; auto. destruct l as [|y l]; cbn. constructor. apply Hm; auto. inversion Hh; subst. constructor; auto.
Qed.
Lemma quantile_below_max (a b : list R) M : a ++ b <> [] -> (forall x, In x (a ++ b) -> x < M) ->
  exists q, vec_quantile (a ++ M :: b) (9 / 10) = Ok q /\ q < M.
Proof.
  intros Hne Hlt. set (v := a ++ M :: b). set (s := isort nltb (a ++ b) ++ [M]).
  assert (Permutation v s) as HP.
  { unfold v, s. etransitivity. symmetry. apply Permutation_middle. etransitivity. apply Permutation_cons_append.
    apply Permutation_app_tail. symmetry. apply isort_perm. }
  assert (forall x, In x (isort nltb (a ++ b)) -> x < M) as Hi. { intros x Hx. apply Hlt. eapply Permutation_in; [apply isort_perm|exact Hx]. }
  assert (Sorted Rle s) as HS.
  { apply sorted_snoc. eapply Sorted_weaken; [|apply (isort_sorted (a ++ b) (good_all _))]. intros x y K. apply Rleb_true; auto.
    intros x Hx. left. auto. }
  set (n := length (a ++ b)). assert (1 <= n)%nat as Hn. { unfold n. destruct (a ++ b); cbn; try congruence; lia. }
  assert (length v = S n) as Lv. { unfold v, n. rewrite !app_length. cbn. lia. }
  set (idx := 9 / 10 * INR n). assert (0 < INR n) as Hp. { apply lt_0_INR. lia. }
  pose proof (Rfloor_spec idx) as [F1 F2]. set (k := Z.to_nat (Rfloor idx)).
  assert (0 <= Rfloor idx)%Z as F0. { apply Z.lt_succ_r. apply lt_IZR. rewrite succ_IZR. unfold idx in *. nra. }
  assert (INR k = IZR (Rfloor idx)) as Ek. { unfold k. rewrite INR_IZR_INZ, Z2Nat.id by auto. auto. }
  assert (k < n)%nat as Hk. { apply INR_lt. rewrite Ek. unfold idx in *. nra. }
  assert (9 / 10 = (INR k + (idx - INR k)) / INR (length v - 1)) as E9.
  { rewrite Lv. replace (S n - 1)%nat with n by lia. unfold idx. field. lra. }
  rewrite E9. rewrite (quantile_interpolates v s k (idx - INR k) HP HS) by (try lia; lra).
  eexists. split. reflexivity.
  assert (nth k s 0 < M) as B1.
  { unfold s. rewrite app_nth1 by (rewrite isort_length; auto). apply Hi, nth_In. rewrite isort_length; auto. }
  assert (nth (S k) s 0 <= M) as B2.
  { unfold s. destruct (Nat.eq_dec (S k) n) as [E|E].
    - rewrite app_nth2 by (rewrite isort_length; unfold n in *; lia). rewrite isort_length. fold n. rewrite E, Nat.sub_diag. cbn. lra.
    - left. rewrite app_nth1 by (rewrite isort_length; unfold n in *; lia). apply Hi, nth_In. rewrite isort_length; unfold n in *; lia. }
  assert (0 <= idx - INR k < 1) as Ht by lra. nra.
Qed.
Lemma rated_two p0 p : rated p0 p -> p_inds p <> [] -> (2 <= length (p_inds p))%nat.
Proof.
  intros HR Hn. destruct (rated_sums _ _ HR Hn) as [S1 _]. pose proof (rt_rep _ _ HR) as H.
  destruct (p_inds p) as [|x [|y l]]; [congruence| |cbn; lia]. cbn in S1. destruct (H x) as [_ ?]; cbn; auto. lra.
Qed.
Lemma find_obj (l : list (ind R)) v : (exists j, In j l /\ i_obj j = v) \/ forall j, In j l -> i_obj j <> v.
Proof.
  induction l as [|x l IH]. right; cbn; tauto. destruct (Req_EM_T (i_obj x) v) as [E|E]. left; exists x; cbn; auto.
  destruct IH as [(j & J1 & J2)|IH]. left; exists j; cbn; auto. right. intros j [<-|Hj]; auto.
Qed.
(** an individual picked for death that attains the minimum is not the only one attaining it *)
Lemma pick_not_unique_best p0 p r i : rated p0 p -> p_inds p <> [] -> p_min p0 < p_max p0 ->
  (forall j, In j (p_inds p) -> p_min p0 <= i_obj j <= p_max p0) -> 0 <= r -> pop_pickDeath p r = Ok i -> i_obj i = p_min p0 ->
  exists a b j, p_inds p = a ++ i :: b /\ In j (a ++ b) /\ i_obj j = p_min p0.
Proof.
  intros HR Hn Hlt Hb Hr Hp Hi. unfold pop_pickDeath in Hp. apply roulette_spec in Hp; [|exact Hr]. destruct Hp as (a & b & E & D1 & D2).
  exists a, b. destruct (find_obj (a ++ b) (p_min p0)) as [(j & J1 & J2)|Hnone]. exists j; auto. exfalso.
  pose proof (rated_two _ _ HR Hn) as H2. rewrite E, app_length in H2. cbn in H2.
  assert (In i (p_inds p)) as Hin by (rewrite E; apply in_or_app; cbn; auto).
  destruct (rt_fit _ _ HR i Hin) as [Fi _]. rewrite Hi, quad_best in Fi by lra.
  destruct (rt_death _ _ HR) as (q & Hq & HD). destruct (HD i Hin) as [Di _].
  rewrite E, map_app in Hq. cbn [map] in Hq. rewrite Fi in Hq.
  destruct (quantile_below_max (map i_fit a) (map i_fit b) 1) as (q' & Q1 & Q2).
  - rewrite <- map_app. intros Z. apply map_eq_nil in Z. apply (f_equal (@length _)) in Z. rewrite app_length in Z. cbn in Z. lia.
  - intros x Hx. rewrite <- map_app in Hx. apply in_map_iff in Hx. destruct Hx as (j & <- & Hj).
    assert (In j (p_inds p)) as Hj' by (rewrite E; apply in_app_or in Hj; apply in_or_app; cbn; tauto).
    destruct (rt_fit _ _ HR j Hj') as [-> _]. apply Rlt_le_trans with (quad (p_min p0) (p_max p0) (p_min p0)); [|rewrite quad_best; lra].
    apply quad_decr; auto. specialize (Hnone j Hj). specialize (Hb j Hj'). lra.
  - rewrite Hq in Q1. injection Q1 as <-. rewrite Di, Fi in D2. unfold wt in D2 at 1. rewrite (proj2 (Rltb_true q 1) Q2) in D2.
    unfold Rdiv in D2. rewrite Rmult_0_l in D2. cbn in D1, D2. lra.
Qed.
Lemma unique_eq {A} (l : list A) (g : A -> nat) (f : nat -> bool) x y : NoDup (filter f (map g l)) -> In x l -> In y l -> g x = g y -> f (g x) = true -> x = y.
Proof.
  induction l as [|z l IH]; cbn; intros Hn Hx Hy E F; [tauto|].
  assert (forall w, In w l -> f (g w) = true -> In (g w) (filter f (map g l))) as K.
  { intros w Hw Hf. apply filter_In. split; auto. apply in_map; auto. }
  destruct (f (g z)) eqn:Ez.
  - inversion Hn as [|? ? N1 N2]; subst. destruct Hx as [<-|Hx], Hy as [<-|Hy]; auto.
    + exfalso. apply N1. rewrite E. apply K; auto. congruence.
    + exfalso. apply N1. rewrite <- E. apply K; auto.
  - destruct Hx as [<-|Hx], Hy as [<-|Hy]; auto; congruence.
Qed.
Lemma unique_other {A} (a b : list A) (g : A -> nat) (f : nat -> bool) x y : NoDup (filter f (map g (a ++ x :: b))) -> In y (a ++ b) -> f (g x) = true -> g y <> g x.
Proof.
  intros Hn Hy F E. rewrite map_app, filter_app in Hn. cbn [map filter] in Hn. rewrite F in Hn. apply NoDup_remove_2 in Hn. apply Hn.
  rewrite <- filter_app, <- map_app, <- E. apply filter_In. split. apply in_map; auto. congruence.
Qed.

Section Elite.
  Variable c : econf R.
  Variable v : R.
  (** v bounds all values from below and is not attained by an individual with the doubly used identifier *)
  Definition elite_hyp (e : ea R) : Prop := forall i, In i (p_inds (e_hist e)) -> v <= i_obj i /\ i_obj i < ndblmax /\ (i_id i = c_size c -> v < i_obj i).
  Definition attained (p : pop R) : Prop := exists i, In i (p_inds p) /\ i_obj i = v.
  Definition elite_inv (g d : nat) (e : ea R) : Prop := (run_inv c g d e) /\ (elite_hyp e -> attained (e_hist e) -> attained (e_pop e)).
  Lemma attained_core p q : cores p = cores q -> attained q -> attained p.
  Proof.
    intros E (i & I1 & I2). apply cores_in in I1. rewrite <- E in I1. unfold cores in I1. apply in_map_iff in I1. destruct I1 as (j & J1 & J2).
    exists j. split; auto. injection J1 as _ _ ->. auto.
  Qed.
  Lemma hyp_finite e : elite_hyp e -> finite (e_hist e).
  Proof. intros H i Hi. apply Rltb_true. apply (H i Hi). Qed.
  Lemma pop_in_hist g d e i : book c g d e -> In i (p_inds (e_pop e)) -> exists j, In j (p_inds (e_hist e)) /\ core j = core i.
  Proof. intros B Hi. apply cores_in in Hi. eapply subl_in in Hi; [|apply (bk_sub _ _ _ _ B)]. unfold cores in Hi. apply in_map_iff in Hi. destruct Hi as (j & J1 & J2); eauto. Qed.
  Lemma elite_kill g d r e e' : (1 <= c_size c)%nat -> 0 <= r -> elite_inv g d e -> updated (e_pop e) -> ea_kill r e = Ok e' -> elite_inv g (S d) e'.
  Proof.
    intros HN Hr [RI EI] [p0 Hup] HK. split. eapply inv_kill; eauto.
    pose proof (kill_spec _ _ _ HK) as (i & rm & p & q & Hpick & Hin & Er & Ep & Eq & ->). cbn [e_hist e_pop]. intros HH HA.
    specialize (EI HH HA). destruct RI as [B HE]. destruct (HE (hyp_finite _ HH)) as [[M1 [M2 M3]] [X1 [X2 X3]]].
    assert (p_inds (e_pop e) <> []) as Hne. { destruct (p_inds (e_pop e)); cbn in Hin; try tauto; discriminate. }
    destruct (M3 Hne) as (w & W1 & W2 & W3).
    assert (forall j, In j (p_inds (e_pop e)) -> v <= i_obj j /\ (i_id j = c_size c -> v < i_obj j)) as HB.
    { intros j Hj. destruct (pop_in_hist _ _ _ _ B Hj) as (k & K1 & K2). injection K2 as K3 _ K4. destruct (HH k K1) as (? & _ & ?). rewrite <- K4, <- K3. auto. }
    assert (p_min (e_pop e) = v) as Ev.
    { destruct EI as (x & X & Ex). specialize (M1 x X). apply Rltb_false in M1. destruct (HB w W1) as [? _]. lra. }
    pose proof (update_core _ _ Hup) as [UC UE]. injection UE as U1 U2 U3 U4. pose proof (update_rated _ _ Hup) as RT.
    assert (forall j, In j (p_inds (e_pop e)) -> p_min p0 <= i_obj j <= p_max p0) as HJ.
    { intros j Hj. rewrite <- U1, <- U2. specialize (M1 j Hj). specialize (X1 j Hj). apply Rltb_false in M1, X1. lra. }
    assert (p_min p0 < p_max p0) as Hlt. { pose proof (HJ i Hin). pose proof (rt_ne _ _ RT). lra. }
    pose proof (book_unique c _ _ _ B HN) as HU.
    apply removed_inds in Ep. destruct Ep as (a & y & b & P1 & P2 & P3 & P4).
    apply update_core in Eq. destruct Eq as [Eq _]. apply (attained_core _ _ Eq).
    assert (forall j, In j (p_inds (e_pop e)) -> j <> y -> In j (p_inds p)) as Hrest.
    { intros j Hj Hne'. rewrite P4. rewrite P1 in Hj. apply in_app_or in Hj. apply in_or_app. destruct Hj as [|[|]]; auto. congruence. }
    assert (In y (p_inds (e_pop e))) as Hy. { rewrite P1. apply in_or_app; cbn; auto. }
    destruct (Req_EM_T (i_obj i) v) as [Ei|Ei].
    - destruct (pick_not_unique_best p0 (e_pop e) r i) as (a' & b' & j & Q1 & Q2 & Q3); auto. congruence.
      exists j. split; [|congruence]. apply Hrest. rewrite Q1. apply in_app_or in Q2. apply in_or_app; cbn; tauto.
      intros ->. rewrite Q1 in HU. apply (unique_other _ _ _ _ _ _ HU Q2); auto.
      destruct (Nat.eqb_spec (i_id i) (c_size c)) as [E|]; auto. destruct (HB i Hin) as [_ K]. specialize (K E). lra.
    - destruct EI as (x & X & Ex). exists x. split; auto. apply Hrest; auto. intros ->. apply Ei.
      assert (y = i) as ->; [|lra]. apply (unique_eq _ _ _ _ _ HU); auto.
      destruct (Nat.eqb_spec (i_id y) (c_size c)) as [E|]; auto. destruct (HB y Hy) as [_ K]. specialize (K E). lra.
  Qed.
  Lemma elite_run us ws dim e : (forall k j, 0 <= g_deaths (ws k) j) -> ea_optimize c us ws (ea_new dim) = Ok (Some e) -> exists g, elite_inv g (g * c_deaths c) e.
  Proof.
    intros Hd H. assert (1 <= c_size c)%nat as HN.
    { apply run_checked in H. unfold ec_check in H. destruct (c_size c); [|lia]. cbn in H. ok_steps H. }
    destruct (run_ind c elite_inv us ws dim e) as (g & _ & HE & _); eauto.
    - intros e0 H0. split. eapply inv_init; eauto. apply initialize_spec in H0.
      destruct H0 as (l & p & h & q & _ & _ & _ & Ep & Eh & Eq & _ & ->). cbn [e_hist e_pop]. intros _ (x & X1 & X2).
      apply update_core in Eq. destruct Eq as [Eq _]. apply (attained_core _ _ Eq). apply addGroup_inds in Ep. apply addGroup_inds in Eh.
      exists x. rewrite Ep, <- Eh. auto.
    - intros g k e0 e1 [RI EI] HB. split. eapply inv_births; eauto. apply births_spec in HB.
      destruct HB as (l0 & l & p & gn & h & _ & _ & L1 & L2 & Ep & Eg & Eh & ->). cbn [e_hist e_pop].
      apply addGroup_inds in Ep. apply addGroup_inds in Eh. intros HH (x & X1 & X2). rewrite Eh in X1. apply in_app_or in X1. destruct X1 as [X1|X1].
      + destruct EI as (y & Y1 & Y2). intros i Hi. apply HH. cbn. rewrite Eh. apply in_or_app; auto. exists x; auto.
        exists y. split; auto. rewrite Ep. apply in_or_app; auto.
      + exists x. split; auto. rewrite Ep. apply in_or_app; auto.
    - intros g d e0 p [RI EI] HU. split. eapply inv_update; eauto. intros HH HA. apply update_core in HU. destruct HU as [HU _].
      apply (attained_core _ _ HU). apply EI; auto.
    - intros g d k j e0 e1 HP HU HK. eapply elite_kill; eauto.
    - intros g d e0 [RI EI]. split. apply inv_recompute; auto. intros HH HA. cbn. destruct (EI HH HA) as (x & X1 & X2). exists x. rewrite recompute_inds. auto.
  Qed.
  Lemma elite_solution us ws dim e : (forall k j, 0 <= g_deaths (ws k) j) -> ea_optimize c us ws (ea_new dim) = Ok (Some e) ->
    elite_hyp e -> attained (e_hist e) -> exists i, ea_solution e = Ok i /\ i_obj i = v /\ exists j, In j (p_inds (e_hist e)) /\ core j = core i.
  Proof.
    intros Hd H HH HA. destruct (elite_run us ws dim e Hd H) as (g & RI & EI). specialize (EI HH HA).
    assert (1 <= c_size c)%nat as HN.
    { apply run_checked in H. unfold ec_check in H. destruct (c_size c); [|lia]. cbn in H. ok_steps H. }
    destruct RI as [B HE]. destruct (HE (hyp_finite _ HH)) as [[M1 [M2 M3]] _].
    destruct (run_solution _ _ _ _ _ H) as [i Hi]. exists i. split; auto. unfold ea_solution, pop_best in Hi. apply get_spec in Hi.
    destruct Hi as (a & b & I1 & I2 & I3). destruct EI as (x & X1 & X2).
    assert (In i (p_inds (e_pop e))) as Hin by (rewrite I1; apply in_or_app; cbn; auto).
    destruct M3 as (w & W1 & W2 & W3). { destruct (p_inds (e_pop e)); cbn in X1; try tauto; discriminate. }
    assert (forall j, In j (p_inds (e_pop e)) -> v <= i_obj j /\ (i_id j = c_size c -> v < i_obj j)) as HB.
    { intros j Hj. destruct (pop_in_hist _ _ _ _ B Hj) as (k & K1 & K2). injection K2 as K3 _ K4. destruct (HH k K1) as (? & _ & ?). rewrite <- K4, <- K3. auto. }
    assert (p_min (e_pop e) = v) as Ev.
    { specialize (M1 x X1). apply Rltb_false in M1. destruct (HB w W1) as [? _]. lra. }
    assert (w = i) as ->.
    { apply (unique_eq _ _ _ _ _ (book_unique c _ _ _ B HN)); auto. congruence.
      destruct (Nat.eqb_spec (i_id w) (c_size c)) as [E|]; auto. destruct (HB w W1) as [_ K]. specialize (K E). lra. }
    split. congruence. apply (pop_in_hist _ _ _ _ B Hin).
  Qed.
End Elite.

(** ** When the population update succeeds *)
Lemma lit_pivot : Rlit 10 (-10) = 1 / 10 ^ 9.
Proof. unfold Rlit; simpl; field. Qed.
Lemma lu_step_0 a b c d e f g h i p : Rabs b < Rabs c -> Rabs a < Rabs c -> Rabs a < Rabs b \/ a = 0 -> 1 / 10 ^ 9 <= Rabs c ->
  lu_step 3 0 (Some (mkMat 3 3 [a; b; c; d; e; f; g; h; i], p)) =
  Some (mkMat 3 3 [c; b / c; a / c; f; e - b / c * f; d - a / c * f; i; h - b / c * i; g - a / c * i], upd (upd p 0 (nth 2 p 0%nat)) 2 (nth 0 p 0%nat)).
Proof.
  intros H1 H2 H3 H4. unfold lu_step.
  assert (lu_pivot (mkMat 3 3 [a; b; c; d; e; f; g; h; i]) 0 3 = 2%nat) as ->.
  { unfold lu_pivot. cbn. destruct (Rltb_spec (Rabs a) (Rabs b)); cbn.
    - rewrite (proj2 (Rltb_true _ _) H1). auto.
    - rewrite (proj2 (Rltb_true _ _) H2). auto. }
  unfold lu_swap. cbn [Nat.eqb]. unfold mget at 3, loop. cbn [seq fold_left]. cbn -[Rabs Rlit pow Rltb Rdiv Rminus nltb nabs nlit]. 
  change (nlit 10 (-10)) with (Rlit 10 (-10)). cbn [nltb nabs RNum]. rewrite lit_pivot.
  rewrite (proj2 (Rltb_false _ _) H4). reflexivity.
Qed.
Lemma lu_step_1 a b c d e f g h i p : Rabs f <= Rabs e -> 1 / 10 ^ 9 <= Rabs e ->
  lu_step 3 1 (Some (mkMat 3 3 [a; b; c; d; e; f; g; h; i], p)) = Some (mkMat 3 3 [a; b; c; d; e; f / e; g; h; i - f / e * h], p).
Proof.
  intros H1 H4. unfold lu_step.
  assert (lu_pivot (mkMat 3 3 [a; b; c; d; e; f; g; h; i]) 1 3 = 1%nat) as ->.
  { unfold lu_pivot. cbn. rewrite (proj2 (Rltb_false _ _) H1). auto. }
  unfold lu_swap. cbn [Nat.eqb]. cbn -[Rabs Rlit pow Rltb Rdiv Rminus nltb nabs nlit]. 
  change (nlit 10 (-10)) with (Rlit 10 (-10)). cbn [nltb nabs RNum]. rewrite lit_pivot.
  rewrite (proj2 (Rltb_false _ _) H4). reflexivity.
Qed.
Lemma lu_step_2 a b c d e f g h i p : 1 / 10 ^ 9 <= Rabs i ->
  lu_step 3 2 (Some (mkMat 3 3 [a; b; c; d; e; f; g; h; i], p)) = Some (mkMat 3 3 [a; b; c; d; e; f; g; h; i], p).
Proof.
  intros H4. unfold lu_step. cbn -[Rabs Rlit pow Rltb Rdiv Rminus nltb nabs nlit]. 
  change (nlit 10 (-10)) with (Rlit 10 (-10)). cbn [nltb nabs RNum]. rewrite lit_pivot.
  rewrite (proj2 (Rltb_false _ _) H4). reflexivity.
Qed.
Lemma coefficients_ok p : p_min p = 0 -> 1 / 10 <= p_max p < 2 -> exists c, pop_coefficients p = Ok c.
Proof.
  intros E H. unfold pop_coefficients. rewrite E. set (mx := p_max p) in *.
  destruct (C22_invert_throws (fit_matrix 0 mx)) as (_ & K & _); try reflexivity; [cbn; lia|]. destruct K as [_ K]. destruct K as [B HB].
  - unfold mat_lu, lu_decomposition, fit_matrix. cbn [nrows ncols Nat.eqb negb]. unfold loop. cbn [seq fold_left].
    cbn [nmul nofZ n1 n0 RNum]. rewrite Rmult_0_r.
    rewrite lu_step_0, lu_step_1, lu_step_2; [eauto|..].
    + replace (1 - (0 / (2 * mx)) * 0 - (0 - 0 / (2 * mx) * 1) / (mx - mx * mx / (2 * mx) * 1) * (1 - mx * mx / (2 * mx) * 0)) with 1 by (field; lra).
      rewrite Rabs_pos_eq; lra.
    + replace (0 - 0 / (2 * mx) * 1) with 0 by (field; lra). rewrite Rabs_R0. apply Rabs_pos.
    + replace (mx - mx * mx / (2 * mx) * 1) with (mx / 2) by (field; lra). rewrite Rabs_pos_eq; lra.
    + rewrite !Rabs_pos_eq by nra. nra.
    + rewrite Rabs_R0, Rabs_pos_eq; lra.
    + auto.
    + rewrite Rabs_pos_eq; lra.
  - rewrite HB. destruct (C22_invert (fit_matrix 0 mx) B) as (W1 & R1 & C1 & _); auto. reflexivity. cbn in R1, C1.
    cbn [bind]. unfold mat_vec. rewrite C1. cbn [length Nat.eqb negb]. eauto.
Qed.
Lemma mapR_ok {A B} (f : A -> Res B) l : (forall a, In a l -> exists b, f a = Ok b) -> exists r, mapR f l = Ok r.
Proof.
  induction l as [|x l IH]; cbn; intros H; [eauto|]. destruct (H x) as [b Hb]; auto. rewrite Hb. destruct IH as [r Hr]; auto. cbn. rewrite Hr. cbn. eauto.
Qed.
Lemma total_two (l : list (ind R)) (f : ind R -> R) x : (2 <= length l)%nat -> (forall y, In y l -> 0 < f y) -> In x l -> f x < total (map f l).
Proof.
  intros H2 Hf Hx. destruct (in_split _ _ Hx) as (a & b & E). subst l. rewrite map_app, total_app. cbn. fold (total (map f b)).
  assert (0 <= total (map f a)) as Ka. { apply total_nonneg. intros y Hy. apply in_map_iff in Hy. destruct Hy as (z & <- & Hz). left. apply Hf, in_or_app; auto. }
  assert (0 <= total (map f b)) as Kb. { apply total_nonneg. intros y Hy. apply in_map_iff in Hy. destruct Hy as (z & <- & Hz). left. apply Hf, in_or_app; cbn; auto. }
  rewrite app_length in H2. cbn in H2.
  assert (exists w, In w (a ++ b)) as [w Hw]. { destruct (a ++ b) as [|w l] eqn:E; [apply (f_equal (@length _)) in E; rewrite app_length in E; cbn in E; lia|]. exists w; cbn; auto. }
  assert (0 < f w) as Kw. { apply Hf. apply in_app_or in Hw. apply in_or_app. cbn. tauto. }
  apply in_app_or in Hw. destruct Hw as [Hw|Hw]; pose proof (in_map f _ _ Hw) as Hm; apply total_member in Hm; try lra;
    intros y Hy; apply in_map_iff in Hy; destruct Hy as (z & <- & Hz); left; apply Hf, in_or_app; cbn; auto.
Qed.
Lemma forall2_len {A B} (Q : A -> B -> Prop) l l' : Forall2 Q l l' -> length l = length l'.
Proof. induction 1; cbn; auto. Qed.
Lemma update_ok p : (2 <= length (p_inds p))%nat -> all_zero (p_inds p) = false -> p_min p < p_max p ->
  (forall i, In i (p_inds p) -> p_min p <= i_obj i <= p_max p) -> (exists c, pop_coefficients p = Ok c) -> exists q, pop_update p = Ok q.
Proof.
  intros H2 Hz Hlt Hb [c Hc]. unfold pop_update, pop_fitness. rewrite Hz, Hc.
  destruct (Nat.eqb_spec (length (p_inds p)) 0) as [|_]; [lia|]. cbn [bind].
  pose proof (coefficients_quad _ _ Hc) as [_ HQ].
  destruct (mapR_ok (fun i => if fit_value c (i_obj i) <=! n0 then Throw RuntimeError else Ok (iset_fit (fit_value c (i_obj i)) i)) (p_inds p)) as [l Hl].
  { intros i Hi. cbn zeta. rewrite HQ. pose proof (quad_range _ _ _ Hlt (Hb i Hi)). cbn. destruct (Rleb_spec (quad (p_min p) (p_max p) (i_obj i)) 0); [lra|eauto]. }
  rewrite Hl. cbn [bind]. apply mapR_spec in Hl.
  assert (forall i, In i l -> 0 < i_fit i) as Hf.
  { intros i Hi. destruct (forall2_in_r _ _ _ _ Hl Hi) as (j & J1 & J2). cbn zeta in J2. rewrite HQ in J2. pose proof (quad_range _ _ _ Hlt (Hb j J1)).
    destruct (quad _ _ _ <=! n0); [discriminate|]. injection J2 as <-. cbn. lra. }
  assert (2 <= length l)%nat as H2l by (rewrite <- (forall2_len _ _ _ Hl); auto).
  unfold pop_reproduction. cbn [p_inds pset_inds]. rewrite sum_of_total.
  destruct (mapR_ok (fun i => ind_setRep i (i_fit i /! total (map i_fit l))) l) as [l1 H1].
  { intros i Hi. pose proof (Hf i Hi). pose proof (total_two l i_fit i H2l Hf Hi). unfold ind_setRep. cbn.
    destruct (Rleb_spec (i_fit i / total (map i_fit l)) 0) as [K|K].
    - assert (0 < i_fit i / total (map i_fit l)) by (apply Rdiv_lt_0_compat; lra). lra.
    - destruct (Rleb_spec 1 (i_fit i / total (map i_fit l))) as [K'|K']; [|eauto].
      apply (Rmult_le_compat_r (total (map i_fit l))) in K'; [|lra]. unfold Rdiv in K'. rewrite Rmult_assoc, Rinv_l in K'; lra. }
  rewrite H1. cbn [bind]. apply mapR_spec in H1.
  assert (forall i, In i l1 -> 0 < i_fit i) as Hf1.
  { intros i Hi. destruct (forall2_in_r _ _ _ _ H1 Hi) as (j & J1 & J2). unfold ind_setRep in J2. ok_steps J2. injection J2 as <-. cbn. auto. }
  pose proof (forall2_len _ _ _ H1) as L1. unfold pop_death. cbn [p_inds pset_inds].
  destruct (quantile_range (map i_fit l1) (Rlit 9 (-1))) as (q & Hq & (x & Hx & Hle) & _).
  { destruct l1; cbn in *; [lia|congruence]. } { rewrite lit9. lra. }
  change (nlit 9 (-1)) with (Rlit 9 (-1)). rewrite Hq. cbn [bind].
  set (w := death_weights (map i_fit l1) q).
  assert (w = map (wt q) (map i_fit l1)) as Ew by apply weights_map.
  assert (forall y, In y w -> 0 <= y) as Hw.
  { rewrite Ew, map_map. intros y Hy. apply in_map_iff in Hy. destruct Hy as (z & <- & Hz'). unfold wt. destruct (Rltb q (i_fit z)); [lra|].
    pose proof (Hf1 z Hz'). apply Rlt_le, Rdiv_lt_0_compat; lra. }
  assert (0 < total w) as Hs.
  { apply in_map_iff in Hx. destruct Hx as (j & <- & Hj). pose proof (Hf1 j Hj).
    assert (wt q (i_fit j) = 1 / i_fit j) as E1. { unfold wt. destruct (Rltb_spec q (i_fit j)); auto. lra. }
    assert (0 < 1 / i_fit j) by (apply Rdiv_lt_0_compat; lra).
    assert (wt q (i_fit j) <= total w); [|lra]. apply total_member; auto. rewrite Ew, map_map. apply in_map_iff. eauto. }
  destruct (mapR_ok (fun iw : ind R * R => ind_setDeath (fst iw) (snd iw /! vec_sum w)) (combine l1 w)) as [l2 H3].
  { intros [i y] Hi. apply in_combine_r in Hi. rewrite vec_sum_total. unfold ind_setDeath. cbn. pose proof (Hw y Hi). pose proof (total_member w y Hw Hi).
    destruct (Rltb_spec (y / total w) 0) as [K|K].
    - assert (0 <= y / total w). { apply Rmult_le_pos; auto. left. apply Rinv_0_lt_compat; auto. } lra.
    - destruct (Rltb_spec 1 (y / total w)) as [K'|K']; [|eauto].
      apply (Rmult_lt_compat_r (total w)) in K'; [|lra]. unfold Rdiv in K'. rewrite Rmult_assoc, Rinv_l in K'; lra. }
  rewrite H3. cbn. eauto.
Qed.

(** ** Every individual of a run lies in the box and carries its own objective value *)
Lemma run_sound (c : econf R) us ws dim e : (forall k j, 0 <= us k j < 1) -> ea_optimize c us ws (ea_new dim) = Ok (Some e) ->
  forall i, In i (p_inds (e_hist e)) -> sound c (core i).
Proof.
  intros Hu H. destruct (run_ind c (fun g d e => book c g d e /\ forall i, In i (p_inds (e_hist e)) -> sound c (core i)) us ws dim e) as (g & _ & [_ HS] & _); auto.
  - intros e0 H0. split. apply (book_init _ _ _ _ H0). apply initialize_spec in H0.
    destruct H0 as (l & p & h & q & _ & _ & HR & _ & Eh & _ & _ & ->). cbn [e_hist]. apply addGroup_inds in Eh. cbn in Eh. rewrite Eh.
    intros i Hi. destruct (HR i Hi) as (k & t & HK). eapply random_sound; eauto.
  - intros g k e0 e1 [B HS] HB. split. eapply book_births; eauto. apply births_spec in HB.
    destruct HB as (l0 & l & p & gn & h & HC & HF & _ & _ & _ & _ & Eh & ->). cbn [e_hist]. apply addGroup_inds in Eh. rewrite Eh.
    intros i Hi. apply in_app_or in Hi. destruct Hi as [Hi|Hi]; auto.
    destruct (forall2_in_r _ _ _ _ HF Hi) as (j & J1 & J2). apply children_spec in HC. destruct HC as (_ & _ & HC).
    destruct (HC j J1) as (k' & HK). apply call_spec in J2. destruct J2 as (J2 & J3 & _). split; cbn; rewrite J3; auto.
    eapply child_inside; [|exact HK]. intros x Hx. destruct (pop_in_hist _ _ _ _ _ B Hx) as (y & Y1 & Y2). apply HS in Y1.
    injection Y2 as _ Y3 _. rewrite <- Y3. apply (proj1 (proj1 Y1)).
  - intros g d e0 p [B HS] HU. split; auto. eapply book_update; eauto.
  - intros g d k j e0 e1 [B HS] _ HK. split. eapply book_kill; eauto. apply kill_spec in HK.
    destruct HK as (i & rm & p & q & _ & _ & _ & _ & _ & ->). auto.
  - intros g d e0 [B HS]. split; auto. apply book_recompute; auto.
Qed.
