(** Lemmas on the vector model over the reals. *)
From Coq Require Import Reals Lra Lia ZArith Bool List Permutation Sorted.
From Verif Require Import Base Num RealNum VecModel MatModel MatLemmas VecProofs.
Import ListNotations.
Local Open Scope R_scope.

Lemma IZR_of_nat_pos n : (0 < n)%nat -> 0 < IZR (Z.of_nat n).
Proof. intros. apply IZR_lt. lia. Qed.

Lemma good_all (v : list R) : all_good v.
Proof. intros x _. exact I. Qed.

(** *** Normalisation *)
Lemma normalize_ok (x lb ub : list R) : length lb = length x -> length ub = length x ->
  vec_normalize x lb ub =
  Ok (vbuild (length x) (fun i => 1 / IZR (Z.of_nat (length x)) * (vget x i - vget lb i) / (vget ub i - vget lb i))).
Proof.
  intros H1 H2. unfold vec_normalize. rewrite H1, H2, Nat.ltb_irrefl. reflexivity.
Qed.
Lemma denormalize_ok (u lb ub : list R) : length lb = length u -> length ub = length u ->
  vec_denormalize u lb ub =
  Ok (vbuild (length u) (fun i => vget u i * IZR (Z.of_nat (length u)) * (vget ub i - vget lb i) + vget lb i)).
Proof.
  intros H1 H2. unfold vec_denormalize. rewrite H1, H2, Nat.ltb_irrefl. reflexivity.
Qed.

Lemma normalize_denormalize (x lb ub : list R) : length lb = length x -> length ub = length x ->
  (forall i, (i < length x)%nat -> nth i lb 0 < nth i ub 0) ->
  exists u, vec_normalize x lb ub = Ok u /\ length u = length x /\ vec_denormalize u lb ub = Ok x.
Proof.
  intros H1 H2 H3. rewrite normalize_ok by auto. eexists; split; eauto.
  rewrite vbuild_length. split; auto.
  rewrite denormalize_ok by (rewrite vbuild_length; auto). f_equal. rewrite vbuild_length.
  apply vec_ext; rewrite vbuild_length; auto. intros i Hi.
  rewrite vget_vbuild, vget_vbuild by auto. specialize (H3 i Hi).
  assert (IZR (Z.of_nat (length x)) <> 0) by (apply Rgt_not_eq, IZR_of_nat_pos; lia).
  unfold vget in *. simpl n0. simpl. field. split; lra.
Qed.

Lemma denormalize_normalize (u lb ub : list R) : length lb = length u -> length ub = length u ->
  (forall i, (i < length u)%nat -> nth i lb 0 < nth i ub 0) ->
  exists x, vec_denormalize u lb ub = Ok x /\ length x = length u /\ vec_normalize x lb ub = Ok u.
Proof.
  intros H1 H2 H3. rewrite denormalize_ok by auto. eexists; split; eauto.
  rewrite vbuild_length. split; auto.
  rewrite normalize_ok by (rewrite vbuild_length; auto). f_equal. rewrite vbuild_length.
  apply vec_ext; rewrite vbuild_length; auto. intros i Hi.
  rewrite vget_vbuild, vget_vbuild by auto. specialize (H3 i Hi).
  assert (IZR (Z.of_nat (length u)) <> 0) by (apply Rgt_not_eq, IZR_of_nat_pos; lia).
  unfold vget in *. simpl n0. simpl. field. split; lra.
Qed.

Lemma normalize_box (x lb ub u : list R) : length lb = length x -> length ub = length x ->
  (forall i, (i < length x)%nat -> nth i lb 0 < nth i ub 0) ->
  vec_normalize x lb ub = Ok u ->
  forall i, (i < length x)%nat ->
    (nth i lb 0 <= nth i x 0 <= nth i ub 0 <-> 0 <= nth i u 0 <= 1 / INR (length x)).
Proof.
  intros H1 H2 H3 Hu i Hi. rewrite normalize_ok in Hu by auto. inversion Hu; subst u.
  rewrite INR_IZR_INZ. set (d := IZR (Z.of_nat (length x))) in *.
  assert (0 < d) by (apply IZR_of_nat_pos; lia).
  change (nth i (vbuild ?n ?f) 0) with (vget (vbuild n f) i). rewrite vget_vbuild by auto.
  specialize (H3 i Hi). unfold vget. simpl n0.
  set (a := nth i lb 0) in *. set (b := nth i ub 0) in *. set (y := nth i x 0) in *.
  assert (0 < b - a) by lra.
  assert (1 / d * (y - a) / (b - a) = (y - a) / (d * (b - a))) as -> by (field; lra).
  assert (0 < d * (b - a)) by (apply Rmult_lt_0_compat; lra).
  assert (1 / d = (b - a) / (d * (b - a))) as -> by (field; lra).
  unfold Rdiv. assert (0 < / (d * (b - a))) by (apply Rinv_0_lt_compat; auto).
  split; intros [A B].
  - split. apply Rmult_le_pos; lra. apply Rmult_le_compat_r; lra.
  - split.
    + destruct (Rle_dec a y); auto. assert ((y - a) * / (d * (b - a)) < 0 * / (d * (b - a))) by (apply Rmult_lt_compat_r; lra). lra.
    + apply Rmult_le_reg_r in B; lra.
Qed.

Lemma normalizeFast_same (x lb ub : list R) : length lb = length x -> length ub = length x ->
  forall xdiff, vec_sub ub lb = Ok xdiff ->
  vec_normalizeFast x lb xdiff = vec_normalize x lb ub /\ vec_denormalizeFast x lb xdiff = vec_denormalize x lb ub.
Proof.
  intros H1 H2 xdiff Hx. unfold vec_sub in Hx. rewrite H2, H1, Nat.eqb_refl in Hx. inversion Hx; subst xdiff.
  unfold vec_normalizeFast, vec_normalize, vec_denormalizeFast, vec_denormalize.
  rewrite vbuild_length, H1, H2, Nat.ltb_irrefl. simpl orb. cbv iota. split; f_equal; apply vbuild_ext; intros i Hi.
  - rewrite vget_vbuild by auto. auto.
  - rewrite vget_vbuild by auto. auto.
Qed.

(** *** Random draws *)
Lemma unif_between (a b u : R) : a <= b -> 0 <= u < 1 -> a <= unif a b u <= b /\ (a < b -> unif a b u < b).
Proof.
  intros H1 H2. unfold unif; simpl. 
  assert (0 <= u * (b - a) <= 1 * (b - a)).
  { split. apply Rmult_le_pos; lra. apply Rmult_le_compat_r; lra. }
  split. lra. intros. assert (u * (b - a) < 1 * (b - a)) by (apply Rmult_lt_compat_r; lra). lra.
Qed.

(** *** Quantile *)
Definition interp (s : list R) (idx : R) : R :=
  nth (Z.to_nat (Rfloor idx)) s 0 * (1 - (idx - IZR (Rfloor idx)))
  + nth (S (Z.to_nat (Rfloor idx))) s 0 * (idx - IZR (Rfloor idx)).

Lemma floor_ceil_cases r : (Rfloor r = Rceil r /\ r = IZR (Rfloor r)) \/ (Rceil r = (Rfloor r + 1)%Z /\ IZR (Rfloor r) < r).
Proof.
  pose proof (Rfloor_spec r) as [A B]. pose proof (Rceil_spec r) as [C D].
  assert (Rfloor r <= Rceil r)%Z by (apply le_IZR; lra).
  assert (Rceil r < Rfloor r + 2)%Z by (apply lt_IZR; rewrite plus_IZR; lra).
  destruct (Z.eq_dec (Rfloor r) (Rceil r)).
  - left; split; auto. rewrite e in A |- *. rewrite e in B. lra.
  - right. assert (Rceil r = Rfloor r + 1)%Z by lia. split; auto. rewrite H1, plus_IZR in C. lra.
Qed.

Lemma quantile_interp (v : list R) p : v <> [] -> 0 <= p <= 1 ->
  vec_quantile v p = Ok (interp (isort nltb v) (p * IZR (Z.of_nat (length v) - 1))).
Proof.
  intros Hne Hp. unfold vec_quantile.
  assert ((p <! n0) = false) as -> by (simpl; apply Rltb_false; lra).
  assert ((n1 <! p) = false) as -> by (simpl; apply Rltb_false; lra).
  simpl orb. cbv iota. destruct (Nat.eqb_spec (length v) 0). destruct v; simpl in *; congruence.
  rewrite (proj2 (has_nan_good v)) by apply good_all. rewrite andb_false_r. cbv iota zeta.
  change (nofZ (Z.of_nat (length v) - 1)) with (IZR (Z.of_nat (length v) - 1)).
  change (p *! IZR (Z.of_nat (length v) - 1)) with (p * IZR (Z.of_nat (length v) - 1)).
  set (idx := p * IZR (Z.of_nat (length v) - 1)).
  change (nfloor idx) with (Some (Rfloor idx)). change (nceil idx) with (Some (Rceil idx)). cbv iota.
  assert (0 <= idx). { unfold idx. apply Rmult_le_pos; try lra. apply (IZR_le 0). destruct v; simpl length in *; [congruence|lia]. }
  assert (0 <= Rfloor idx)%Z.
  { pose proof (Rfloor_spec idx). assert (IZR (-1) < IZR (Rfloor idx)) by (simpl; lra). apply lt_IZR in H1. lia. }
  destruct (floor_ceil_cases idx) as [[A B]|[A B]].
  - rewrite A, Z.eqb_refl. f_equal. unfold interp. rewrite <- A. rewrite <- B.
    unfold vget. simpl n0. lra.
  - destruct (Z.eqb_spec (Rfloor idx) (Rceil idx)); try lia. f_equal. unfold interp.
    rewrite A. replace (Z.to_nat (Rfloor idx + 1)) with (S (Z.to_nat (Rfloor idx))) by lia.
    unfold vget. simpl. auto.
Qed.

Section Interp.
  Variable s : list R.
  Hypothesis Hs : forall i j, (i <= j)%nat -> (j < length s)%nat -> nth i s 0 <= nth j s 0.
  Let N := IZR (Z.of_nat (length s) - 1).

  Lemma interp_bounds idx : s <> [] -> 0 <= idx <= N ->
    nth (Z.to_nat (Rfloor idx)) s 0 <= interp s idx /\
    (IZR (Rfloor idx) < idx -> interp s idx <= nth (S (Z.to_nat (Rfloor idx))) s 0) /\
    (Z.to_nat (Rfloor idx) < length s)%nat /\ (IZR (Rfloor idx) < idx -> (S (Z.to_nat (Rfloor idx)) < length s)%nat).
  Proof.
    intros Hne [H0 HN]. pose proof (Rfloor_spec idx) as [A B].
    assert (0 <= Rfloor idx)%Z.
    { assert (IZR (-1) < IZR (Rfloor idx)) by (simpl; lra). apply lt_IZR in H. lia. }
    assert (Rfloor idx <= Z.of_nat (length s) - 1)%Z by (apply le_IZR; unfold N in *; lra).
    assert (0 < length s)%nat by (destruct s; simpl; try congruence; lia).
    assert (Z.to_nat (Rfloor idx) < length s)%nat by lia.
    assert (IZR (Rfloor idx) < idx -> (S (Z.to_nat (Rfloor idx)) < length s)%nat) as HS.
    { intros Hlt. assert (Rfloor idx < Z.of_nat (length s) - 1)%Z by (apply lt_IZR; unfold N in *; lra). lia. }
    unfold interp. set (w := idx - IZR (Rfloor idx)) in *.
    destruct (Req_dec w 0) as [Hw|Hw].
    - rewrite Hw. repeat split; auto; try lra. unfold w in Hw. intros; lra.
    - assert (0 < w) by (unfold w in *; lra). assert (IZR (Rfloor idx) < idx) as Hlt by (unfold w in *; lra). specialize (HS Hlt).
      assert (nth (Z.to_nat (Rfloor idx)) s 0 <= nth (S (Z.to_nat (Rfloor idx))) s 0) by (apply Hs; lia).
      set (x := nth (Z.to_nat (Rfloor idx)) s 0) in *. set (y := nth (S (Z.to_nat (Rfloor idx))) s 0) in *.
      assert (0 <= w * (y - x)) by (apply Rmult_le_pos; lra).
      assert (0 <= (1 - w) * (y - x)) by (apply Rmult_le_pos; unfold w; lra).
      repeat split; auto; try lra.
  Qed.

  Lemma interp_mono i1 i2 : s <> [] -> 0 <= i1 -> i1 <= i2 -> i2 <= N -> interp s i1 <= interp s i2.
  Proof.
    intros Hne H0 H12 H2.
    destruct (interp_bounds i1 Hne) as (A1 & B1 & C1 & D1); try lra.
    destruct (interp_bounds i2 Hne) as (A2 & B2 & C2 & D2); try lra.
    pose proof (Rfloor_spec i1) as [F1 G1]. pose proof (Rfloor_spec i2) as [F2 G2].
    assert (Rfloor i1 <= Rfloor i2)%Z.
    { assert (Rfloor i1 < Rfloor i2 + 1)%Z by (apply lt_IZR; rewrite plus_IZR; lra). lia. }
    assert (0 <= Rfloor i1)%Z.
    { assert (IZR (-1) < IZR (Rfloor i1)) by (simpl; lra). apply lt_IZR in H1. lia. }
    destruct (Z.eq_dec (Rfloor i1) (Rfloor i2)) as [E|E].
    - unfold interp. rewrite <- E in *. set (x := nth (Z.to_nat (Rfloor i1)) s 0) in *. set (y := nth (S (Z.to_nat (Rfloor i1))) s 0) in *.
      destruct (Req_dec i1 i2). subst; lra.
      assert (x <= y). { apply Hs; auto. apply D2. lra. }
      assert (0 <= (i2 - i1) * (y - x)) by (apply Rmult_le_pos; lra). lra.
    - assert (nth (S (Z.to_nat (Rfloor i1))) s 0 <= nth (Z.to_nat (Rfloor i2)) s 0) by (apply Hs; lia).
      assert (interp s i1 <= nth (S (Z.to_nat (Rfloor i1))) s 0).
      { destruct (Req_dec (IZR (Rfloor i1)) i1).
        - unfold interp. replace (i1 - IZR (Rfloor i1)) with 0 by lra.
          assert (nth (Z.to_nat (Rfloor i1)) s 0 <= nth (S (Z.to_nat (Rfloor i1))) s 0) by (apply Hs; lia). lra.
        - apply B1. lra. }
      lra.
  Qed.
End Interp.

Lemma isort_length (v : list R) : length (isort nltb v) = length v.
Proof. apply Permutation_length, isort_perm. Qed.
Lemma isort_mono (v : list R) i j : (i <= j)%nat -> (j < length (isort nltb v))%nat ->
  nth i (isort nltb v) 0 <= nth j (isort nltb v) 0.
Proof.
  intros Hij Hj. pose proof (isort_sorted v (good_all v)) as Hs.
  apply Rleb_true. change Rleb with (@nleb R _). change (nth i (isort nltb v) 0) with (vget (isort nltb v) i).
  change (nth j (isort nltb v) 0) with (vget (isort nltb v) j).
  apply sorted_pairwise; auto. apply good_all. intros k Hk. apply (Sorted_nth _ _ n0 Hs k Hk).
Qed.

(** *** Norms *)
Lemma cauchy_schwarz n f g : (rsum n (fun k => f k * g k)) ^ 2 <= rsum n (fun k => f k * f k) * rsum n (fun k => g k * g k).
Proof.
  set (A := rsum n (fun k => f k * f k)). set (B := rsum n (fun k => f k * g k)). set (C := rsum n (fun k => g k * g k)).
  assert (0 <= rsum n (fun k => (C * f k - B * g k) * (C * f k - B * g k))) as H.
  { apply rsum_nonneg. intros. apply Rle_0_sqr. }
  assert (rsum n (fun k => (C * f k - B * g k) * (C * f k - B * g k)) = C * (A * C - B * B)) as E.
  { rewrite (rsum_ext _ _ (fun k => (C * C * (f k * f k) + (-2 * C * B) * (f k * g k)) + B * B * (g k * g k))) by (intros; ring).
    rewrite !rsum_plus, !rsum_scal. fold A B C. ring. }
  rewrite E in H.
  assert (0 <= C) by (apply rsum_nonneg; intros; apply Rle_0_sqr).
  destruct (Req_dec C 0) as [HC|HC].
  - assert (B = 0) as ->.
    { unfold B. apply rsum_0. intros k Hk.
      pose proof (rsum_nonneg_0 n (fun k => g k * g k) ltac:(intros; apply Rle_0_sqr) HC k Hk) as Hg. cbv beta in Hg.
      apply Rsqr_0_uniq in Hg. rewrite Hg; ring. }
    rewrite HC. lra.
  - assert (0 < C) by lra. assert (0 <= A * C - B * B).
    { destruct (Rle_dec 0 (A * C - B * B)); auto. assert (C * (A * C - B * B) < C * 0) by (apply Rmult_lt_compat_l; lra). lra. }
    simpl. lra.
Qed.

Definition linf n (f : nat -> R) : R := loop n (fun i r => nmax r (Rabs (f i))) 0.
Lemma nmax_Rmax (a b : R) : nmax a b = Rmax a b.
Proof. unfold nmax, Rmax. simpl. unfold Rltb. destruct (Rlt_dec a b), (Rle_dec a b); lra. Qed.
Lemma linf_ub n f k : (k < n)%nat -> Rabs (f k) <= linf n f.
Proof.
  unfold linf. induction n; simpl; intros. lia. rewrite nmax_Rmax.
  destruct (Nat.eq_dec k n). subst; apply Rmax_r. eapply Rle_trans. apply IHn; lia. apply Rmax_l.
Qed.
Lemma linf_least n f c : 0 <= c -> (forall k, (k < n)%nat -> Rabs (f k) <= c) -> linf n f <= c.
Proof.
  unfold linf. intros Hc. induction n; simpl; intros H. auto. rewrite nmax_Rmax. apply Rmax_lub; auto.
Qed.
Lemma linf_nonneg n f : 0 <= linf n f.
Proof. unfold linf. induction n; simpl. lra. rewrite nmax_Rmax. eapply Rle_trans; [apply IHn|apply Rmax_l]. Qed.

Lemma vec_norm_eq t (v : list R) :
  vec_norm t v = match t with
                 | L2 => sqrt (rsum (length v) (fun i => nth i v 0 * nth i v 0))
                 | L1 => rsum (length v) (fun i => Rabs (nth i v 0))
                 | LINF => linf (length v) (fun i => nth i v 0)
                 end.
Proof. destruct t; unfold vec_norm; rewrite ?nsum_rsum; auto. Qed.

Lemma norm_nonneg t (v : list R) : 0 <= vec_norm t v.
Proof.
  rewrite vec_norm_eq. destruct t.
  - apply sqrt_pos.
  - apply rsum_nonneg. intros; apply Rabs_pos.
  - apply linf_nonneg.
Qed.

Lemma norm_zero t (v : list R) : vec_norm t v = 0 <-> (forall i, (i < length v)%nat -> nth i v 0 = 0).
Proof.
  rewrite vec_norm_eq. destruct t; split; intros H.
  - apply sqrt_eq_0 in H. 2: apply rsum_nonneg; intros; apply Rle_0_sqr.
    intros i Hi. pose proof (rsum_nonneg_0 _ (fun i => nth i v 0 * nth i v 0) ltac:(intros; apply Rle_0_sqr) H i Hi) as E.
    apply Rsqr_0_uniq in E; auto.
  - rewrite rsum_0. apply sqrt_0. intros k Hk; rewrite H by auto; lra.
  - intros i Hi. pose proof (rsum_nonneg_0 _ (fun i => Rabs (nth i v 0)) ltac:(intros; apply Rabs_pos) H i Hi) as E. cbv beta in E.
    destruct (Req_dec (nth i v 0) 0); auto. apply Rabs_no_R0 in H0. congruence.
  - apply rsum_0. intros k Hk; rewrite H by auto; apply Rabs_R0.
  - intros i Hi. pose proof (linf_ub (length v) (fun i => nth i v 0) i Hi) as E. cbv beta in E.
    rewrite H in E. pose proof (Rabs_pos (nth i v 0)). destruct (Req_dec (nth i v 0) 0); auto. apply Rabs_no_R0 in H1. lra.
  - apply Rle_antisym; [|apply linf_nonneg]. apply linf_least. lra. intros; rewrite H by auto. rewrite Rabs_R0; lra.
Qed.

Lemma linf_scal n f c : linf n (fun i => f i * c) = Rabs c * linf n f.
Proof.
  unfold linf. induction n; simpl. lra. rewrite !nmax_Rmax, IHn, Rabs_mult, (Rmult_comm (Rabs (f n))).
  rewrite RmaxRmult; auto. apply Rabs_pos.
Qed.

Lemma norm_scale t (v : list R) c : vec_norm t (vec_scale v c) = Rabs c * vec_norm t v.
Proof.
  rewrite !vec_norm_eq. unfold vec_scale. rewrite vbuild_length.
  assert (forall i, (i < length v)%nat -> nth i (vbuild (length v) (fun i => vget v i *! c)) 0 = nth i v 0 * c) as E.
  { intros. change (nth i (vbuild ?n ?f) 0) with (vget (vbuild n f) i). rewrite vget_vbuild; auto. }
  destruct t.
  - rewrite (rsum_ext _ _ (fun i => (c * c) * (nth i v 0 * nth i v 0))) by (intros; rewrite E by auto; ring).
    rewrite rsum_scal, sqrt_mult_alt by (apply Rle_0_sqr). f_equal. apply (sqrt_Rsqr_abs c).
  - rewrite (rsum_ext _ _ (fun i => Rabs c * Rabs (nth i v 0))) by (intros; rewrite E, Rabs_mult by auto; ring).
    apply rsum_scal.
  - rewrite <- linf_scal. unfold linf. apply loop_ext. intros k t Hk. rewrite E; auto.
Qed.

Lemma norm_triangle t (v w s : list R) : vec_add v w = Ok s -> vec_norm t s <= vec_norm t v + vec_norm t w.
Proof.
  unfold vec_add. destruct (Nat.eqb_spec (length v) (length w)); intros H; inversion H; subst s; clear H.
  rewrite !vec_norm_eq, !vbuild_length, <- !e.
  assert (forall i, (i < length v)%nat -> nth i (vbuild (length v) (fun i => vget v i +! vget w i)) 0 = nth i v 0 + nth i w 0) as E.
  { intros. change (nth i (vbuild ?n ?f) 0) with (vget (vbuild n f) i). rewrite vget_vbuild; auto. }
  destruct t.
  - rewrite (rsum_ext _ _ (fun i => (nth i v 0 * nth i v 0 + 2 * (nth i v 0 * nth i w 0)) + nth i w 0 * nth i w 0))
      by (intros; rewrite E by auto; ring).
    rewrite !rsum_plus, rsum_scal.
    pose proof (cauchy_schwarz (length v) (fun i => nth i v 0) (fun i => nth i w 0)) as CS. cbv beta in CS.
    set (A := rsum _ (fun i => nth i v 0 * nth i v 0)) in *. set (B := rsum _ (fun i => nth i v 0 * nth i w 0)) in *.
    set (C := rsum _ (fun i => nth i w 0 * nth i w 0)) in *.
    assert (0 <= A) by (apply rsum_nonneg; intros; apply Rle_0_sqr).
    assert (0 <= C) by (apply rsum_nonneg; intros; apply Rle_0_sqr).
    pose proof (sqrt_pos A). pose proof (sqrt_pos C).
    assert (B <= sqrt A * sqrt C).
    { rewrite <- sqrt_mult by auto. eapply Rle_trans. apply Rle_abs. rewrite <- (sqrt_Rsqr_abs B).
      apply sqrt_le_1_alt. unfold Rsqr. simpl in CS. lra. }
    apply Rsqr_incr_0_var; [|lra].
    assert (0 <= A + 2 * B + C).
    { unfold A, B, C. rewrite <- rsum_scal, <- !rsum_plus. apply rsum_nonneg. intros k _.
      replace (nth k v 0 * nth k v 0 + 2 * (nth k v 0 * nth k w 0) + nth k w 0 * nth k w 0) with (Rsqr (nth k v 0 + nth k w 0)) by (unfold Rsqr; ring).
      apply Rle_0_sqr. }
    rewrite Rsqr_sqrt by auto. unfold Rsqr.
    replace ((sqrt A + sqrt C) * (sqrt A + sqrt C)) with (sqrt A * sqrt A + 2 * (sqrt A * sqrt C) + sqrt C * sqrt C) by ring.
    rewrite !sqrt_sqrt by auto. lra.
  - rewrite <- rsum_plus. apply rsum_le. intros. rewrite E by auto. apply Rabs_triang.
  - apply linf_least. pose proof (linf_nonneg (length v) (fun i => nth i v 0)). pose proof (linf_nonneg (length v) (fun i => nth i w 0)). lra.
    intros k Hk. rewrite E by auto. eapply Rle_trans. apply Rabs_triang.
    apply Rplus_le_compat. apply (linf_ub (length v) (fun i => nth i v 0)); auto. apply (linf_ub (length v) (fun i => nth i w 0)); auto.
Qed.

Lemma unit_norm t (v u : list R) : vec_unit t v = Ok u -> vec_norm t u = 1.
Proof.
  unfold vec_unit. simpl neqb. destruct (Reqb_spec (vec_norm t v) 0); intros H; inversion H; subst u.
  change (@n0 R RNum) with 0 in n.
  change (vec_norm t (vec_scale v (/ vec_norm t v)) = 1).
  rewrite norm_scale. pose proof (norm_nonneg t v). rewrite Rabs_right. apply Rinv_l; auto.
  apply Rle_ge, Rlt_le, Rinv_0_lt_compat. lra.
Qed.
