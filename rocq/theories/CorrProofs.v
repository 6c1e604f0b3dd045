(** Correlation matrices over the reals: shape, positive semidefiniteness of the Gaussian kernel. *)
From Coq Require Import Reals Lra Psatz List Arith Lia ZArith Bool Factorial.
From Verif Require Import Base Num RealNum RSpec VecModel MatModel MatLemmas MatReal CholProofs CholProofs2 CorrModel.
Import ListNotations.
Local Open Scope R_scope.

(** *** the fill loops *)
Lemma corr_loops_ok (X : mat R) (c : list R -> list R -> R) :
  is_mat (corr_loops X c) (nrows X) (nrows X)
    (fun i j => if Nat.eqb i j then 1 else if Nat.ltb j i then c (mrow X i) (mrow X j) else c (mrow X j) (mrow X i)).
Proof.
  set (n := nrows X).
  set (P0 := fun k (a : mat R) => wf a /\ nrows a = n /\ ncols a = n /\ forall i, (i < k)%nat -> mget a i i = 1).
  assert (P0 n (loop n (fun i a => mset a i i n1) (mat_zero n n))) as (A1 & A2 & A3 & A4).
  { apply loop_inv. split. apply mat_zero_wf. split; auto. split; auto. intros; lia.
    intros k a Hk (W & Hr & Hc & H). split. apply mset_wf; auto. split; auto. split; auto.
    intros i Hi. rewrite mget_mset by (auto; lia). destruct (Nat.eqb_spec k i); simpl; auto. apply H; lia. }
  set (g := fun i j => if Nat.eqb i j then 1 else if Nat.ltb j i then c (mrow X i) (mrow X j) else c (mrow X j) (mrow X i)).
  set (P := fun k (a : mat R) => wf a /\ nrows a = n /\ ncols a = n /\ (forall i, (i < n)%nat -> mget a i i = 1) /\
    forall i j, (i < k)%nat -> (j < k)%nat -> mget a i j = g i j).
  unfold corr_loops. fold n.
  set (R0 := loop n (fun i a => mset a i i n1) (mat_zero n n)) in *.
  assert (P n (loop n (fun i a => loop i (fun j b => let cc := c (mrow X i) (mrow X j) in mset (mset b j i cc) i j cc) a) R0)) as HP.
  { apply loop_inv.
    - split; auto. split; auto. split; auto. split; auto. intros; lia.
    - intros k a Hk (W & Hr & Hc & Hd & He).
      set (Q := fun m (b : mat R) => wf b /\ nrows b = n /\ ncols b = n /\ (forall i, (i < n)%nat -> mget b i i = 1) /\
        (forall i j, (i < k)%nat -> (j < k)%nat -> mget b i j = g i j) /\
        (forall j, (j < m)%nat -> mget b k j = g k j /\ mget b j k = g j k)).
      assert (Q k (loop k (fun j b => let cc := c (mrow X k) (mrow X j) in mset (mset b j k cc) k j cc) a)) as (Q1 & Q2 & Q3 & Q4 & Q5 & Q6).
      { apply loop_inv.
        - repeat (split; auto). intros; lia. intros; lia.
        - intros m b Hm (B1 & B2 & B3 & B4 & B5 & B6). cbv zeta. set (cc := c (mrow X k) (mrow X m)).
          assert (wf (mset b m k cc)) as W1 by (apply mset_wf; auto).
          assert (forall i j, (i < n)%nat -> (j < n)%nat -> mget (mset (mset b m k cc) k m cc) i j =
            if (Nat.eqb k i && Nat.eqb m j)%bool then cc else if (Nat.eqb m i && Nat.eqb k j)%bool then cc else mget b i j) as EG.
          { intros i j Hi Hj. rewrite mget_mset by (auto; simpl; lia). rewrite mget_mset by (auto; lia). auto. }
          split. apply mset_wf; auto. split; auto. split; auto. split; [|split].
          + intros i Hi. rewrite EG by auto. destruct (Nat.eqb_spec k i), (Nat.eqb_spec m i); simpl; try lia; auto.
          + intros i j Hi Hj. rewrite EG by lia. destruct (Nat.eqb_spec k i), (Nat.eqb_spec k j); try lia. simpl. rewrite Bool.andb_false_r. auto.
          + intros j Hj. rewrite !EG by lia. rewrite !Nat.eqb_refl. cbn [andb].
            destruct (Nat.eqb_spec m j).
            * subst j. destruct (Nat.eqb_spec k m); try lia. cbn [andb]. unfold g. destruct (Nat.eqb_spec k m), (Nat.eqb_spec m k); try lia.
              destruct (Nat.ltb_spec m k), (Nat.ltb_spec k m); try lia. auto.
            * destruct (Nat.eqb_spec m k), (Nat.eqb_spec k j); try lia. cbn [andb]. apply B6; lia. }
      split; auto. split; auto. split; auto. split; auto.
      intros i j Hi Hj. destruct (Nat.eq_dec i k) as [->|Hik].
      + destruct (Nat.eq_dec j k) as [->|Hjk]. rewrite Q4 by lia. unfold g. rewrite Nat.eqb_refl. auto. apply Q6. lia.
      + destruct (Nat.eq_dec j k) as [->|Hjk]. apply Q6; lia. apply Q5; lia. }
  destruct HP as (H1 & H2 & H3 & H4 & H5). repeat (split; [assumption|]); assumption.
Qed.

Lemma addEps_ok (C : mat R) n f eps : is_mat C n n f -> is_mat (mat_addEps C eps) n n (fun i j => f i j + eps * delta i j).
Proof.
  intros (W & Hr & Hc & He). unfold mat_addEps. rewrite Hr, Hc, Nat.min_id.
  set (P := fun k (a : mat R) => wf a /\ nrows a = n /\ ncols a = n /\
    forall i j, (i < n)%nat -> (j < n)%nat -> mget a i j = f i j + (if (Nat.eqb i j && Nat.ltb i k)%bool then eps else 0)).
  assert (P n (loop n (fun i a => mset a i i (mget a i i +! eps)) C)) as (A1 & A2 & A3 & A4).
  { apply loop_inv.
    - split; auto. split; auto. split; auto. intros i j Hi Hj. rewrite He by auto. destruct (Nat.eqb i j); simpl; try lra.
    - intros k a Hk (B1 & B2 & B3 & B4). split. apply mset_wf; auto. split; auto. split; auto.
      intros i j Hi Hj. rewrite mget_mset by (auto; lia). cbn [nadd RNum]. rewrite !B4 by auto.
      destruct (Nat.eqb_spec k i), (Nat.eqb_spec k j), (Nat.eqb_spec i j); cbn [andb]; try lia; auto.
      + subst i j. rewrite Nat.eqb_refl. rewrite Nat.ltb_irrefl. cbn [andb]. destruct (Nat.ltb_spec k (S k)); try lia; lra.
      + subst j. destruct (Nat.ltb_spec i k), (Nat.ltb_spec i (S k)); try lia; lra. }
  split; auto. split; auto. split; auto. intros i j Hi Hj. rewrite A4 by auto. unfold delta.
  destruct (Nat.eqb_spec i j); simpl. destruct (Nat.ltb_spec i n); try lia. lra. lra.
Qed.

(** *** entries *)
Lemma gauss_corr_eq v1 v2 theta n :
  gauss_corr (T:=R) v1 v2 theta n = exp (- rsum n (fun k => nth k theta 0 * ((nth k v1 0 - nth k v2 0) * (nth k v1 0 - nth k v2 0)))).
Proof. unfold gauss_corr. simpl. f_equal. f_equal. rewrite nsum_rsum. reflexivity. Qed.
Lemma exp_corr_eq v1 v2 theta gamma n :
  exp_corr (T:=R) v1 v2 theta gamma n = exp (- rsum n (fun k => nth k theta 0 * Rpow (Rabs (nth k v1 0 - nth k v2 0)) (nth k gamma 0))).
Proof. unfold exp_corr. simpl. f_equal. f_equal. rewrite nsum_rsum. reflexivity. Qed.

Lemma exp_le_1 x : 0 <= x -> exp (- x) <= 1.
Proof. intros H. rewrite <- exp_0. destruct H as [H| <-]. left. apply exp_increasing. lra. right. f_equal. lra. Qed.
Lemma Rpow_nonneg x y : 0 <= Rpow x y.
Proof. unfold Rpow. destruct (Req_EM_T x 0). destruct (Req_EM_T y 0); lra. unfold Rpower. left. apply exp_pos. Qed.

Lemma gauss_corr_range v1 v2 theta n : (forall k, (k < n)%nat -> 0 <= nth k theta 0) -> 0 < gauss_corr v1 v2 theta n <= 1.
Proof.
  intros H. rewrite gauss_corr_eq. split. apply exp_pos. apply exp_le_1. apply rsum_nonneg. intros k Hk.
  apply Rmult_le_pos; auto. apply Rle_0_sqr.
Qed.
Lemma exp_corr_range v1 v2 theta gamma n : (forall k, (k < n)%nat -> 0 <= nth k theta 0) -> 0 < exp_corr v1 v2 theta gamma n <= 1.
Proof.
  intros H. rewrite exp_corr_eq. split. apply exp_pos. apply exp_le_1. apply rsum_nonneg. intros k Hk.
  apply Rmult_le_pos; auto. apply Rpow_nonneg.
Qed.
Lemma gauss_corr_sym v1 v2 theta n : gauss_corr (T:=R) v1 v2 theta n = gauss_corr v2 v1 theta n.
Proof. rewrite !gauss_corr_eq. f_equal. f_equal. apply rsum_ext. intros; lra. Qed.
Lemma exp_corr_sym v1 v2 theta gamma n : exp_corr (T:=R) v1 v2 theta gamma n = exp_corr v2 v1 theta gamma n.
Proof. rewrite !exp_corr_eq. f_equal. f_equal. apply rsum_ext. intros. rewrite Rabs_minus_sym. auto. Qed.
Lemma gauss_corr_self v theta n : gauss_corr (T:=R) v v theta n = 1.
Proof. rewrite gauss_corr_eq. rewrite rsum_0. rewrite Ropp_0. apply exp_0. intros; lra. Qed.
Lemma exp_corr_self v theta gamma n : (forall k, (k < n)%nat -> nth k gamma 0 <> 0) -> exp_corr (T:=R) v v theta gamma n = 1.
Proof.
  intros H. rewrite exp_corr_eq. rewrite rsum_0. rewrite Ropp_0. apply exp_0. intros k Hk. unfold Rpow.
  replace (nth k v 0 - nth k v 0) with 0 by lra. rewrite Rabs_R0. destruct (Req_EM_T 0 0); try lra. destruct (Req_EM_T (nth k gamma 0) 0); try lra.
  exfalso; apply (H k); auto.
Qed.
(** with gamma = 2 the exponential correlation is the Gaussian one *)
Lemma exp_corr_gauss v1 v2 theta gamma n : (forall k, (k < n)%nat -> nth k gamma 0 = 2) -> exp_corr (T:=R) v1 v2 theta gamma n = gauss_corr v1 v2 theta n.
Proof.
  intros H. rewrite exp_corr_eq, gauss_corr_eq. f_equal. f_equal. apply rsum_ext. intros k Hk. f_equal. rewrite H by auto. unfold Rpow.
  destruct (Req_EM_T (Rabs (nth k v1 0 - nth k v2 0)) 0) as [E|E].
  - destruct (Req_EM_T 2 0); try lra. assert (nth k v1 0 - nth k v2 0 = 0). { destruct (Req_EM_T (nth k v1 0 - nth k v2 0) 0); auto. exfalso. eapply Rabs_no_R0; eauto. }
    rewrite H0. lra.
  - pose proof (Rabs_pos (nth k v1 0 - nth k v2 0)). replace 2 with (INR 2) by (simpl; lra). rewrite Rpower_pow by lra.
    simpl. rewrite Rmult_1_r. rewrite <- Rabs_mult. rewrite Rabs_right; auto. apply Rle_ge, Rle_0_sqr.
Qed.

(** *** positive semidefiniteness *)
Lemma quad_ext n A B x : (forall i j, (i < n)%nat -> (j < n)%nat -> A i j = B i j) -> quad n A x = quad n B x.
Proof. intros H. unfold quad. apply rsum_ext. intros i Hi. apply rsum_ext. intros j Hj. rewrite H by auto. auto. Qed.

(** Schur product with a Gram matrix *)
Lemma psd_times_gram n d A (b : nat -> nat -> R) : psd n A -> psd n (fun i j => A i j * rsum d (fun k => b k i * b k j)).
Proof.
  intros HA x.
  assert (quad n (fun i j => A i j * rsum d (fun k => b k i * b k j)) x = rsum d (fun k => quad n A (fun i => x i * b k i))) as ->.
  { unfold quad. rewrite (rsum_ext n _ (fun i => rsum n (fun j => rsum d (fun k => x i * b k i * A i j * (x j * b k j))))).
    2:{ intros i Hi. apply rsum_ext. intros j Hj. rewrite (rsum_ext d (fun k => x i * b k i * A i j * (x j * b k j)) (fun k => (x i * A i j * x j) * (b k i * b k j))) by (intros; ring).
        rewrite rsum_scal. ring. }
    rewrite (rsum_ext n _ (fun i => rsum d (fun k => rsum n (fun j => x i * b k i * A i j * (x j * b k j))))). 2:{ intros; apply rsum_swap. }
    apply rsum_swap. }
  apply rsum_nonneg. intros. apply HA.
Qed.
Lemma psd_ones n : psd n (fun _ _ => 1).
Proof.
  intros x. unfold quad. rewrite (rsum_ext n _ (fun i => x i * rsum n x)). 2:{ intros. rewrite <- rsum_scal. apply rsum_ext. intros; lra. }
  rewrite rsum_scal_r. apply Rle_0_sqr.
Qed.
Lemma psd_gram_pow n d (b : nat -> nat -> R) m : psd n (fun i j => rsum d (fun k => b k i * b k j) ^ m).
Proof.
  induction m; simpl. apply psd_ones.
  intros x. erewrite quad_ext. apply (psd_times_gram n d (fun i j => rsum d (fun k => b k i * b k j) ^ m) b IHm).
  intros; simpl. ring.
Qed.

Lemma cv_rsum n (u : nat -> nat -> R) (l : nat -> R) : (forall i, (i < n)%nat -> Un_cv (u i) (l i)) -> Un_cv (fun M => rsum n (fun i => u i M)) (rsum n l).
Proof.
  induction n; intros H; simpl.
  - intros e He. exists 0%nat. intros. rewrite R_dist_eq. auto.
  - apply (CV_plus (fun M => rsum n (fun i => u i M)) (u n)). apply IHn. auto. apply H; auto.
Qed.
Lemma cv_scal c u l : Un_cv u l -> Un_cv (fun M => c * u M) (c * l).
Proof. intros H. apply (CV_mult (fun _ => c) u). intros e He. exists 0%nat. intros. rewrite R_dist_eq. auto. auto. Qed.
Lemma cv_ext u v l : (forall k, u k = v k) -> Un_cv u l -> Un_cv v l.
Proof. intros E H e He. destruct (H e He) as [N HN]. exists N. intros. rewrite <- E. auto. Qed.
Lemma cv_nonneg u l : (forall k, 0 <= u k) -> Un_cv u l -> 0 <= l.
Proof.
  intros H C. destruct (Rle_lt_dec 0 l) as [|Hl]; auto. exfalso. destruct (C (- l) ltac:(lra)) as [N HN]. specialize (HN N (le_n _)).
  specialize (H N). unfold R_dist in HN. rewrite Rabs_right in HN; lra.
Qed.
Lemma exp_cv z : Un_cv (fun M => sum_f_R0 (fun m => / INR (fact m) * z ^ m) M) (exp z).
Proof. unfold exp. destruct (exist_exp z) as [e He]. simpl. exact He. Qed.

Lemma psd_sum n (A : nat -> nat -> nat -> R) (w : nat -> R) M : (forall m, 0 <= w m) -> (forall m, psd n (A m)) ->
  psd n (fun i j => sum_f_R0 (fun m => w m * A m i j) M).
Proof.
  intros Hw HA. induction M; intros x.
  - simpl. unfold quad. assert (rsum n (fun i => rsum n (fun j => x i * (w 0%nat * A 0%nat i j) * x j)) = w 0%nat * quad n (A 0%nat) x) as ->.
    { unfold quad. rewrite <- rsum_scal. apply rsum_ext. intros. rewrite <- rsum_scal. apply rsum_ext. intros; ring. }
    apply Rmult_le_pos; auto. apply HA.
  - simpl. assert (quad n (fun i j => sum_f_R0 (fun m => w m * A m i j) M + w (S M) * A (S M) i j) x =
       quad n (fun i j => sum_f_R0 (fun m => w m * A m i j) M) x + w (S M) * quad n (A (S M)) x) as ->.
    { unfold quad. rewrite <- rsum_scal, <- rsum_plus. apply rsum_ext. intros. rewrite <- rsum_scal, <- rsum_plus. apply rsum_ext. intros; ring. }
    pose proof (IHM x). pose proof (Rmult_le_pos _ _ (Hw (S M)) (HA (S M) x)). lra.
Qed.

(** exp of a Gram matrix, entrywise *)
Lemma psd_exp_gram n d (b : nat -> nat -> R) : psd n (fun i j => exp (rsum d (fun k => b k i * b k j))).
Proof.
  intros x. set (B := fun i j => rsum d (fun k => b k i * b k j)).
  set (S := fun M i j => sum_f_R0 (fun m => / INR (fact m) * B i j ^ m) M).
  apply (cv_nonneg (fun M => quad n (S M) x)).
  - intros M. apply (psd_sum n (fun m i j => B i j ^ m) (fun m => / INR (fact m)) M).
    intros m. left. apply Rinv_0_lt_compat. apply INR_fact_lt_0. intros m. apply psd_gram_pow.
  - unfold quad. apply cv_rsum. intros i Hi. apply cv_rsum. intros j Hj.
    apply (cv_ext (fun M => (x i * x j) * S M i j)). intros; ring.
    change (rsum d (fun k => b k i * b k j)) with (B i j).
    replace (x i * exp (B i j) * x j) with ((x i * x j) * exp (B i j)) by ring. apply cv_scal. apply exp_cv.
Qed.

Lemma rsum_mul2 n (a : nat -> R) c : rsum n (fun k => c * a k) = c * rsum n a.
Proof. apply rsum_scal. Qed.

Lemma psd_gauss n d (p : nat -> list R) (theta : list R) : (forall k, (k < d)%nat -> 0 <= nth k theta 0) ->
  psd n (fun i j => gauss_corr (p i) (p j) theta d).
Proof.
  intros Ht x.
  set (g := fun i => exp (- rsum d (fun k => nth k theta 0 * (nth k (p i) 0 * nth k (p i) 0)))).
  set (b := fun k i => sqrt (2 * nth k theta 0) * nth k (p i) 0).
  assert (forall i j, gauss_corr (p i) (p j) theta d = g i * g j * exp (rsum d (fun k => b k i * b k j))) as E.
  { intros i j. rewrite gauss_corr_eq. unfold g. rewrite <- !exp_plus. f_equal.
    rewrite <- !rsum_opp, <- !rsum_plus. apply rsum_ext. intros k Hk. unfold b.
    replace (sqrt (2 * nth k theta 0) * nth k (p i) 0 * (sqrt (2 * nth k theta 0) * nth k (p j) 0))
      with ((sqrt (2 * nth k theta 0) * sqrt (2 * nth k theta 0)) * (nth k (p i) 0 * nth k (p j) 0)) by ring.
    rewrite sqrt_sqrt. ring. specialize (Ht k Hk). lra. }
  rewrite (quad_ext n _ (fun i j => g i * g j * exp (rsum d (fun k => b k i * b k j)))) by auto.
  pose proof (psd_exp_gram n d b (fun i => x i * g i)) as H. unfold quad in *.
  erewrite rsum_ext. exact H. intros i Hi. apply rsum_ext. intros; ring.
Qed.

Lemma psd_plus_eps n A eps : psd n A -> 0 < eps -> posdef n (fun i j => A i j + eps * delta i j).
Proof.
  intros H He x Hx.
  assert (quad n (fun i j => A i j + eps * delta i j) x = quad n A x + eps * rsum n (fun i => x i * x i)) as ->.
  { unfold quad. rewrite <- rsum_scal, <- rsum_plus. apply rsum_ext. intros i Hi.
    rewrite (rsum_ext n _ (fun j => x i * A i j * x j + (x i * eps) * (delta i j * x j))) by (intros; ring).
    rewrite rsum_plus, rsum_scal. f_equal. rewrite (rsum_single n i); auto. unfold delta. rewrite Nat.eqb_refl. ring.
    intros k Hk Hne. unfold delta. destruct (Nat.eqb_spec i k); try lia. ring. }
  pose proof (H x). pose proof (rsum_sq_pos n x Hx). nra.
Qed.

(** *** matrices computed by the objects *)
Lemma gauss_matrix_ok (X : mat R) theta C : corrmat_gauss X theta = Ok C ->
  length theta = ncols X /\ is_mat C (nrows X) (nrows X) (fun i j => gauss_corr (mrow X i) (mrow X j) theta (ncols X)).
Proof.
  unfold corrmat_gauss. destruct (Nat.eqb_spec (ncols X) (length theta)); simpl; [|discriminate]. intros E. injection E as <-. split; auto.
  destruct (corr_loops_ok X (fun a b => gauss_corr a b theta (ncols X))) as (H1 & H2 & H3 & H4). split; auto. split; auto. split; auto.
  intros i j Hi Hj. rewrite H4 by auto. destruct (Nat.eqb_spec i j). subst. symmetry; apply gauss_corr_self.
  destruct (Nat.ltb j i); auto. apply gauss_corr_sym.
Qed.
Lemma exp_loops_ok (X : mat R) theta gamma :
  is_mat (corr_loops X (fun a b => exp_corr a b theta gamma (ncols X))) (nrows X) (nrows X)
    (fun i j => if Nat.eqb i j then 1 else exp_corr (mrow X i) (mrow X j) theta gamma (ncols X)).
Proof.
  destruct (corr_loops_ok X (fun a b => exp_corr a b theta gamma (ncols X))) as (H1 & H2 & H3 & H4). split; auto. split; auto. split; auto.
  intros i j Hi Hj. rewrite H4 by auto. destruct (Nat.eqb_spec i j). subst. auto. destruct (Nat.ltb j i); auto. apply exp_corr_sym.
Qed.
