(** When lu_decomposition gives up: a vector whose image is below the pivot threshold. *)
From Coq Require Import Reals Lra List Arith Lia Permutation.
From Verif Require Import Base Num RealNum RSpec DetSpec VecModel MatModel MatLemmas CholProofs CholProofs2 MatReal LuProofs LuProofs2.
Import ListNotations.
Local Open Scope R_scope.

Lemma lu_failure_witness A : isq A (nrows A) -> lu_decomposition A (nrows A) = None ->
  exists k x, (k < nrows A)%nat /\ x k = 1 /\ (forall j, (k < j)%nat -> x j = 0) /\
    forall i, (i < nrows A)%nat -> Rabs (mv (nrows A) (mget A) x i) < tiny.
Proof.
  intros Hq E. pose proof (lu_decomposition_ok A Hq) as H. rewrite E in H. set (n := nrows A) in *.
  destruct H as (k & lu & p & Hk & I & Hs). pose proof I as [Hsq Hperm Hprod Hmult Hpiv].
  assert (forall m, (m < k)%nat -> mget lu m m <> 0) as Hd. { intros m Hm Z. specialize (Hpiv m Hm). rewrite Z, Rabs_R0 in Hpiv. pose proof tiny_pos. lra. }
  set (y := vbuild k (fun m => - mget lu m k) : list R).
  destruct (lu_backward_ok lu y k Hd) as (L & B). set (z := lu_backward lu y k) in *.
  set (x := fun j => if Nat.ltb j k then vget z j else if Nat.eqb j k then 1 else 0).
  assert (x k = 1) as Xk. { unfold x. rewrite Nat.ltb_irrefl, Nat.eqb_refl. auto. }
  assert (forall j, (k < j)%nat -> x j = 0) as X0. { intros j Hj. unfold x. destruct (Nat.ltb_spec j k), (Nat.eqb_spec j k); try lia. auto. }
  exists k, x. split; auto. split; auto. split; auto.
  assert (forall m, (m < k)%nat -> rsum n (fun j => up lu m j * x j) = 0) as HU.
  { intros m Hm. rewrite (rsum_trunc n (S k)); try lia. 2:{ intros j Hj. rewrite X0 by lia. lra. }
    cbn [rsum]. rewrite Xk. unfold up at 2. destruct (Nat.leb_spec m k); [|lia].
    rewrite (rsum_ext k _ (fun j => up lu m j * vget z j)).
    2:{ intros j Hj. unfold x. destruct (Nat.ltb_spec j k); [auto|lia]. }
    rewrite B by auto. unfold y. rewrite vget_vbuild by auto. lra. }
  intros i0 Hi0. destruct (perm_seq_facts n p Hperm) as (P1 & P2 & P3). destruct (P3 i0 Hi0) as (i & Hi & <- & _).
  assert (mv n (mget A) x (nth i p 0%nat) = if Nat.leb k i then mget lu i k else 0) as ->.
  2:{ destruct (Nat.leb_spec k i). apply Hs; lia. rewrite Rabs_R0. apply tiny_pos. }
  unfold mv. rewrite (rsum_ext n _ (fun j => rsum k (fun m => lo lu i m * (up lu m j * x j)) + (if (Nat.leb k i && Nat.leb k j)%bool then mget lu i j else 0) * x j)).
  2:{ intros j Hj. rewrite Hprod by auto. rewrite Rmult_plus_distr_r. f_equal. rewrite <- rsum_scal_r. apply rsum_ext. intros; lra. }
  rewrite rsum_plus, rsum_swap. rewrite (rsum_0 k).
  2:{ intros m Hm. rewrite rsum_scal, HU by auto. ring. }
  rewrite (rsum_single n k); auto.
  - rewrite Xk, Nat.leb_refl, Bool.andb_true_r. ring.
  - intros j Hj Hne. destruct (Nat.lt_ge_cases k j). rewrite X0 by auto; lra. destruct (Nat.leb_spec k j); [lia|]. rewrite Bool.andb_false_r. lra.
Qed.

(** A matrix bounded below by lam (x^T A x >= lam |x|^2) with lam^2 >= n * tiny^2 is always factorised *)
Lemma rsum_cauchy n f g : rsum n (fun i => f i * g i) * rsum n (fun i => f i * g i) <= rsum n (fun i => f i * f i) * rsum n (fun i => g i * g i).
Proof.
  set (a := rsum n (fun i => f i * f i)). set (b := rsum n (fun i => f i * g i)). set (c := rsum n (fun i => g i * g i)).
  assert (forall t, 0 <= a * t * t - 2 * b * t + c) as H.
  { intros t. replace (a * t * t - 2 * b * t + c) with (rsum n (fun i => (f i * t - g i) * (f i * t - g i))).
    - apply rsum_nonneg. intros; apply Rle_0_sqr.
    - rewrite (rsum_ext n _ (fun i => (t * t) * (f i * f i) + ((-2 * t) * (f i * g i) + g i * g i))) by (intros; ring).
      rewrite !rsum_plus, !rsum_scal. fold a b c. ring. }
  assert (0 <= a) as Ha by (apply rsum_nonneg; intros; apply Rle_0_sqr).
  destruct (Rle_lt_or_eq_dec 0 a Ha) as [Hp|Hz].
  - specialize (H (b / a)). replace (a * (b / a) * (b / a) - 2 * b * (b / a) + c) with (c - b * b / a) in H by (field; lra).
    assert (b * b / a <= c) as H1 by lra. apply (Rmult_le_compat_r a) in H1; [|lra]. unfold Rdiv in H1. rewrite Rmult_assoc, Rinv_l in H1 by lra. lra.
  - rewrite <- Hz in *. assert (0 <= c) as Hc by (apply rsum_nonneg; intros; apply Rle_0_sqr).
    destruct (Req_dec b 0) as [Eb|Eb]. rewrite Eb; lra. exfalso. specialize (H ((c + 1) / b)).
    replace (0 * ((c + 1) / b) * ((c + 1) / b) - 2 * b * ((c + 1) / b) + c) with (- c - 2) in H by (field; auto). lra.
Qed.
Lemma rsum_ge_term n f k : (forall i, (i < n)%nat -> 0 <= f i) -> (k < n)%nat -> f k <= rsum n f.
Proof.
  induction n; intros H Hk. lia. cbn [rsum]. destruct (Nat.eq_dec k n) as [->|Hne].
  - assert (0 <= rsum n f) by (apply rsum_nonneg; intros; apply H; lia). lra.
  - assert (f k <= rsum n f) by (apply IHn; [intros; apply H; lia|lia]). specialize (H n ltac:(lia)). lra.
Qed.
Lemma lu_coercive_succeeds A lam : isq A (nrows A) -> 0 < lam -> INR (nrows A) * (tiny * tiny) <= lam * lam ->
  (forall x, lam * rsum (nrows A) (fun i => x i * x i) <= quad (nrows A) (mget A) x) ->
  exists lu p, lu_decomposition A (nrows A) = Some (lu, p).
Proof.
  intros Hq Hl Hn HA. destruct (lu_decomposition A (nrows A)) as [[lu p]|] eqn:E; eauto. exfalso.
  destruct (lu_failure_witness A Hq E) as (k & x & Hk & Xk & X0 & Hs). set (n := nrows A) in *.
  set (g := mv n (mget A) x) in *. set (q := rsum n (fun i => x i * x i)).
  assert (1 <= q) as Hq1.
  { unfold q. apply Rle_trans with (x k * x k). rewrite Xk; lra. apply (rsum_ge_term n (fun i => x i * x i)); auto. intros; apply Rle_0_sqr. }
  assert (quad n (mget A) x = rsum n (fun i => x i * g i)) as Eq.
  { unfold quad, g, mv. apply rsum_ext. intros i Hi. rewrite <- rsum_scal. apply rsum_ext. intros; ring. }
  specialize (HA x). fold q in HA. rewrite Eq in HA. pose proof (rsum_cauchy n x g) as HC. fold q in HC.
  set (b := rsum n (fun i => x i * g i)) in *. set (c := rsum n (fun i => g i * g i)) in *.
  assert (c < INR n * (tiny * tiny)) as Hc.
  { unfold c. replace (INR n * (tiny * tiny)) with (rsum n (fun _ => tiny * tiny)) by (rewrite rsum_const; ring).
    assert (0 < rsum n (fun i => tiny * tiny - g i * g i)) as Hp.
    { apply Rlt_le_trans with (tiny * tiny - g k * g k).
      - specialize (Hs k Hk). assert (0 <= Rabs (g k)) by apply Rabs_pos. assert (g k * g k = Rabs (g k) * Rabs (g k)) as -> by (rewrite <- Rabs_mult; symmetry; apply Rabs_right; nra). nra.
      - apply (rsum_ge_term n (fun i => tiny * tiny - g i * g i)); auto. intros i Hi. specialize (Hs i Hi). assert (0 <= Rabs (g i)) by apply Rabs_pos.
        assert (g i * g i = Rabs (g i) * Rabs (g i)) as E2 by (rewrite <- Rabs_mult; symmetry; apply Rabs_right; nra). nra. }
    rewrite rsum_minus in Hp. lra. }
  assert (lam * q * (lam * q) <= q * c) as H1. { apply Rle_trans with (b * b); auto. apply Rmult_le_compat; nra. }
  assert (lam * lam * q <= c) as H2. { apply (Rmult_le_reg_r q). lra. nra. }
  nra.
Qed.
