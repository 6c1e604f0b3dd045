(** Soundness and completeness of the Cholesky factorisation. *)
From Coq Require Import Reals Lra List Arith Lia ZArith Bool Wf_nat.
From Verif Require Import Base Num RealNum RSpec VecModel MatModel MatLemmas CholProofs.
Import ListNotations.
Local Open Scope R_scope.

Lemma cinv_upper A L n : cinv A n n 0 L -> forall a b, (a < n)%nat -> (b < n)%nat -> (a < b)%nat -> mget L a b = 0.
Proof. intros (W & Hr & Hc & Hz & He) a b Ha Hb Hab. apply Hz; auto. unfold cdone; lia. Qed.
Lemma cinv_diag A L n i j a : cinv A n i j L -> (a < n)%nat -> cdone i j a a -> 0 <= cfac A L a /\ mget L a a = sqrt (cfac A L a).
Proof. intros (W & Hr & Hc & Hz & He) Ha Hd. specialize (He a a Ha Ha Hd). unfold cent in He. rewrite Nat.eqb_refl in He. auto. Qed.
Lemma cinv_diag_nonneg A L n a : cinv A n n 0 L -> (a < n)%nat -> 0 <= mget L a a.
Proof. intros H Ha. destruct (cinv_diag A L n n 0 a H Ha) as [_ ->]. unfold cdone; lia. apply sqrt_pos. Qed.

Lemma cinv_product A L n : cinv A n n 0 L -> symmetric n (mget A) -> (forall i, (i < n)%nat -> mget L i i <> 0) ->
  forall i j, (i < n)%nat -> (j < n)%nat -> rsum n (fun k => mget L i k * mget L j k) = mget A i j.
Proof.
  intros H Hs Hd.
  assert (forall i j, (i < n)%nat -> (j <= i)%nat -> rsum n (fun k => mget L i k * mget L j k) = mget A i j) as X.
  { intros i j Hi Hj. rewrite <- (cent_prod A L n n 0 i j H Hi Hj); auto; try (unfold cdone; lia).
    apply rsum_trunc. lia. intros k Hk. rewrite (cinv_upper A L n H j k) by lia. lra. intros; apply Hd; lia. }
  intros i j Hi Hj. destruct (le_lt_dec j i). apply X; auto.
  rewrite Hs by auto. rewrite <- (X j i) by lia. apply rsum_ext. intros; lra.
Qed.

Lemma quad_gram N i (G : nat -> nat -> R) x :
  rsum N (fun a => rsum N (fun b => x a * rsum i (fun m => G a m * G b m) * x b)) =
  rsum i (fun m => rsum N (fun a => G a m * x a) * rsum N (fun a => G a m * x a)).
Proof.
  rewrite (rsum_ext i _ (fun m => rsum N (fun a => G a m * x a * rsum N (fun b => G b m * x b)))).
  2:{ intros m Hm. rewrite rsum_scal_r. auto. }
  rewrite (rsum_swap i N). apply rsum_ext. intros a Ha.
  rewrite (rsum_ext i _ (fun m => rsum N (fun b => G a m * x a * (G b m * x b)))).
  2:{ intros m Hm. rewrite rsum_scal. auto. }
  rewrite (rsum_swap i N). apply rsum_ext. intros b Hb.
  rewrite (rsum_ext i (fun m => G a m * x a * (G b m * x b)) (fun m => x a * (G a m * G b m) * x b)).
  rewrite rsum_scal_r, rsum_scal. auto. intros; lra.
Qed.

(** the Schur complement is a value of the quadratic form *)
Lemma schur_witness (A L : mat R) n i : (i < n)%nat -> symmetric n (mget A) ->
  (forall a b, (a <= i)%nat -> (b <= a)%nat -> ~ (a = i /\ b = i) -> rsum (S b) (fun k => mget L a k * mget L b k) = mget A a b) ->
  (forall a b, (a <= i)%nat -> (b <= i)%nat -> (a < b)%nat -> mget L a b = 0) ->
  (forall a, (a < i)%nat -> mget L a a <> 0) ->
  exists x, x i = 1 /\ quad n (mget A) x = cfac A L i.
Proof.
  intros Hi Hs HP Hz Hd.
  set (v := chol_backward L (vbuild i (fun k => - mget L i k)) i).
  assert (forall m, (m < i)%nat -> rsum i (fun k => mget L k m * vget v k) = - mget L i m) as Hv.
  { intros m Hm. unfold v. rewrite backward_ok'; auto. rewrite vget_vbuild; auto. intros; apply Hz; lia. }
  set (x := fun k => if Nat.ltb k i then vget v k else if Nat.eqb k i then 1 else 0).
  assert (x i = 1) as Hxi. { unfold x. rewrite Nat.ltb_irrefl, Nat.eqb_refl; auto. }
  exists x. split; auto.
  assert (forall a b, (a <= i)%nat -> (b <= i)%nat -> mget A a b = rsum i (fun m => mget L a m * mget L b m) + (if (Nat.eqb a i && Nat.eqb b i)%bool then cfac A L i else 0)) as HA.
  { assert (forall a b, (a <= i)%nat -> (b <= a)%nat -> mget A a b = rsum i (fun m => mget L a m * mget L b m) + (if (Nat.eqb a i && Nat.eqb b i)%bool then cfac A L i else 0)) as X.
    { intros a b Ha Hb. destruct (Nat.eqb_spec a i), (Nat.eqb_spec b i); simpl.
      - subst. unfold cfac. lra.
      - rewrite <- HP by lia. rewrite Rplus_0_r. symmetry. apply rsum_trunc. lia. intros k Hk. rewrite (Hz b k) by lia. lra.
      - lia.
      - rewrite <- HP by lia. rewrite Rplus_0_r. symmetry. apply rsum_trunc. lia. intros k Hk. rewrite (Hz b k) by lia. lra. }
    intros a b Ha Hb. destruct (le_lt_dec b a). auto.
    rewrite Hs by lia. rewrite X by lia. rewrite andb_comm. f_equal. apply rsum_ext. intros; lra. }
  unfold quad.
  assert (forall k, (i < k)%nat -> x k = 0) as Hx0.
  { intros k Hk. unfold x. destruct (Nat.ltb_spec k i), (Nat.eqb_spec k i); try lia. auto. }
  rewrite (rsum_trunc n (S i)); try lia. 2:{ intros a Ha. apply rsum_0. intros b Hb. rewrite (Hx0 a) by lia. lra. }
  rewrite (rsum_ext (S i) _ (fun a => rsum (S i) (fun b => x a * rsum i (fun m => mget L a m * mget L b m) * x b) + (if Nat.eqb a i then cfac A L i else 0))).
  2:{ intros a Ha. rewrite (rsum_trunc n (S i)); try lia. 2:{ intros b Hb. rewrite (Hx0 b) by lia. lra. }
      rewrite (rsum_ext (S i) _ (fun b => x a * rsum i (fun m => mget L a m * mget L b m) * x b + (if (Nat.eqb a i && Nat.eqb b i)%bool then cfac A L i else 0))).
      - rewrite rsum_plus. f_equal. rewrite (rsum_single (S i) i); [| lia | intros k Hk Hne; destruct (Nat.eqb_spec k i); [lia | rewrite andb_false_r; auto]].
        rewrite Nat.eqb_refl, andb_true_r. auto.
      - intros b Hb. rewrite HA by lia. destruct (Nat.eqb_spec a i), (Nat.eqb_spec b i); simpl; try lra. subst. rewrite Hxi. lra. }
  rewrite rsum_plus, quad_gram. rewrite (rsum_single (S i) i (fun a => if Nat.eqb a i then cfac A L i else 0)).
  2: lia. 2:{ intros k Hk Hne. destruct (Nat.eqb_spec k i); auto; lia. }
  rewrite Nat.eqb_refl. rewrite rsum_0. lra.
  intros m Hm. cbn [rsum]. rewrite Hxi.
  rewrite (rsum_ext i _ (fun k => mget L k m * vget v k)).
  rewrite Hv by auto. ring. intros k Hk. unfold x. destruct (Nat.ltb_spec k i); try lia. auto.
Qed.

(** all pivots computed so far are positive for a positive definite matrix *)
Lemma cinv_posdef A L n i j : cinv A n i j L -> symmetric n (mget A) -> posdef n (mget A) ->
  forall a, (a < n)%nat -> cdone i j a a -> 0 < mget L a a.
Proof.
  intros H Hs Hp. induction a as [a IH] using lt_wf_ind. intros Ha Hd.
  destruct (cinv_diag A L n i j a H Ha Hd) as [F1 F2]. rewrite F2. apply sqrt_lt_R0.
  destruct (schur_witness A L n a Ha Hs) as (x & X1 & X2).
  - intros a' b Ha' Hb Hne. apply (cent_prod A L n i j); auto; try lia. unfold cdone in *; lia.
    intros Hab. assert (0 < mget L b b). apply IH; try lia. unfold cdone in *; lia. lra.
  - intros a' b Ha' Hb Hlt. destruct H as (W & Hr & Hc & Hz & He). apply Hz; try lia. unfold cdone; lia.
  - intros b Hb. assert (0 < mget L b b). apply IH; try lia. unfold cdone in *; lia. lra.
  - rewrite <- X2. apply Hp. exists a. split; auto. lra.
Qed.

Lemma cholesky_complete A : nrows A = ncols A -> symmetric (nrows A) (mget A) -> posdef (nrows A) (mget A) ->
  exists L, mat_cholesky A = Ok (Some L) /\ cinv A (nrows A) (nrows A) 0 L /\ forall i, (i < nrows A)%nat -> 0 < mget L i i.
Proof.
  intros Hsq Hs Hp. destruct (cholesky_cases A Hsq) as [(L & E & H)|(E & i & L & Hi & H & Hf)].
  - exists L. split; auto. split; auto. intros i Hi. apply (cinv_posdef A L _ _ _ H); auto. unfold cdone; lia.
  - exfalso. destruct (schur_witness A L (nrows A) i Hi Hs) as (x & X1 & X2).
    + intros a' b Ha' Hb Hne. apply (cent_prod A L (nrows A) i i); auto; try lia. unfold cdone in *; lia.
      intros Hab. assert (0 < mget L b b). apply (cinv_posdef A L _ _ _ H); auto; try lia. unfold cdone in *; lia. lra.
    + intros a' b Ha' Hb Hlt. destruct H as (W & Hr & Hc & Hz & He). apply Hz; try lia. unfold cdone; lia.
    + intros b Hb. assert (0 < mget L b b). apply (cinv_posdef A L _ _ _ H); auto; try lia. unfold cdone in *; lia. lra.
    + assert (0 < quad (nrows A) (mget A) x). apply Hp. exists i. split; auto. lra. lra.
Qed.

Lemma cholesky_sound A L : symmetric (nrows A) (mget A) -> mat_cholesky A = Ok (Some L) ->
  nrows A = ncols A /\ wf L /\ nrows L = nrows A /\ ncols L = nrows A /\
  (forall i, (i < nrows A)%nat -> 0 <= mget L i i) /\
  (forall i j, (i < nrows A)%nat -> (j < nrows A)%nat -> (i < j)%nat -> mget L i j = 0) /\
  ((forall i, (i < nrows A)%nat -> mget L i i <> 0) ->
   forall i j, (i < nrows A)%nat -> (j < nrows A)%nat -> rsum (nrows A) (fun k => mget L i k * mget L j k) = mget A i j).
Proof.
  intros Hs E.
  assert (nrows A = ncols A) as Hsq. { unfold mat_cholesky in E. destruct (Nat.eqb_spec (nrows A) (ncols A)); auto; discriminate. }
  destruct (cholesky_cases A Hsq) as [(L' & E' & H)|(E' & _)]; rewrite E' in E; [|discriminate].
  assert (L' = L) by congruence. subst L'.
  split; auto. destruct H as (W & Hr & Hc & Hz & He). split; auto. split; auto. split; auto.
  assert (cinv A (nrows A) (nrows A) 0 L) as H by (split; auto).
  split. intros; apply (cinv_diag_nonneg A L (nrows A)); auto.
  split. intros; apply (cinv_upper A L (nrows A)); auto.
  intros. apply cinv_product; auto.
Qed.

(** conversely, success with non-zero pivots means positive definite *)
Lemma rsum_sq_pos n f : (exists k, (k < n)%nat /\ f k <> 0) -> 0 < rsum n (fun k => f k * f k).
Proof.
  intros [k [Hk Hf]]. assert (0 <= rsum n (fun k => f k * f k)) as [H|H]; auto.
  - apply rsum_nonneg. intros. apply Rle_0_sqr.
  - exfalso. apply Hf. assert (f k * f k = 0). apply (rsum_nonneg_0 n (fun k => f k * f k)); auto. intros; apply Rle_0_sqr. nra.
Qed.
Lemma cholesky_success_posdef A L : symmetric (nrows A) (mget A) -> mat_cholesky A = Ok (Some L) ->
  (forall i, (i < nrows A)%nat -> mget L i i <> 0) -> posdef (nrows A) (mget A).
Proof.
  intros Hs E Hd. destruct (cholesky_sound A L Hs E) as (Hsq & W & Hr & Hc & _ & Hz & HP). specialize (HP Hd).
  set (n := nrows A) in *. intros x Hx. unfold quad.
  rewrite (rsum_ext n _ (fun a => rsum n (fun b => x a * rsum n (fun m => mget L a m * mget L b m) * x b))).
  2:{ intros a Ha. apply rsum_ext. intros b Hb. rewrite HP by auto. auto. }
  rewrite quad_gram. apply rsum_sq_pos.
  (* the last non-zero entry of x *)
  assert (exists i, (i < n)%nat /\ x i <> 0 /\ forall k, (i < k)%nat -> (k < n)%nat -> x k = 0) as (i & Hi & Hxi & Hlast).
  { clear -Hx. revert Hx. generalize n as N. induction N as [|N IH]; intros [i [Hi Hxi]]. lia.
    destruct (Req_EM_T (x N) 0) as [E|E].
    - destruct IH as (i' & I1 & I2 & I3). exists i. split; auto. destruct (Nat.eq_dec i N). subst; lra. lia.
      exists i'. split. lia. split; auto. intros k Hk Hk'. destruct (Nat.eq_dec k N). subst; auto. apply I3; lia.
    - exists N. split. lia. split; auto. intros; lia. }
  exists i. split; auto. rewrite (rsum_single n i); [|auto|].
  - intros Z. apply Rmult_integral in Z. destruct Z; auto. apply (Hd i); auto.
  - intros k Hk Hne. destruct (le_lt_dec k i). rewrite Hz by lia. lra. rewrite Hlast by lia. lra.
Qed.

(** *** C19 *)
Lemma solveCholesky_ok L (b : list R) n : nrows L = n -> ncols L = n -> length b = n ->
  (forall i, (i < n)%nat -> mget L i i <> 0) ->
  (forall i j, (i < n)%nat -> (j < n)%nat -> (i < j)%nat -> mget L i j = 0) ->
  exists x, mat_solveCholesky L b = Ok x /\ length x = n /\
   forall i, (i < n)%nat -> rsum n (fun j => rsum n (fun k => mget L i k * mget L j k) * nth j x 0) = nth i b 0.
Proof.
  intros Hr Hc Hl Hd Hz. unfold mat_solveCholesky. rewrite Hr, Hc, Hl, !Nat.eqb_refl. cbn [andb negb].
  set (y := chol_forward L b n). set (x := chol_backward L y n). exists x. split; auto.
  split. apply backward_ok; auto.
  intros i Hi. change (nth i b 0) with (vget b i). rewrite <- (forward_ok' L b n Hd Hz i Hi). fold y.
  rewrite (rsum_ext n _ (fun j => rsum n (fun k => mget L i k * mget L j k * nth j x 0))).
  2:{ intros j Hj. rewrite rsum_scal_r. auto. }
  rewrite rsum_swap. apply rsum_ext. intros k Hk.
  rewrite (rsum_ext n _ (fun j => mget L i k * (mget L j k * vget x j))). 2:{ intros; unfold vget; simpl; lra. }
  rewrite rsum_scal. f_equal. apply (backward_ok' L y n Hd Hz k Hk).
Qed.
Lemma cholesky_solve A L b : symmetric (nrows A) (mget A) -> mat_cholesky A = Ok (Some L) ->
  (forall i, (i < nrows A)%nat -> mget L i i <> 0) -> length b = nrows A ->
  exists x, mat_solveCholesky L b = Ok x /\ length x = nrows A /\
    forall i, (i < nrows A)%nat -> mv (nrows A) (mget A) (fun j => nth j x 0) i = nth i b 0.
Proof.
  intros Hs E Hd Hl. destruct (cholesky_sound A L Hs E) as (Hsq & W & Hr & Hc & Hn & Hz & HP). specialize (HP Hd).
  destruct (solveCholesky_ok L b (nrows A)) as (x & X1 & X2 & X3); auto.
  exists x. split; auto. split; auto. intros i Hi. rewrite <- X3 by auto. unfold mv. apply rsum_ext. intros j Hj. rewrite HP by auto. auto.
Qed.
