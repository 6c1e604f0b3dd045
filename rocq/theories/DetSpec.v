(** The determinant of an n x n matrix of reals, by Laplace expansion along the first column, and its laws. *)
From Coq Require Import Reals Lra List Arith Lia.
From Verif Require Import Base Num RealNum RSpec.
Local Open Scope R_scope.

Definition skip (i r : nat) : nat := if Nat.ltb r i then r else S r.
Fixpoint det (n : nat) (A : nat -> nat -> R) : R :=
  match n with
  | O => 1
  | S m => rsum (S m) (fun i => (-1) ^ i * A i O * det m (fun r c => A (skip i r) (S c)))
  end.
Definition setrow (A : nat -> nat -> R) (p : nat) (u : nat -> R) : nat -> nat -> R :=
  fun i j => if Nat.eqb i p then u j else A i j.

Lemma skip_lt i r m : (i <= m)%nat -> (r < m)%nat -> (skip i r < S m)%nat.
Proof. unfold skip. destruct (Nat.ltb_spec r i); lia. Qed.
Lemma det_ext n A B : (forall i j, (i < n)%nat -> (j < n)%nat -> A i j = B i j) -> det n A = det n B.
Proof.
  revert A B. induction n; intros A B H. reflexivity. cbn [det]. apply rsum_ext. intros i Hi. rewrite (H i O) by lia. f_equal.
  apply IHn. intros r c Hr Hc. apply H. apply skip_lt; lia. lia.
Qed.

Definition unskip (i p : nat) : nat := if Nat.ltb p i then p else (p - 1)%nat.
Lemma minor_setrow A p u i : p <> i -> forall r c, setrow A p u (skip i r) (S c) = setrow (fun r c => A (skip i r) (S c)) (unskip i p) (fun j => u (S j)) r c.
Proof.
  intros Hne r c. unfold setrow, skip, unskip.
  destruct (Nat.ltb_spec r i), (Nat.ltb_spec p i).
  - auto.
  - destruct (Nat.eqb_spec r p), (Nat.eqb_spec r (p - 1)); auto; lia.
  - destruct (Nat.eqb_spec (S r) p), (Nat.eqb_spec r p); auto; lia.
  - destruct (Nat.eqb_spec (S r) p), (Nat.eqb_spec r (p - 1)); auto; lia.
Qed.
Lemma minor_setrow_same A p u : forall r c, setrow A p u (skip p r) (S c) = A (skip p r) (S c).
Proof. intros r c. unfold setrow, skip. destruct (Nat.ltb_spec r p). destruct (Nat.eqb_spec r p); auto; lia. destruct (Nat.eqb_spec (S r) p); auto; lia. Qed.

Lemma det_linear n : forall A p u v a b, (p < n)%nat ->
  det n (setrow A p (fun j => a * u j + b * v j)) = a * det n (setrow A p u) + b * det n (setrow A p v).
Proof.
  induction n; intros A p u v a b Hp. lia.
  cbn [det]. rewrite <- !rsum_scal, <- rsum_plus. apply rsum_ext. intros i Hi.
  destruct (Nat.eq_dec p i) as [->|Hne].
  - rewrite (det_ext n _ (fun r c => A (skip i r) (S c))) by (intros; apply minor_setrow_same).
    rewrite (det_ext n (fun r c => setrow A i u (skip i r) (S c)) (fun r c => A (skip i r) (S c))) by (intros; apply minor_setrow_same).
    rewrite (det_ext n (fun r c => setrow A i v (skip i r) (S c)) (fun r c => A (skip i r) (S c))) by (intros; apply minor_setrow_same).
    unfold setrow. rewrite Nat.eqb_refl. ring.
  - rewrite (det_ext n (fun r c => setrow A p (fun j => a * u j + b * v j) (skip i r) (S c))
       (setrow (fun r c => A (skip i r) (S c)) (unskip i p) (fun j => a * u (S j) + b * v (S j)))).
    2:{ intros; rewrite minor_setrow by auto; auto. }
    rewrite (det_ext n (fun r c => setrow A p u (skip i r) (S c)) (setrow (fun r c => A (skip i r) (S c)) (unskip i p) (fun j => u (S j)))).
    2:{ intros; rewrite minor_setrow by auto; auto. }
    rewrite (det_ext n (fun r c => setrow A p v (skip i r) (S c)) (setrow (fun r c => A (skip i r) (S c)) (unskip i p) (fun j => v (S j)))).
    2:{ intros; rewrite minor_setrow by auto; auto. }
    rewrite (IHn _ _ (fun j => u (S j)) (fun j => v (S j)) a b). 2:{ unfold unskip. destruct (Nat.ltb_spec p i); lia. }
    assert (forall w, setrow A p w i O = A i O) as E by (intros; unfold setrow; destruct (Nat.eqb_spec i p); auto; lia).
    rewrite !E. ring.
Qed.

Lemma det_adjacent n : forall A p, (S p < n)%nat -> (forall j, (j < n)%nat -> A p j = A (S p) j) -> det n A = 0.
Proof.
  induction n; intros A p Hp He. lia. cbn [det].
  rewrite (rsum_ext (S n) _ (fun i => (if Nat.eqb i p then (-1) ^ p * A p O * det n (fun r c => A (skip p r) (S c)) else 0)
     + (if Nat.eqb i (S p) then - ((-1) ^ p * A p O * det n (fun r c => A (skip p r) (S c))) else 0))).
  - rewrite rsum_plus. rewrite (rsum_single (S n) p), (rsum_single (S n) (S p)); try lia.
    + rewrite !Nat.eqb_refl. lra.
    + intros k Hk Hne. destruct (Nat.eqb_spec k (S p)); auto; lia.
    + intros k Hk Hne. destruct (Nat.eqb_spec k p); auto; lia.
  - intros i Hi. destruct (Nat.eqb_spec i p) as [->|Hne], (Nat.eqb_spec p (S p)); try lia. lra.
    destruct (Nat.eqb_spec i (S p)) as [->|Hne'].
    + rewrite He by lia. rewrite (det_ext n (fun r c => A (skip (S p) r) (S c)) (fun r c => A (skip p r) (S c))).
      simpl. ring.
      intros r c Hr Hc. unfold skip. destruct (Nat.ltb_spec r (S p)), (Nat.ltb_spec r p); auto; try lia.
      replace r with p by lia. apply He; lia.
    + rewrite (IHn _ (unskip i p)). ring.
      * unfold unskip. destruct (Nat.ltb_spec p i); lia.
      * intros j Hj. unfold unskip, skip.
        destruct (Nat.ltb_spec p i).
        { destruct (Nat.ltb_spec p i), (Nat.ltb_spec (S p) i); try lia. apply He; lia. }
        { destruct (Nat.ltb_spec (p - 1) i), (Nat.ltb_spec (S (p - 1)) i); try lia. replace (S (p - 1)) with p by lia. apply He; lia. }
Qed.
Lemma det_identity n : det n delta = 1.
Proof.
  induction n. reflexivity. cbn [det]. rewrite (rsum_single (S n) 0); try lia.
  - rewrite (det_ext n _ delta). rewrite IHn. unfold delta; simpl; ring. intros r c Hr Hc. unfold skip, delta. simpl. auto.
  - intros k Hk Hne. unfold delta. destruct (Nat.eqb_spec k 0); try lia. ring.
Qed.

Lemma setrow_id A p : forall i j, setrow A p (A p) i j = A i j.
Proof. intros. unfold setrow. destruct (Nat.eqb_spec i p); subst; auto. Qed.
Lemma det_row_sum n A p u v : (p < n)%nat -> det n (setrow A p (fun j => u j + v j)) = det n (setrow A p u) + det n (setrow A p v).
Proof.
  intros. rewrite <- (Rmult_1_l (det n (setrow A p u))), <- (Rmult_1_l (det n (setrow A p v))), <- det_linear by auto.
  apply det_ext. intros. unfold setrow. destruct (Nat.eqb i p); auto. lra.
Qed.
Lemma det_row_scale n A p u a : (p < n)%nat -> det n (setrow A p (fun j => a * u j)) = a * det n (setrow A p u).
Proof.
  intros. replace (a * det n (setrow A p u)) with (a * det n (setrow A p u) + 0 * det n (setrow A p u)) by lra.
  rewrite <- det_linear by auto. apply det_ext. intros. unfold setrow. destruct (Nat.eqb i p); auto. lra.
Qed.

(** exchange of rows p and q *)
Definition swaprows (A : nat -> nat -> R) (p q : nat) : nat -> nat -> R :=
  fun i j => if Nat.eqb i p then A q j else if Nat.eqb i q then A p j else A i j.

Lemma swap_from_alternating n A p q : (p < n)%nat -> (q < n)%nat -> p <> q ->
  (forall B, (forall j, (j < n)%nat -> B p j = B q j) -> det n B = 0) -> det n (swaprows A p q) = - det n A.
Proof.
  intros Hp Hq Hne H.
  pose (B := fun u v => setrow (setrow A p u) q v).
  assert (forall u v w, det n (B (fun j => u j + v j) w) = det n (B u w) + det n (B v w)) as L1.
  { intros u v w. unfold B.
    rewrite (det_ext n _ (setrow (setrow A q w) p (fun j => u j + v j))), (det_ext n (setrow (setrow A p u) q w) (setrow (setrow A q w) p u)),
      (det_ext n (setrow (setrow A p v) q w) (setrow (setrow A q w) p v)).
    apply det_row_sum; auto.
    all: intros i j Hi Hj; unfold setrow; destruct (Nat.eqb_spec i p), (Nat.eqb_spec i q); auto; lia. }
  assert (forall u v w, det n (B w (fun j => u j + v j)) = det n (B w u) + det n (B w v)) as L2.
  { intros u v w. unfold B. apply det_row_sum; auto. }
  assert (forall u, det n (B u u) = 0) as Z.
  { intros u. apply H. intros j Hj. unfold B, setrow. rewrite !Nat.eqb_refl. destruct (Nat.eqb_spec p q); auto. }
  pose proof (Z (fun j => A p j + A q j)) as X. rewrite L1, !L2 in X.
  change (det n (B (fun j => A p j) (fun j => A p j))) with (det n (B (A p) (A p))) in X.
  change (det n (B (fun j => A q j) (fun j => A q j))) with (det n (B (A q) (A q))) in X.
  rewrite !Z in X.
  rewrite (det_ext n (swaprows A p q) (B (A q) (A p))), (det_ext n A (B (A p) (A q))).
  - change (det n (B (fun j => A p j) (fun j => A q j))) with (det n (B (A p) (A q))) in X.
    change (det n (B (fun j => A q j) (fun j => A p j))) with (det n (B (A q) (A p))) in X. lra.
  - intros i j Hi Hj. unfold B, setrow. destruct (Nat.eqb_spec i q), (Nat.eqb_spec i p); subst; auto.
  - intros i j Hi Hj. unfold B, setrow, swaprows. destruct (Nat.eqb_spec i q), (Nat.eqb_spec i p); subst; auto; lia.
Qed.

Lemma det_alternating_gap n : forall d A p, (p + S d < n)%nat -> (forall j, (j < n)%nat -> A p j = A (p + S d)%nat j) -> det n A = 0.
Proof.
  induction d; intros A p Hp He.
  - apply (det_adjacent n A p). lia. intros. rewrite He by auto. f_equal; lia.
  - assert (det n (swaprows A (p + S d) (p + S (S d))) = 0) as X.
    { apply (IHd _ p). lia. intros j Hj. unfold swaprows. rewrite Nat.eqb_refl.
      destruct (Nat.eqb_spec p (p + S d)), (Nat.eqb_spec p (p + S (S d))); try lia. apply He; auto. }
    rewrite swap_from_alternating in X; try lia. lra.
    intros B HB. apply (det_adjacent n B (p + S d)). lia. intros j Hj. rewrite HB by auto. f_equal; lia.
Qed.
Lemma det_alternating n A p q : (p < n)%nat -> (q < n)%nat -> p <> q -> (forall j, (j < n)%nat -> A p j = A q j) -> det n A = 0.
Proof.
  intros Hp Hq Hne He. destruct (Nat.lt_ge_cases p q).
  - apply (det_alternating_gap n (q - p - 1) A p). lia. intros. rewrite He by auto. f_equal; lia.
  - apply (det_alternating_gap n (p - q - 1) A q). lia. intros. rewrite <- He by auto. f_equal; lia.
Qed.
Lemma det_swap n A p q : (p < n)%nat -> (q < n)%nat -> p <> q -> det n (swaprows A p q) = - det n A.
Proof. intros. apply swap_from_alternating; auto. intros B HB. apply (det_alternating n B p q); auto. Qed.

(** adding a linear combination of other rows *)
Lemma det_row_comb n A p (c : nat -> R) : forall m, (m <= n)%nat -> (p < n)%nat -> (forall k, (k < m)%nat -> k = p -> c k = 0) ->
  forall u, det n (setrow A p (fun j => rsum m (fun k => c k * A k j) + u j)) = det n (setrow A p u).
Proof.
  induction m; intros Hm Hp Hc u.
  - apply det_ext. intros. unfold setrow. destruct (Nat.eqb i p); auto. simpl; lra.
  - rewrite (det_ext n _ (setrow A p (fun j => rsum m (fun k => c k * A k j) + (c m * A m j + u j)))).
    2:{ intros. unfold setrow. destruct (Nat.eqb i p); auto. simpl; lra. }
    rewrite IHm by (try lia; intros; apply Hc; lia). rewrite det_row_sum, det_row_scale by auto.
    destruct (Nat.eq_dec m p) as [E|E]. rewrite (Hc m) by lia. lra.
    rewrite (det_alternating n (setrow A p (A m)) p m); try lia. lra.
    intros j Hj. unfold setrow. rewrite Nat.eqb_refl. destruct (Nat.eqb_spec m p); auto; lia.
Qed.

Fixpoint rprod (n : nat) (f : nat -> R) : R := match n with O => 1 | S k => rprod k f * f k end.
Lemma rprod_ext n f g : (forall k, (k < n)%nat -> f k = g k) -> rprod n f = rprod n g.
Proof. intros H; induction n; simpl; auto. rewrite IHn, H; auto. Qed.

(** det (L B) = prod of the diagonal of L times det B, L lower triangular *)
Lemma det_lower_mul n (Lo B : nat -> nat -> R) : (forall i j, (i < n)%nat -> (j < n)%nat -> (i < j)%nat -> Lo i j = 0) ->
  det n (mm n Lo B) = rprod n (fun i => Lo i i) * det n B.
Proof.
  intros Hz.
  pose (X := fun k i j => if Nat.ltb i k then B i j else mm n Lo B i j).
  assert (forall k, (k <= n)%nat -> det n (mm n Lo B) = rprod k (fun i => Lo i i) * det n (X k)) as H.
  { induction k; intros Hk.
    - simpl. rewrite Rmult_1_l. apply det_ext. intros. unfold X. auto.
    - rewrite IHk by lia. cbn [rprod]. rewrite Rmult_assoc. f_equal.
      rewrite <- (det_ext n (setrow (X k) k (X k k)) (X k)) by (intros; apply setrow_id).
      rewrite (det_ext n _ (setrow (X k) k (fun j => rsum k (fun m => Lo k m * X k m j) + Lo k k * B k j))).
      + rewrite det_row_comb by (intros; lia). rewrite det_row_scale by lia. f_equal.
        apply det_ext. intros i j Hi Hj. unfold setrow, X. destruct (Nat.eqb_spec i k), (Nat.ltb_spec i k), (Nat.ltb_spec i (S k)); subst; auto; lia.
      + intros i j Hi Hj. unfold setrow. destruct (Nat.eqb_spec i k); auto. unfold X at 1. rewrite Nat.ltb_irrefl. unfold mm.
        replace n with (S k + (n - S k))%nat at 1 by lia. rewrite rsum_split, (rsum_0 (n - S k)).
        2:{ intros m Hm. rewrite Hz by lia. lra. }
        cbn [rsum]. rewrite Rplus_0_r. f_equal. apply rsum_ext. intros m Hm. unfold X. destruct (Nat.ltb_spec m k); auto; lia. }
  rewrite (H n) by lia. f_equal. apply det_ext. intros i j Hi Hj. unfold X. destruct (Nat.ltb_spec i n); auto; lia.
Qed.
(** determinant of an upper triangular matrix *)
Lemma det_upper n (U : nat -> nat -> R) : (forall i j, (i < n)%nat -> (j < n)%nat -> (j < i)%nat -> U i j = 0) ->
  det n U = rprod n (fun i => U i i).
Proof.
  revert U. induction n; intros U Hz. reflexivity.
  cbn [det]. rewrite (rsum_single (S n) 0); try lia.
  - rewrite IHn. 2:{ intros i j Hi Hj Hlt. unfold skip. simpl. apply Hz; lia. }
    unfold skip. simpl. clear. rewrite Rmult_1_l.
    assert (forall f, rprod (S n) f = f O * rprod n (fun k => f (S k))) as X.
    { induction n; intros f. simpl; lra. rewrite <- Nat.add_1_r. replace (S n + 1)%nat with (S (S n)) by lia.
      cbn [rprod] in *. rewrite IHn. cbn [rprod]. lra. }
    specialize (X (fun i => U i i)). cbn [rprod] in X. rewrite X. auto.
  - intros k Hk Hne. rewrite (Hz k 0%nat) by lia. ring.
Qed.
Lemma det_lower n (Lo : nat -> nat -> R) : (forall i j, (i < n)%nat -> (j < n)%nat -> (i < j)%nat -> Lo i j = 0) ->
  det n Lo = rprod n (fun i => Lo i i).
Proof.
  intros Hz. rewrite <- (det_ext n (mm n Lo delta) Lo).
  - rewrite det_lower_mul, det_identity by auto. lra.
  - intros i j Hi Hj. unfold mm. rewrite (rsum_single n j); auto. unfold delta. rewrite Nat.eqb_refl. lra.
    intros k Hk Hne. unfold delta. destruct (Nat.eqb_spec k j); try lia. lra.
Qed.
