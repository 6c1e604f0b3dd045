(** Inversion, failure on singular matrices, and the absolute pivot threshold. *)
From Coq Require Import Reals Lra List Arith Lia ZArith Bool Permutation.
From Verif Require Import Base Num RealNum RSpec DetSpec VecModel MatModel MatLemmas CholProofs MatReal LuProofs.
Import ListNotations.
Local Open Scope R_scope.

Lemma mat_invert_shape A : isq A (nrows A) -> (0 < nrows A)%nat ->
  mat_invert A = match lu_decomposition A (nrows A) with
      | None => Throw RuntimeError
      | Some (LU, p) =>
          Ok (loop (nrows A) (fun i inv =>
                let col := lu_backward LU (lu_forward LU p (upd (repeat n0 (nrows A)) i n1) (nrows A)) (nrows A) in
                loop (nrows A) (fun j a => mset a j i (vget col j)) inv) (mat_zero (nrows A) (nrows A)))
      end.
Proof.
  intros (W & _ & Hc) Hn. unfold mat_invert. rewrite Hc, Nat.eqb_refl. simpl negb. cbv iota.
  destruct (Nat.eqb_spec (nrows A) 0); [lia|]. reflexivity.
Qed.

Lemma fill_cols n (col : nat -> list R) :
  is_mat (loop n (fun i inv => loop n (fun j a => mset a j i (vget (col i) j)) inv) (mat_zero n n)) n n (fun j i => vget (col i) j).
Proof.
  set (f := fun i inv => loop n (fun j (a : mat R) => mset a j i (vget (col i) j)) inv).
  set (P := fun k (m : mat R) => wf m /\ nrows m = n /\ ncols m = n /\ forall a b, (a < n)%nat -> (b < k)%nat -> mget m a b = vget (col b) a).
  assert (P n (loop n f (mat_zero n n))) as H; [|exact H].
  apply loop_inv.
  - split. apply mat_zero_wf. split; auto. split; auto. intros; lia.
  - intros k m Hk (W & Hr & Hc & He). unfold f.
    set (Q := fun l (a : mat R) => wf a /\ nrows a = n /\ ncols a = n /\ (forall x y, (x < n)%nat -> (y < k)%nat -> mget a x y = vget (col y) x) /\
        (forall x, (x < l)%nat -> mget a x k = vget (col k) x)).
    assert (Q n (loop n (fun j (a : mat R) => mset a j k (vget (col k) j)) m)) as (Q1 & Q2 & Q3 & Q4 & Q5).
    { apply loop_inv. repeat split; auto. intros; lia.
      intros l a Hl (A1 & A2 & A3 & A4 & A5). split. apply mset_wf; auto. split; auto. split; auto. split.
      - intros x y Hx Hy. rewrite mget_mset by (auto; lia). destruct (Nat.eqb_spec l x), (Nat.eqb_spec k y); simpl; try lia; apply A4; auto.
      - intros x Hx. rewrite mget_mset by (auto; lia). rewrite Nat.eqb_refl, Bool.andb_true_r. destruct (Nat.eqb_spec l x). subst; auto. apply A5; lia. }
    split; auto. split; auto. split; auto. intros a b Ha Hb. destruct (Nat.eq_dec b k). subst; auto. apply Q4; auto; lia.
Qed.

Lemma unit_vec n i k : (i < n)%nat -> (k < n)%nat -> vget (upd (repeat (@n0 R RNum) n) i n1) k = delta k i.
Proof.
  intros Hi Hk. unfold vget. rewrite nth_upd by (rewrite repeat_length; lia). unfold delta.
  destruct (Nat.eqb_spec k i), (Nat.eqb_spec i k); try lia; auto. apply nth_repeat.
Qed.

Lemma mat_invert_ok A B : isq A (nrows A) -> mat_invert A = Ok B ->
  isq B (nrows A) /\ forall i j, (i < nrows A)%nat -> (j < nrows A)%nat -> mm (nrows A) (mget A) (mget B) i j = delta i j.
Proof.
  intros Hq E. destruct (Nat.eq_dec (nrows A) 0) as [Hz|Hz].
  { unfold mat_invert in E. rewrite Hz in E. destruct (Nat.eqb 0 (ncols A)); simpl in E; discriminate. }
  rewrite mat_invert_shape in E by (auto; lia). pose proof (lu_decomposition_ok A Hq) as H.
  destruct (lu_decomposition A (nrows A)) as [[lu p]|]; [|discriminate].
  set (n := nrows A) in *.
  set (col := fun i => lu_backward lu (lu_forward lu p (upd (repeat (@n0 R RNum) n) i n1) n) n).
  destruct (fill_cols n col) as (F1 & F2 & F3 & F4).
  assert (B = loop n (fun i inv => loop n (fun j a => mset a j i (vget (col i) j)) inv) (mat_zero n n)) as ->.
  { injection E as <-. reflexivity. }
  split. split; auto.
  intros i j Hi Hj. unfold mm. destruct (lu_solve_ok A n lu p (upd (repeat (@n0 R RNum) n) j n1) H) as [S1 S2].
  rewrite <- (unit_vec n j i) by auto. rewrite <- (S2 i Hi). unfold mv. apply rsum_ext. intros k Hk. rewrite F4 by auto. reflexivity.
Qed.

Lemma mat_invert_fails A : isq A (nrows A) -> (0 < nrows A)%nat -> lu_decomposition A (nrows A) = None -> mat_invert A = Throw RuntimeError.
Proof. intros Hq Hn E. rewrite mat_invert_shape by auto. rewrite E. auto. Qed.
Lemma mat_invert_succeeds A x : isq A (nrows A) -> (0 < nrows A)%nat -> lu_decomposition A (nrows A) = Some x -> exists B, mat_invert A = Ok B.
Proof. intros Hq Hn E. rewrite mat_invert_shape by auto. rewrite E. destruct x. eauto. Qed.

Lemma lu_singular_fails A : isq A (nrows A) -> singular (nrows A) (mget A) -> lu_decomposition A (nrows A) = None.
Proof.
  intros Hq Hs. pose proof (lu_decomposition_ok A Hq) as H. destruct (lu_decomposition A (nrows A)) as [[lu p]|]; auto.
  exfalso. exact (lu_nonsingular A (nrows A) lu p H Hs).
Qed.

(** A*B = I makes A nonsingular, and then B*A = I too *)
Lemma right_inverse_nonsingular_left n (A B : nat -> nat -> R) :
  (forall i j, (i < n)%nat -> (j < n)%nat -> mm n A B i j = delta i j) ->
  ~ singular n A ->
  forall i j, (i < n)%nat -> (j < n)%nat -> mm n B A i j = delta i j.
Proof.
  intros H Hns i j Hi Hj. destruct (Req_EM_T (mm n B A i j) (delta i j)) as [E|E]; auto. exfalso. apply Hns.
  exists (fun k => mm n B A k j - delta k j). split. exists i. split; auto. lra.
  intros k Hk. unfold mv.
  assert (rsum n (fun l => A k l * mm n B A l j) = A k j) as X.
  { rewrite (rsum_ext n _ (fun l => rsum n (fun m => A k l * B l m * A m j))).
    2:{ intros l Hl. unfold mm. rewrite <- rsum_scal. apply rsum_ext. intros; lra. }
    rewrite rsum_swap. rewrite (rsum_ext n _ (fun m => delta k m * A m j)).
    2:{ intros m Hm. rewrite rsum_scal_r. f_equal. apply H; auto. }
    rewrite (rsum_single n k); auto. unfold delta. rewrite Nat.eqb_refl. lra.
    intros m Hm Hne. unfold delta. destruct (Nat.eqb_spec k m); try lia. lra. }
  rewrite (rsum_ext n _ (fun l => A k l * mm n B A l j - A k l * delta l j)). 2:{ intros; lra. }
  rewrite rsum_minus, X. rewrite (rsum_single n j); auto.
  unfold delta. rewrite Nat.eqb_refl. lra.
  intros m Hm Hne. unfold delta. destruct (Nat.eqb_spec m j); try lia. lra.
Qed.

(** *** C23: any matrix whose first column is below the threshold is rejected *)
Lemma lu_small_column A : isq A (nrows A) -> (0 < nrows A)%nat -> (forall i, (i < nrows A)%nat -> Rabs (mget A i 0) < tiny) ->
  lu_decomposition A (nrows A) = None.
Proof.
  intros Hq Hn Hs. pose proof (lu_decomposition_ok A Hq) as H. destruct (lu_decomposition A (nrows A)) as [[lu p]|]; auto.
  exfalso. destruct (perm_seq_facts _ p (li_perm _ _ _ _ _ H)) as (P1 & P2 & P3).
  pose proof (li_piv _ _ _ _ _ H 0%nat Hn) as Hp. pose proof (lu_product _ _ _ _ H 0%nat 0%nat Hn Hn) as HE.
  unfold mm in HE. rewrite (rsum_single _ 0%nat) in HE; auto.
  - unfold lo, up in HE. simpl in HE. rewrite Rmult_1_l in HE. rewrite <- HE in Hp. specialize (Hs (nth 0 p 0%nat)).
    assert (nth 0 p 0%nat < nrows A)%nat by (apply P2; lia). specialize (Hs H0). lra.
  - intros k Hk Hne. unfold lo. destruct (Nat.ltb_spec k 0), (Nat.eqb_spec k 0); try lia. lra.
Qed.
