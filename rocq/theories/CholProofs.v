(** Cholesky factorisation and triangular solves over the reals. *)
From Coq Require Import Reals Lra List Arith Lia ZArith Bool.
From Verif Require Import Base Num RealNum RSpec VecModel MatModel MatLemmas MatSpec VecProofs2 MatProofs2.
Import ListNotations.
Local Open Scope R_scope.

(** *** the factorisation loop *)
(** entries computed so far: rows < i, and columns < j of row i *)
Definition cdone (i j a b : nat) : Prop := (b <= a)%nat /\ ((a < i)%nat \/ (a = i /\ b < j)%nat).
Definition cfac (A L : mat R) (a : nat) : R := mget A a a - rsum a (fun k => mget L a k * mget L a k).
Definition cent (A L : mat R) (a b : nat) : Prop :=
  if Nat.eqb a b then 0 <= cfac A L a /\ mget L a a = sqrt (cfac A L a)
  else mget L a b = 1 / mget L b b * (mget A a b - rsum b (fun k => mget L a k * mget L b k)).
Definition cinv (A : mat R) (n i j : nat) (L : mat R) : Prop :=
  wf L /\ nrows L = n /\ ncols L = n /\
  (forall a b, (a < n)%nat -> (b < n)%nat -> ~ cdone i j a b -> mget L a b = 0) /\
  (forall a b, (a < n)%nat -> (b < n)%nat -> cdone i j a b -> cent A L a b).

Lemma chol_entry_step A n i j L : cinv A n i j L -> (i < n)%nat -> (j <= i)%nat ->
  match chol_entry A L i j with
  | Some L' => cinv A n i (S j) L'
  | None => i = j /\ cfac A L i < 0
  end.
Proof.
  intros (W & Hr & Hc & Hz & He) Hi Hj.
  assert (forall x, let L' := mset L i j x in
     wf L' /\ nrows L' = n /\ ncols L' = n /\
     (forall a b, (a < n)%nat -> (b < n)%nat -> mget L' a b = if (Nat.eqb i a && Nat.eqb j b)%bool then x else mget L a b)) as HS.
  { intros x L'. split. apply mset_wf; auto. split; auto. split; auto. intros a b Ha Hb. unfold L'. rewrite mget_mset by (auto; lia). auto. }
  assert (forall x, (if Nat.eqb i j then 0 <= cfac A L i /\ x = sqrt (cfac A L i)
                     else x = 1 / mget L j j * (mget A i j - rsum j (fun k => mget L i k * mget L j k))) ->
            cinv A n i (S j) (mset L i j x)) as HC.
  { intros x Hx. destruct (HS x) as (S1 & S2 & S3 & S4). split; auto. split; auto. split; auto. split.
    - intros a b Ha Hb Hnd. rewrite S4 by auto. destruct (Nat.eqb_spec i a), (Nat.eqb_spec j b); simpl.
      + exfalso. apply Hnd. unfold cdone. lia.
      + apply Hz; auto. unfold cdone in *; lia.
      + apply Hz; auto. unfold cdone in *; lia.
      + apply Hz; auto. unfold cdone in *; lia.
    - intros a b Ha Hb Hd.
      assert (forall k, (k < b)%nat -> mget (mset L i j x) a k = mget L a k) as Ea.
      { intros k Hk. rewrite S4 by lia. destruct (Nat.eqb_spec i a), (Nat.eqb_spec j k); simpl; auto. exfalso. unfold cdone in Hd. lia. }
      assert (forall k, (k < b)%nat -> mget (mset L i j x) b k = mget L b k) as Eb.
      { intros k Hk. rewrite S4 by lia. destruct (Nat.eqb_spec i b), (Nat.eqb_spec j k); simpl; auto. exfalso. unfold cdone in Hd. lia. }
      assert (rsum b (fun k => mget (mset L i j x) a k * mget (mset L i j x) b k) = rsum b (fun k => mget L a k * mget L b k)) as Es
        by (apply rsum_ext; intros k Hk; rewrite Ea, Eb by auto; auto).
      destruct (Nat.eqb_spec i a) as [Eia|Eia], (Nat.eqb_spec j b) as [Ejb|Ejb].
      + subst a b. unfold cent. destruct (Nat.eqb_spec i j) as [Eij|Eij].
        * subst j. assert (cfac A (mset L i i x) i = cfac A L i) as ->.
          { unfold cfac. f_equal. apply rsum_ext. intros k Hk. rewrite !Ea by auto. auto. }
          rewrite S4 by auto. rewrite Nat.eqb_refl. simpl. auto.
        * rewrite S4 by auto. rewrite !Nat.eqb_refl. simpl andb. cbv iota.
          rewrite S4 by auto. destruct (Nat.eqb_spec i j); try lia. simpl andb; cbv iota. rewrite Hx at 1. f_equal. f_equal.
          apply rsum_ext. intros k Hk. rewrite Ea, Eb by auto. auto.
      + assert (cdone i j a b) as Hd' by (unfold cdone in *; lia).
        specialize (He a b Ha Hb Hd'). unfold cent in *. destruct (Nat.eqb_spec a b) as [Eab|Eab].
        * subst b. assert (cfac A (mset L i j x) a = cfac A L a) as ->.
          { unfold cfac. f_equal. apply rsum_ext. intros k Hk. rewrite !Ea by auto. auto. }
          rewrite S4 by auto. destruct (Nat.eqb_spec i a), (Nat.eqb_spec j a); simpl; auto; lia.
        * rewrite Es. rewrite !S4 by lia.
          destruct (Nat.eqb_spec i a), (Nat.eqb_spec j b), (Nat.eqb_spec i b); simpl; try lia; auto.
      + subst j. assert (cdone i b a b) as Hd' by (unfold cdone in *; lia).
        specialize (He a b Ha Hb Hd'). unfold cent in *. destruct (Nat.eqb_spec a b) as [Eab|Eab].
        * subst b. assert (cfac A (mset L i a x) a = cfac A L a) as ->.
          { unfold cfac. f_equal. apply rsum_ext. intros k Hk. rewrite !Ea by auto. auto. }
          rewrite S4 by auto. destruct (Nat.eqb_spec i a), (Nat.eqb_spec a a); simpl; auto; lia.
        * rewrite Es. rewrite !S4 by lia. unfold cdone in Hd.
          destruct (Nat.eqb_spec i a), (Nat.eqb_spec b b), (Nat.eqb_spec i b); simpl; try lia; auto.
      + assert (cdone i j a b) as Hd' by (unfold cdone in *; lia).
        specialize (He a b Ha Hb Hd'). unfold cent in *. destruct (Nat.eqb_spec a b) as [Eab|Eab].
        * subst b. assert (cfac A (mset L i j x) a = cfac A L a) as ->.
          { unfold cfac. f_equal. apply rsum_ext. intros k Hk. rewrite !Ea by auto. auto. }
          rewrite S4 by auto. destruct (Nat.eqb_spec i a), (Nat.eqb_spec j a); simpl; auto; lia.
        * rewrite Es. rewrite !S4 by lia.
          destruct (Nat.eqb_spec i a), (Nat.eqb_spec j b), (Nat.eqb_spec i b); simpl; try lia; auto. }
  unfold chol_entry. rewrite nsum_rsum.
  destruct (Nat.eqb_spec i j) as [Eij|Eij].
  - subst j. change (mget A i i -! rsum i (fun k => mget L i k *! mget L i k)) with (cfac A L i).
    change (@n0 R RNum) with 0. change (@nltb R RNum) with Rltb. destruct (Rltb_spec (cfac A L i) 0). auto.
    apply HC. split; auto; lra.
  - apply HC. reflexivity.
Qed.

Lemma cinv_row A n i L : cinv A n i (S i) L -> cinv A n (S i) 0 L.
Proof.
  intros (W & Hr & Hc & Hz & He). repeat split; auto.
  - intros a b Ha Hb Hnd. apply Hz; auto. unfold cdone in *; lia.
  - intros a b Ha Hb Hnd. apply He; auto. unfold cdone in *; lia.
Qed.

Lemma chol_loop_ok A n :
  match chol_loop A n with
  | Some L => cinv A n n 0 L
  | None => exists i L, (i < n)%nat /\ cinv A n i i L /\ cfac A L i < 0
  end.
Proof.
  unfold chol_loop.
  apply (loop_inv (fun i st => match st with Some L => cinv A n i 0 L
                     | None => exists i L, (i < n)%nat /\ cinv A n i i L /\ cfac A L i < 0 end)).
  - split. apply mat_zero_wf. split; auto. split; auto. split. intros a b Ha Hb _; exact (mget_zero n n a b Ha Hb). unfold cdone; intros; lia.
  - intros i st Hi Hst. unfold chol_row.
    assert (match loop (i + 1) (fun j st => match st with None => None | Some L => chol_entry A L i j end) st with
      | Some L => cinv A n i (i + 1) L | None => exists i L, (i < n)%nat /\ cinv A n i i L /\ cfac A L i < 0 end) as H.
    { apply (loop_inv (fun j st => match st with Some L => cinv A n i j L
                     | None => exists i L, (i < n)%nat /\ cinv A n i i L /\ cfac A L i < 0 end)).
      - exact Hst.
      - intros j t Hj Ht. destruct t as [L|]; auto.
        pose proof (chol_entry_step A n i j L Ht Hi ltac:(lia)) as X. destruct (chol_entry A L i j); auto.
        destruct X as [<- X]. exists i, L. auto. }
    destruct (loop _ _ _); auto. apply cinv_row. replace (S i) with (i + 1)%nat by lia. auto.
Qed.

Lemma zero_upper_id L n : wf L -> nrows L = n -> ncols L = n ->
  wf (zero_upper L) /\ nrows (zero_upper L) = n /\ ncols (zero_upper L) = n /\
  forall a b, (a < n)%nat -> (b < n)%nat -> mget (zero_upper L) a b = if Nat.ltb a b then 0 else mget L a b.
Proof.
  intros W Hr Hc. unfold zero_upper.
  rewrite Hr, Hc.
  pose (P := fun i (M : mat R) => wf M /\ nrows M = n /\ ncols M = n /\
     forall a b, (a < n)%nat -> (b < n)%nat -> mget M a b = if (Nat.ltb a b && Nat.ltb a i)%bool then 0 else mget L a b).
  assert (P n (loop n (fun i a => loop_from (i + 1) n (fun j b => mset b i j n0) a) L)) as H.
  { apply loop_inv.
    - split; auto. split; auto. split; auto. intros. rewrite andb_false_r; auto.
    - intros i M Hi (A & B & C & D).
      pose (Q := fun j (M' : mat R) => wf M' /\ nrows M' = n /\ ncols M' = n /\
        forall a b, (a < n)%nat -> (b < n)%nat -> mget M' a b = if (Nat.ltb i b && Nat.ltb b j && Nat.eqb a i)%bool then 0 else mget M a b).
      assert (Q n (loop_from (i + 1) n (fun j b => mset b i j n0) M)) as HQ.
      { apply loop_from_inv. lia.
        - split; auto. split; auto. split; auto. intros. destruct (Nat.ltb_spec i b), (Nat.ltb_spec b (i+1)); simpl; auto; lia.
        - intros j M' Hj (A' & B' & C' & D'). split. apply mset_wf; auto. split; auto. split; auto.
          intros a b Ha Hb. rewrite mget_mset by (auto; lia). rewrite D' by auto.
          destruct (Nat.eqb_spec i a), (Nat.eqb_spec j b), (Nat.ltb_spec i b), (Nat.ltb_spec b j), (Nat.ltb_spec b (S j)), (Nat.eqb_spec a i); simpl; auto; lia. }
      destruct HQ as (A' & B' & C' & D'). split; auto. split; auto. split; auto. intros a b Ha Hb. rewrite D', D by auto.
      destruct (Nat.ltb_spec i b), (Nat.ltb_spec b n), (Nat.eqb_spec a i), (Nat.ltb_spec a b), (Nat.ltb_spec a i), (Nat.ltb_spec a (S i)); simpl; auto; lia. }
  destruct H as (A & B & C & D). split; auto. split; auto. split; auto.
  intros a b Ha Hb. rewrite D by auto. destruct (Nat.ltb_spec a n); try lia. rewrite andb_true_r; auto.
Qed.

(** *** what the factorisation returns *)
Lemma cholesky_cases A : nrows A = ncols A ->
  (exists L, mat_cholesky A = Ok (Some L) /\ cinv A (nrows A) (nrows A) 0 L) \/
  (mat_cholesky A = Ok None /\ exists i L, (i < nrows A)%nat /\ cinv A (nrows A) i i L /\ cfac A L i < 0).
Proof.
  intros Hsq. unfold mat_cholesky. rewrite Hsq, Nat.eqb_refl. cbn [negb]. rewrite <- Hsq.
  pose proof (chol_loop_ok A (nrows A)) as H. destruct (chol_loop A (nrows A)) as [L|].
  - left. exists (zero_upper L). split; auto. destruct H as (W & Hr & Hc & Hz & He).
    destruct (zero_upper_id L (nrows A) W Hr Hc) as (Z1 & Z2 & Z3 & Z4).
    assert (zero_upper L = L) as ->.
    { apply mat_ext; auto; try lia. intros a b Ha Hb. rewrite Z4 by lia. destruct (Nat.ltb_spec a b); auto.
      symmetry; apply Hz; try lia. unfold cdone; lia. }
    repeat split; auto.
  - right. split; auto.
Qed.

Lemma rsum_trunc n m f : (m <= n)%nat -> (forall k, (m <= k < n)%nat -> f k = 0) -> rsum n f = rsum m f.
Proof.
  intros Hm H. replace n with (m + (n - m))%nat by lia. rewrite rsum_split, (rsum_0 (n - m)). lra. intros; apply H; lia.
Qed.

(** entry equations in product form *)
Lemma cent_prod A L n i j a b : cinv A n i j L -> (a < n)%nat -> (b <= a)%nat -> cdone i j a b ->
  (a <> b -> mget L b b <> 0) ->
  rsum (S b) (fun k => mget L a k * mget L b k) = mget A a b.
Proof.
  intros (W & Hr & Hc & Hz & He) Ha Hb Hd Hnz. specialize (He a b Ha ltac:(lia) Hd). unfold cent in He. cbn [rsum].
  destruct (Nat.eqb_spec a b).
  - subst b. destruct He as [F1 F2]. rewrite F2, sqrt_sqrt by auto. unfold cfac. lra.
  - specialize (Hnz n0). rewrite He. field. auto.
Qed.

(** *** triangular solves *)
Lemma forward_ok L (b : list R) n : (forall i, (i < n)%nat -> mget L i i <> 0) ->
  length (chol_forward L b n) = n /\
  forall i, (i < n)%nat -> rsum (S i) (fun j => mget L i j * vget (chol_forward L b n) j) = vget b i.
Proof.
  intros Hd. unfold chol_forward.
  pose (P := fun k (y : list R) => length y = n /\ forall i, (i < k)%nat -> rsum (S i) (fun j => mget L i j * vget y j) = vget b i).
  apply (loop_inv P).
  - split. apply repeat_length. intros; lia.
  - intros k y Hk [Hl H]. split. rewrite upd_length; auto.
    assert (forall x j, vget (upd y k x) j = if Nat.eqb k j then x else vget y j) as HU by (intros; apply vget_upd; lia).
    intros i Hi. destruct (Nat.eq_dec i k) as [->|Hne].
    + cbn [rsum]. rewrite HU, Nat.eqb_refl.
      rewrite (rsum_ext k _ (fun j => mget L k j * vget y j)).
      2:{ intros j Hj. rewrite HU. destruct (Nat.eqb_spec k j); auto; lia. }
      rewrite nsum_rsum. simpl. field. apply Hd; auto.
    + rewrite <- (H i) by lia. apply rsum_ext. intros j Hj. rewrite HU. destruct (Nat.eqb_spec k j); auto; lia.
Qed.
Lemma backward_ok L (y : list R) n : (forall i, (i < n)%nat -> mget L i i <> 0) ->
  length (chol_backward L y n) = n /\
  forall i, (i < n)%nat -> rsum (n - i) (fun d => mget L (i + d) i * vget (chol_backward L y n) (i + d)) = vget y i.
Proof.
  intros Hd. unfold chol_backward.
  pose (P := fun k (x : list R) => length x = n /\ forall i, (k <= i < n)%nat -> rsum (n - i) (fun d => mget L (i + d) i * vget x (i + d)) = vget y i).
  assert (P 0%nat (loop_down n (fun i x => upd x i ((vget y i -! nsum (n - (i + 1)) (fun d => mget L (i + 1 + d) i *! vget x (i + 1 + d)))
                                     /! mget L i i)) (repeat n0 n))) as H.
  { apply loop_down_inv.
    - split. apply repeat_length. intros; lia.
    - intros k x Hk [Hl H]. split. rewrite upd_length; auto.
      assert (forall v j, vget (upd x k v) j = if Nat.eqb k j then v else vget x j) as HU by (intros; apply vget_upd; lia).
      intros i Hi. destruct (Nat.eq_dec i k) as [->|Hne].
      + replace (n - k)%nat with (S (n - (k + 1)))%nat by lia. rewrite rsum_S_l. rewrite Nat.add_0_r, HU, Nat.eqb_refl.
        rewrite (rsum_ext (n - (k + 1)) _ (fun d => mget L (k + 1 + d) k * vget x (k + 1 + d))).
        2:{ intros d Hdd. rewrite HU. destruct (Nat.eqb_spec k (k + S d)); try lia. f_equal; f_equal; lia. }
        rewrite nsum_rsum. simpl. field. apply Hd; auto.
      + rewrite <- (H i) by lia. apply rsum_ext. intros d Hdd. rewrite HU. destruct (Nat.eqb_spec k (i + d)); auto; lia. }
  destruct H as [H1 H2]. split; auto. intros; apply H2; lia.
Qed.

(** L^T x = y for every y *)
Lemma backward_ok' L (y : list R) n : (forall i, (i < n)%nat -> mget L i i <> 0) ->
  (forall a b, (a < n)%nat -> (b < n)%nat -> (a < b)%nat -> mget L a b = 0) ->
  forall i, (i < n)%nat -> rsum n (fun k => mget L k i * vget (chol_backward L y n) k) = vget y i.
Proof.
  intros Hd Hz i Hi. destruct (backward_ok L y n Hd) as [_ H]. rewrite <- (H i Hi).
  replace n with (i + (n - i))%nat at 1 by lia. rewrite rsum_split, rsum_0. lra.
  intros k Hk. rewrite Hz by lia. lra.
Qed.
Lemma forward_ok' L (b : list R) n : (forall i, (i < n)%nat -> mget L i i <> 0) ->
  (forall a b, (a < n)%nat -> (b < n)%nat -> (a < b)%nat -> mget L a b = 0) ->
  forall i, (i < n)%nat -> rsum n (fun k => mget L i k * vget (chol_forward L b n) k) = vget b i.
Proof.
  intros Hd Hz i Hi. destruct (forward_ok L b n Hd) as [_ H]. rewrite <- (H i Hi).
  apply rsum_trunc. lia. intros k Hk. rewrite Hz by lia. lra.
Qed.
