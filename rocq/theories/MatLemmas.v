(** Basic facts on the array representation of vectors and matrices. *)
From Coq Require Import List Arith Lia ZArith Bool.
From Verif Require Import Base Num VecModel MatModel.
Import ListNotations.

Section Lemmas.
  Context {T : Type} `{NT : Num T}.

  Lemma vbuild_length n (f : nat -> T) : length (vbuild n f) = n.
  Proof. unfold vbuild. rewrite map_length, seq_length; auto. Qed.
  Lemma vget_vbuild n (f : nat -> T) i : i < n -> vget (vbuild n f) i = f i.
  Proof. intros. unfold vget, vbuild. rewrite nth_map_seq; auto. Qed.
  Lemma vget_vbuild_out n (f : nat -> T) i : n <= i -> vget (vbuild n f) i = n0.
  Proof. intros. unfold vget. apply nth_overflow. rewrite vbuild_length; auto. Qed.
  Lemma vec_ext (v w : vec T) : length v = length w -> (forall i, i < length v -> vget v i = vget w i) -> v = w.
  Proof. intros. eapply list_ext; eauto. Qed.
  Lemma vbuild_ext n (f g : nat -> T) : (forall i, i < n -> f i = g i) -> vbuild n f = vbuild n g.
  Proof.
    intros. apply vec_ext; rewrite !vbuild_length; auto. intros; rewrite !vget_vbuild; auto.
  Qed.
  Lemma vbuild_vget (v : vec T) : vbuild (length v) (vget v) = v.
  Proof. apply vec_ext; rewrite ?vbuild_length; auto. intros; rewrite vget_vbuild; auto. Qed.
  Lemma vget_upd (v : vec T) i j x : i < length v -> vget (upd v i x) j = if Nat.eqb i j then x else vget v j.
  Proof. intros; unfold vget; apply nth_upd; auto. Qed.
  Lemma vget_repeat n (x : T) i : i < n -> vget (repeat x n) i = x.
  Proof. unfold vget. revert i. induction n; simpl; intros; try lia. destruct i; auto. apply IHn; lia. Qed.
  Lemma vget_app (v w : vec T) i : vget (v ++ w) i = if Nat.ltb i (length v) then vget v i else vget w (i - length v).
  Proof.
    unfold vget. destruct (Nat.ltb_spec i (length v)).
    apply app_nth1; auto. apply app_nth2; auto.
  Qed.

  (** flat index arithmetic *)
  Lemma flat_lt r c i j : i < r -> j < c -> j * r + i < r * c.
  Proof.
    intros. assert (j * r + r <= c * r) by (replace (j * r + r) with ((j + 1) * r) by lia; apply Nat.mul_le_mono_r; lia).
    lia.
  Qed.
  Lemma flat_inj r i j i' j' : i < r -> i' < r -> j * r + i = j' * r + i' -> i = i' /\ j = j'.
  Proof.
    intros H1 H2 H3.
    assert (j = j') as ->.
    { assert ((j * r + i) / r = j) by (rewrite Nat.div_add_l, Nat.div_small by lia; lia).
      assert ((j' * r + i') / r = j') by (rewrite Nat.div_add_l, Nat.div_small by lia; lia). congruence. }
    split; auto. lia.
  Qed.

  Lemma flat_map_length_const {A B} (f : A -> list B) r l :
    (forall x, length (f x) = r) -> length (flat_map f l) = r * length l.
  Proof. intros H. induction l; simpl; auto. rewrite app_length, H, IHl. lia. Qed.

  Lemma nth_flat_map {A} r c (f : nat -> nat -> A) i j lo d : i < r -> j < c ->
    nth (j * r + i) (flat_map (fun j => map (fun i => f i j) (seq 0 r)) (seq lo c)) d = f i (lo + j).
  Proof.
    intros Hi. revert j lo. induction c; intros j lo Hj; try lia. simpl.
    destruct j.
    - simpl. rewrite app_nth1 by (rewrite map_length, seq_length; auto).
      rewrite nth_map_seq by auto. simpl. f_equal; lia.
    - rewrite app_nth2; rewrite map_length, seq_length; [|simpl; lia].
      replace (S j * r + i - r) with (j * r + i) by (simpl; lia).
      rewrite IHc by lia. f_equal; lia.
  Qed.

  Lemma mbuild_wf r c (f : nat -> nat -> T) : wf (mbuild r c f).
  Proof.
    unfold wf, mbuild; simpl. rewrite (flat_map_length_const _ r), seq_length; auto.
    intros; rewrite map_length, seq_length; auto.
  Qed.
  Lemma mget_mbuild r c (f : nat -> nat -> T) i j : i < r -> j < c -> mget (mbuild r c f) i j = f i j.
  Proof. intros. unfold mget, mbuild; simpl. rewrite nth_flat_map; auto. Qed.
  Lemma mat_ext (m o : mat T) : wf m -> wf o -> nrows m = nrows o -> ncols m = ncols o ->
    (forall i j, i < nrows m -> j < ncols m -> mget m i j = mget o i j) -> m = o.
  Proof.
    intros Hm Ho Hr Hc H. destruct m as [r c d], o as [r' c' d']; unfold wf in *; simpl in *; subst r' c'.
    f_equal. apply (list_ext _ _ n0); try congruence.
    intros k Hk. rewrite Hm in Hk.
    assert (r <> 0) by (intro; subst; simpl in Hk; lia).
    specialize (H (k mod r) (k / r)). unfold mget in H; simpl in H.
    rewrite (Nat.mul_comm (k / r)), <- Nat.div_mod in H by auto. apply H.
    - apply Nat.mod_upper_bound; auto.
    - apply Nat.div_lt_upper_bound; auto.
  Qed.
  Lemma mbuild_mget (m : mat T) : wf m -> mbuild (nrows m) (ncols m) (mget m) = m.
  Proof. intros. apply mat_ext; auto using mbuild_wf. intros; rewrite mget_mbuild; auto. Qed.
  Lemma mbuild_ext r c (f g : nat -> nat -> T) :
    (forall i j, i < r -> j < c -> f i j = g i j) -> mbuild r c f = mbuild r c g.
  Proof. intros. apply mat_ext; auto using mbuild_wf. simpl; intros. rewrite !mget_mbuild; auto. Qed.

  Lemma mset_wf (m : mat T) i j x : wf m -> wf (mset m i j x).
  Proof. unfold wf, mset; simpl. rewrite upd_length; auto. Qed.
  Lemma mset_nrows (m : mat T) i j x : nrows (mset m i j x) = nrows m.
  Proof. auto. Qed.
  Lemma mset_ncols (m : mat T) i j x : ncols (mset m i j x) = ncols m.
  Proof. auto. Qed.
  Lemma mget_mset (m : mat T) i j x a b : wf m -> i < nrows m -> j < ncols m -> a < nrows m ->
    mget (mset m i j x) a b = if (Nat.eqb i a && Nat.eqb j b)%bool then x else mget m a b.
  Proof.
    intros Hw Hi Hj Ha. unfold mget, mset; simpl.
    rewrite nth_upd by (rewrite Hw; apply flat_lt; auto).
    destruct (Nat.eqb_spec (j * nrows m + i) (b * nrows m + a)) as [E|E].
    - destruct (flat_inj (nrows m) i j a b); auto. subst. rewrite !Nat.eqb_refl; auto.
    - destruct (Nat.eqb_spec i a), (Nat.eqb_spec j b); simpl; auto; subst; congruence.
  Qed.
  Lemma mat_const_wf r c (x : T) : wf (mat_const r c x).
  Proof. unfold wf, mat_const; simpl. apply repeat_length. Qed.
  Lemma mat_zero_wf r c : wf (mat_zero (T:=T) r c).
  Proof. unfold wf, mat_zero; simpl. apply repeat_length. Qed.
  Lemma mget_const r c (x : T) i j : i < r -> j < c -> mget (mat_const r c x) i j = x.
  Proof. intros. unfold mget, mat_const; simpl. apply (vget_repeat (r * c) x). apply flat_lt; auto. Qed.
  Lemma mget_zero r c i j : i < r -> j < c -> mget (mat_zero (T:=T) r c) i j = n0.
  Proof. intros. apply mget_const; auto. Qed.

  (** elementwise flat operations *)
  Lemma mget_flat r c (g : nat -> T) i j : i < r -> j < c -> mget (mkMat r c (vbuild (r * c) g)) i j = g (j * r + i).
  Proof. intros. unfold mget; simpl. apply vget_vbuild. apply flat_lt; auto. Qed.
  Lemma flat_wf r c (g : nat -> T) : wf (mkMat r c (vbuild (r * c) g)).
  Proof. unfold wf; simpl. apply vbuild_length. Qed.

  Lemma mrow_length (m : mat T) i : length (mrow m i) = ncols m.
  Proof. apply vbuild_length. Qed.
  Lemma vget_mrow (m : mat T) i j : j < ncols m -> vget (mrow m i) j = mget m i j.
  Proof. intros; unfold mrow; rewrite vget_vbuild; auto. Qed.

  (** a loop of in-range writes to pairwise distinct cells keeps dims *)
  Lemma loop_mset_dims n (f : nat -> mat T -> mat T) (m : mat T) :
    (forall k a, k < n -> wf a -> nrows a = nrows m -> ncols a = ncols m ->
        wf (f k a) /\ nrows (f k a) = nrows m /\ ncols (f k a) = ncols m) ->
    wf m -> wf (loop n f m) /\ nrows (loop n f m) = nrows m /\ ncols (loop n f m) = ncols m.
  Proof.
    intros H Hw. apply (loop_inv (fun _ a => wf a /\ nrows a = nrows m /\ ncols a = ncols m)); auto.
    intros k t Hk (H1 & H2 & H3). apply H; auto.
  Qed.
End Lemmas.
