(** Lemmas on the vector model (order-only facts, generic in the number instance). *)
From Coq Require Import List Arith Lia ZArith Bool Permutation Sorted.
From Verif Require Import Base Num VecModel MatModel MatLemmas.
Import ListNotations.

Section Order.
  Context {T : Type} {NT : Num T} {OL : OrdLaws T}.

  Definition all_good (v : list T) : Prop := forall x, In x v -> good x.

  Lemma all_good_nth v i : all_good v -> i < length v -> good (vget v i).
  Proof. intros Hg Hi. apply Hg. unfold vget. apply nth_In; auto. Qed.

  Lemma min_element_spec v : v <> [] -> all_good v ->
    min_element v < length v /\
    (forall k, k < length v -> nleb (vget v (min_element v)) (vget v k) = true) /\
    (forall k, k < min_element v -> nltb (vget v (min_element v)) (vget v k) = true).
  Proof.
    intros Hne Hg.
    assert (0 < length v) as Hl by (destruct v; simpl; try congruence; lia).
    unfold min_element.
    match goal with |- context [loop_from 1 (length v) ?f ?s] => set (r := loop_from 1 (length v) f s) end.
    enough (r < length v /\ r < length v /\
             (forall k, k < length v -> nleb (vget v r) (vget v k) = true) /\
             (forall k, k < r -> nltb (vget v r) (vget v k) = true)) as (_ & H) by exact H.
    unfold r. apply (loop_from_inv (fun m b => b < m /\ b < length v /\
             (forall k, k < m -> nleb (vget v b) (vget v k) = true) /\
             (forall k, k < b -> nltb (vget v b) (vget v k) = true)) 1 (length v)); try lia.
    - repeat split; try lia.
      intros k Hk. replace k with 0 by lia. apply leb_refl. apply all_good_nth; auto.
    - intros m b Hm (Hb & Hbl & H1 & H2).
      assert (good (vget v b)) by (apply all_good_nth; auto).
      assert (good (vget v m)) by (apply all_good_nth; auto; lia).
      destruct (nltb (vget v m) (vget v b)) eqn:E.
      + repeat split; try lia.
        * intros k Hk. destruct (Nat.eq_dec k m); subst. apply leb_refl; auto.
          apply (leb_trans _ (vget v b)); auto. apply all_good_nth; auto; lia. apply ltb_leb; auto. apply H1; lia.
        * intros k Hk. apply (ltb_leb_trans _ (vget v b)); auto. apply all_good_nth; auto; lia.
      + repeat split; try lia.
        * intros k Hk. destruct (Nat.eq_dec k m); subst. rewrite leb_ltb, E; auto. apply H1; lia.
        * intros k Hk. auto.
  Qed.

  Lemma max_element_spec v : v <> [] -> all_good v ->
    max_element v < length v /\
    (forall k, k < length v -> nleb (vget v k) (vget v (max_element v)) = true) /\
    (forall k, k < max_element v -> nltb (vget v k) (vget v (max_element v)) = true).
  Proof.
    intros Hne Hg.
    assert (0 < length v) as Hl by (destruct v; simpl; try congruence; lia).
    unfold max_element.
    match goal with |- context [loop_from 1 (length v) ?f ?s] => set (r := loop_from 1 (length v) f s) end.
    enough (r < length v /\ r < length v /\
             (forall k, k < length v -> nleb (vget v k) (vget v r) = true) /\
             (forall k, k < r -> nltb (vget v k) (vget v r) = true)) as (_ & H) by exact H.
    unfold r. apply (loop_from_inv (fun m b => b < m /\ b < length v /\
             (forall k, k < m -> nleb (vget v k) (vget v b) = true) /\
             (forall k, k < b -> nltb (vget v k) (vget v b) = true)) 1 (length v)); try lia.
    - repeat split; try lia.
      intros k Hk. replace k with 0 by lia. apply leb_refl. apply all_good_nth; auto.
    - intros m b Hm (Hb & Hbl & H1 & H2).
      assert (good (vget v b)) by (apply all_good_nth; auto).
      assert (good (vget v m)) by (apply all_good_nth; auto; lia).
      destruct (nltb (vget v b) (vget v m)) eqn:E.
      + repeat split; try lia.
        * intros k Hk. destruct (Nat.eq_dec k m); subst. apply leb_refl; auto.
          apply (leb_trans _ (vget v b)); auto. apply all_good_nth; auto; lia. apply H1; lia. apply ltb_leb; auto.
        * intros k Hk. apply (leb_ltb_trans _ (vget v b)); auto. apply all_good_nth; auto; lia.
      + repeat split; try lia.
        * intros k Hk. destruct (Nat.eq_dec k m); subst. rewrite leb_ltb, E; auto. apply H1; lia.
        * intros k Hk. auto.
  Qed.

  (** insertion sort *)
  Lemma insert_perm lt (x : T) l : Permutation (insert lt x l) (x :: l).
  Proof.
    induction l; simpl; auto. destruct (lt a x); auto.
    rewrite IHl. apply perm_swap.
  Qed.
  Lemma isort_perm lt (l : list T) : Permutation (isort lt l) l.
  Proof. induction l; simpl; auto. rewrite insert_perm, IHl; auto. Qed.

  Lemma insert_sorted (x : T) l : good x -> all_good l ->
    Sorted (fun a b => nleb a b = true) l -> Sorted (fun a b => nleb a b = true) (insert nltb x l).
  Proof.
    intros Hx Hl Hs. induction Hs as [|a l Hs IHHs Hd]; simpl.
    - constructor; auto.
    - assert (good a) by (apply Hl; left; auto).
      assert (all_good l) by (intros y Hy; apply Hl; right; auto).
      destruct (nltb a x) eqn:E.
      + constructor; auto. destruct l; simpl in *.
        * constructor. apply ltb_leb; auto.
        * destruct (nltb t x); constructor; auto. inversion Hd; auto. apply ltb_leb; auto.
      + constructor. constructor; auto. constructor. rewrite leb_ltb, E; auto.
  Qed.
  Lemma isort_sorted (l : list T) : all_good l -> Sorted (fun a b => nleb a b = true) (isort nltb l).
  Proof.
    intros Hg. induction l; simpl. constructor.
    apply insert_sorted.
    - apply Hg; left; auto.
    - intros x Hx. apply Hg. right. eapply Permutation_in; [apply isort_perm|eauto].
    - apply IHl. intros x Hx; apply Hg; right; auto.
  Qed.
  Lemma insert_sorted_desc (x : T) l : good x -> all_good l ->
    Sorted (fun a b => nleb b a = true) l -> Sorted (fun a b => nleb b a = true) (insert (fun a b => nltb b a) x l).
  Proof.
    intros Hx Hl Hs. induction Hs as [|a l Hs IHHs Hd]; simpl.
    - constructor; auto.
    - assert (good a) by (apply Hl; left; auto).
      assert (all_good l) by (intros y Hy; apply Hl; right; auto).
      destruct (nltb x a) eqn:E.
      + constructor; auto. destruct l; simpl in *.
        * constructor. apply ltb_leb; auto.
        * destruct (nltb x t); constructor; auto. inversion Hd; auto. apply ltb_leb; auto.
      + constructor. constructor; auto. constructor. rewrite leb_ltb, E; auto.
  Qed.
  Lemma isort_sorted_desc (l : list T) : all_good l -> Sorted (fun a b => nleb b a = true) (isort (fun a b => nltb b a) l).
  Proof.
    intros Hg. induction l; simpl. constructor.
    apply insert_sorted_desc.
    - apply Hg; left; auto.
    - intros x Hx. apply Hg. right. eapply Permutation_in; [apply isort_perm|eauto].
    - apply IHl. intros x Hx; apply Hg; right; auto.
  Qed.

  Lemma has_nan_good v : vec_has_nan v = false <-> all_good v.
  Proof.
    unfold vec_has_nan, all_good. split.
    - intros H x Hx. apply good_isnan. destruct (nisnan x) eqn:E; auto.
      assert (existsb nisnan v = true) by (apply existsb_exists; eauto). congruence.
    - intros H. destruct (existsb nisnan v) eqn:E; auto.
      apply existsb_exists in E as [x [Hx E]]. apply H in Hx. apply good_isnan in Hx. congruence.
  Qed.

  (** sortedness by index: consecutive comparison implies pairwise comparison *)
  Lemma sorted_pairwise v : all_good v ->
    (forall i, S i < length v -> nleb (vget v i) (vget v (S i)) = true) ->
    forall i j, i <= j -> j < length v -> nleb (vget v i) (vget v j) = true.
  Proof.
    intros Hg H i j Hij. induction Hij; intros Hj.
    - apply leb_refl; apply all_good_nth; auto.
    - apply (leb_trans _ (vget v m)); try (apply all_good_nth; auto; lia); auto. apply IHHij; lia.
  Qed.
  Lemma Sorted_nth (R : T -> T -> Prop) v d : Sorted R v -> forall i, S i < length v -> R (nth i v d) (nth (S i) v d).
  Proof.
    intros Hs. induction Hs as [|a l Hs IHHs Hd]; simpl; intros i Hi. lia.
    destruct i. destruct l; simpl in *; [lia|]. inversion Hd; auto.
    apply IHHs; lia.
  Qed.
  Lemma nth_Sorted (R : T -> T -> Prop) v d : (forall i, S i < length v -> R (nth i v d) (nth (S i) v d)) -> Sorted R v.
  Proof.
    induction v; intros H. constructor.
    constructor. apply IHv. intros i Hi. apply (H (S i)). simpl; lia.
    destruct v; constructor. apply (H 0). simpl; lia.
  Qed.

  Lemma is_sorted_asc v : all_good v ->
    (vec_is_sorted v true = true <-> Sorted (fun a b => nleb a b = true) v).
  Proof.
    intros Hg. unfold vec_is_sorted. destruct (Nat.leb_spec (length v) 1).
    - split; auto. intros _. apply (nth_Sorted _ _ n0). lia.
    - rewrite forallb_seq. split.
      + intros Hs. apply (nth_Sorted _ _ n0). intros i Hi. specialize (Hs i ltac:(lia)).
        fold (vget v i) (vget v (S i)). rewrite leb_ltb; auto; apply all_good_nth; auto; lia.
      + intros Hs i Hi. pose proof (Sorted_nth _ _ n0 Hs i ltac:(lia)) as H1.
        cbv beta in H1. fold (vget v i) (vget v (S i)) in H1. rewrite leb_ltb in H1; auto; apply all_good_nth; auto; lia.
  Qed.
  Lemma is_sorted_desc v : all_good v ->
    (vec_is_sorted v false = true <-> Sorted (fun a b => nleb b a = true) v).
  Proof.
    intros Hg. unfold vec_is_sorted. destruct (Nat.leb_spec (length v) 1).
    - split; auto. intros _. apply (nth_Sorted _ _ n0). lia.
    - rewrite forallb_seq. split.
      + intros Hs. apply (nth_Sorted _ _ n0). intros i Hi. specialize (Hs i ltac:(lia)).
        fold (vget v i) (vget v (S i)). rewrite leb_ltb; auto; apply all_good_nth; auto; lia.
      + intros Hs i Hi. pose proof (Sorted_nth _ _ n0 Hs i ltac:(lia)) as H1.
        cbv beta in H1. fold (vget v i) (vget v (S i)) in H1. rewrite leb_ltb in H1; auto; apply all_good_nth; auto; lia.
  Qed.

  Lemma find_seq_some (p : nat -> bool) n i : find p (seq 0 n) = Some i ->
    i < n /\ p i = true /\ forall k, k < i -> p k = false.
  Proof.
    assert (forall lo, find p (seq lo n) = Some i -> lo <= i < lo + n /\ p i = true /\ forall k, lo <= k < i -> p k = false) as H.
    { induction n; simpl; intros lo H; try discriminate.
      destruct (p lo) eqn:E.
      - inversion H; subst. repeat split; auto; lia.
      - apply IHn in H as (H1 & H2 & H3). repeat split; auto; try lia.
        intros k Hk. destruct (Nat.eq_dec k lo); subst; auto. apply H3; lia. }
    intros H1. apply H in H1 as (A & B & C). repeat split; auto; try lia. intros; apply C; lia.
  Qed.
  Lemma find_seq_none (p : nat -> bool) n : find p (seq 0 n) = None -> forall k, k < n -> p k = false.
  Proof. intros H k Hk. eapply find_none in H; eauto. apply in_seq; lia. Qed.

  (** specification of findInterval on an ordered vector *)
  Lemma findInterval_spec v value : v <> [] -> all_good v -> good value ->
    Sorted (fun a b => nleb a b = true) v ->
    exists r, vec_findInterval v value = Ok r /\
    ((exists i, r = Z.of_nat i /\ S i < length v /\ nleb (vget v i) value = true /\ nltb value (vget v (S i)) = true) \/
     (r = Z.of_nat (length v - 1) /\ nltb (vget v (length v - 1)) value = true) \/
     (r = (-1)%Z /\ (nltb value (vget v 0) = true \/ neqb value (vget v (length v - 1)) = true))).
  Proof.
    intros Hne Hg Hv Hs.
    assert (0 < length v) as Hl by (destruct v; simpl; try congruence; lia).
    unfold vec_findInterval. destruct (Nat.eqb_spec (length v) 0); try lia.
    rewrite (proj2 (is_sorted_asc v Hg) Hs). simpl negb. cbv iota.
    destruct (find _ _) as [i|] eqn:E.
    - apply find_seq_some in E as (E1 & E2 & _). apply andb_prop in E2 as [E2 E3].
      eexists; split; eauto. left. exists i. repeat split; auto. lia.
    - pose proof (find_seq_none _ _ E) as Hn.
      destruct (nltb (vget v (length v - 1)) value) eqn:E2.
      + eexists; split; eauto.
      + eexists; split; eauto. right; right; split; auto.
        destruct (nltb value (vget v 0)) eqn:E0; auto. right.
        assert (forall k, k < length v -> nleb (vget v k) value = true) as Hall.
        { induction k; intros Hk. rewrite leb_ltb, E0; auto. apply all_good_nth; auto.
          specialize (Hn k ltac:(lia)). cbv beta in Hn; rewrite IHk in Hn by lia. simpl in Hn.
          rewrite leb_ltb, Hn; auto. apply all_good_nth; auto. }
        rewrite eqb_leb; auto using all_good_nth. 2: apply all_good_nth; auto; lia.
        rewrite Hall by lia. rewrite leb_ltb, E2; auto. apply all_good_nth; auto; lia.
  Qed.
End Order.
