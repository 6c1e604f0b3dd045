(** Slicing lemmas, extreme-element lemmas and random-fill lemmas used by PropsVec.v. *)
From Coq Require Import Reals Lra List Arith Lia ZArith Bool Permutation Sorted.
From Verif Require Import Base Num RealNum NumFloat VecModel MatModel MatLemmas VecProofs VecReal.
Import ListNotations.

Section Slices.
  Context {T : Type} {NT : Num T}.

  Lemma head_tail_app (v : list T) k : (k <= length v)%nat ->
    exists h t, vec_head v k = Ok h /\ vec_tail v (length v - k) = Ok t /\ length h = k /\ length t = (length v - k)%nat /\ h ++ t = v.
  Proof.
    intros Hk. unfold vec_head, vec_tail.
    destruct (Nat.ltb_spec (length v) k); try lia. destruct (Nat.ltb_spec (length v) (length v - k)); try lia.
    exists (firstn k v), (skipn (length v - (length v - k)) v).
    replace (length v - (length v - k))%nat with k by lia.
    repeat split; auto. rewrite firstn_length; lia. rewrite skipn_length; lia. apply firstn_skipn.
  Qed.

  Lemma nth_firstn (l : list T) n i d : (i < n)%nat -> nth i (firstn n l) d = nth i l d.
  Proof. revert n i; induction l; intros [|n] [|i] H; simpl; auto; try lia. apply IHl; lia. Qed.
  Lemma nth_skipn (l : list T) n i d : nth i (skipn n l) d = nth (n + i) l d.
  Proof. revert n; induction l; intros [|n]; simpl; auto. destruct i; auto. Qed.
  Lemma firstn_len_le (l : list T) n : (n <= length l)%nat -> length (firstn n l) = n.
  Proof. intros. rewrite firstn_length; lia. Qed.

  Lemma append_spec (v w : list T) (p : nat) (position : Z) d : (p <= length v)%nat ->
    position = Z.of_nat p \/ (position = (-1)%Z /\ p = length v) ->
    exists r, vec_append v w position = Ok r /\ length r = (length v + length w)%nat /\
      (forall i, (i < p)%nat -> nth i r d = nth i v d) /\
      (forall i, (i < length w)%nat -> nth (p + i) r d = nth i w d) /\
      (forall i, (p <= i < length v)%nat -> nth (i + length w) r d = nth i v d).
  Proof.
    intros Hp Hpos. unfold vec_append.
    assert (((position <? -1) || (Z.of_nat (length v) <? position))%Z%bool = false) as ->.
    { destruct (Z.ltb_spec position (-1)), (Z.ltb_spec (Z.of_nat (length v)) position); simpl; auto; lia. }
    assert ((if (position =? -1)%Z then length v else Z.to_nat position) = p) as ->.
    { destruct (Z.eqb_spec position (-1)); lia. }
    eexists; split; eauto. rewrite !app_length, skipn_length, firstn_len_le by auto. repeat split; try lia.
    - intros. rewrite app_nth1 by (rewrite firstn_len_le; auto). apply nth_firstn; auto.
    - intros. rewrite app_nth2 by (rewrite firstn_len_le by auto; lia). rewrite firstn_len_le by auto.
      rewrite app_nth1 by lia. f_equal; lia.
    - intros. rewrite app_nth2 by (rewrite firstn_len_le by auto; lia). rewrite firstn_len_le by auto.
      rewrite app_nth2 by lia. rewrite nth_skipn. f_equal; lia.
  Qed.
  Lemma append_throws (v w : list T) position :
    (position < -1 \/ Z.of_nat (length v) < position)%Z <-> vec_append v w position = Throw OutOfRange.
  Proof.
    unfold vec_append. destruct (Z.ltb_spec position (-1)), (Z.ltb_spec (Z.of_nat (length v)) position); simpl; split; intros; auto; try lia; discriminate.
  Qed.

  Lemma copy_spec (v src : list T) (p : nat) d : (p < length v)%nat ->
    exists r, vec_copy v src (Z.of_nat p) = Ok r /\ length r = length v /\
      forall i, (i < length v)%nat -> nth i r d = if (Nat.leb p i && Nat.ltb i (p + length src))%bool then nth (i - p) src d else nth i v d.
  Proof.
    intros Hp. unfold vec_copy.
    assert (((Z.of_nat p <? 0) || (Z.of_nat (length v) <=? Z.of_nat p))%Z%bool = false) as ->.
    { destruct (Z.ltb_spec (Z.of_nat p) 0), (Z.leb_spec (Z.of_nat (length v)) (Z.of_nat p)); simpl; auto; lia. }
    rewrite Nat2Z.id. set (c := Nat.min (length v - p) (length src)).
    eexists; split; eauto. assert (c <= length src /\ p + c <= length v)%nat by lia.
    rewrite !app_length, skipn_length, !firstn_len_le by lia. split. lia.
    intros i Hi. destruct (Nat.leb_spec p i), (Nat.ltb_spec i (p + length src)); simpl.
    - rewrite app_nth2; rewrite firstn_len_le by lia; [|lia]. rewrite app_nth1 by (rewrite firstn_len_le by lia; lia).
      apply nth_firstn; lia.
    - rewrite app_nth2; rewrite firstn_len_le by lia; [|lia]. rewrite app_nth2; rewrite firstn_len_le by lia; [|lia].
      rewrite nth_skipn. f_equal; lia.
    - rewrite app_nth1 by (rewrite firstn_len_le by lia; lia). apply nth_firstn; lia.
    - lia.
  Qed.
  Lemma copy_throws (v src : list T) position :
    (position < 0 \/ Z.of_nat (length v) <= position)%Z <-> vec_copy v src position = Throw OutOfRange.
  Proof.
    unfold vec_copy. destruct (Z.ltb_spec position 0), (Z.leb_spec (Z.of_nat (length v)) position); simpl; split; intros; auto; try lia; discriminate.
  Qed.
  Lemma resize_spec (v : list T) n x d :
    length (vec_resize v n x) = n /\
    forall i, (i < n)%nat -> nth i (vec_resize v n x) d = if Nat.ltb i (length v) then nth i v d else x.
  Proof.
    unfold vec_resize. destruct (Nat.ltb_spec (length v) n).
    - rewrite Nat.min_l, firstn_all by lia. split. rewrite app_length, repeat_length; lia.
      intros i Hi. destruct (Nat.ltb_spec i (length v)). apply app_nth1; auto.
      rewrite app_nth2 by auto.
      rewrite (nth_indep _ d x) by (rewrite repeat_length; lia). apply nth_repeat.
    - rewrite Nat.min_r, app_nil_r by auto. split. apply firstn_len_le; auto.
      intros i Hi. destruct (Nat.ltb_spec i (length v)); try lia. apply nth_firstn; auto.
  Qed.
  Lemma push_back_spec (v : list T) x d : length (vec_push_back v x) = S (length v) /\
    (forall i, (i < length v)%nat -> nth i (vec_push_back v x) d = nth i v d) /\ nth (length v) (vec_push_back v x) d = x.
  Proof.
    unfold vec_push_back. rewrite app_length; simpl. repeat split. lia.
    intros; apply app_nth1; auto. rewrite app_nth2, Nat.sub_diag; auto.
  Qed.
End Slices.

Section Extremes.
  Context {T : Type} {NT : Num T} {OL : OrdLaws T}.
  Lemma findMin_ok (v : list T) : v <> [] -> all_good v ->
    exists i, vec_findMinIndex v = Ok i /\ vec_findMin v = Ok (nth i v n0) /\ (i < length v)%nat /\
      (forall k, (k < length v)%nat -> nleb (nth i v n0) (nth k v n0) = true) /\
      (forall k, (k < i)%nat -> nltb (nth i v n0) (nth k v n0) = true).
  Proof.
    intros Hne Hg. destruct (min_element_spec v Hne Hg) as (A & B & C). exists (min_element v).
    unfold vec_findMinIndex, vec_findMin. destruct v; try congruence. auto.
  Qed.
  Lemma findMax_ok (v : list T) : v <> [] -> all_good v ->
    exists i, vec_findMaxIndex v = Ok i /\ vec_findMax v = Ok (nth i v n0) /\ (i < length v)%nat /\
      (forall k, (k < length v)%nat -> nleb (nth k v n0) (nth i v n0) = true) /\
      (forall k, (k < i)%nat -> nltb (nth k v n0) (nth i v n0) = true).
  Proof.
    intros Hne Hg. destruct (max_element_spec v Hne Hg) as (A & B & C). exists (max_element v).
    unfold vec_findMaxIndex, vec_findMax. destruct v; try congruence. auto.
  Qed.

  Lemma vec_sort_spec (v : list T) asc : all_good v ->
    exists s, vec_sort v asc = Ok s /\ Permutation s v /\
      Sorted (fun a b => if asc then nleb a b = true else nleb b a = true) s.
  Proof.
    intros Hg. unfold vec_sort. destruct (Nat.leb_spec (length v) 1).
    - exists v. repeat split; auto. destruct v as [|a [|b v]]; simpl in *; try lia; repeat constructor.
    - rewrite (proj2 (has_nan_good v) Hg). eexists; split; eauto. split; destruct asc; auto using isort_perm.
      apply isort_sorted; auto. apply isort_sorted_desc; auto.
  Qed.
  Lemma vec_sort_nan (v : list T) asc : (1 < length v)%nat -> existsb nisnan v = true -> vec_sort v asc = UB.
  Proof. intros Hl Hn. unfold vec_sort. destruct (Nat.leb_spec (length v) 1); try lia. unfold vec_has_nan. rewrite Hn. auto. Qed.

  (** with strictly increasing nodes the interval index is unique; with repeated nodes the half-open
      intervals are disjoint too, so the result is determined *)
  Lemma findInterval_unique (v : list T) value i : all_good v -> good value ->
    Sorted (fun a b => nleb a b = true) v -> (S i < length v)%nat ->
    nleb (nth i v n0) value = true -> nltb value (nth (S i) v n0) = true ->
    vec_findInterval v value = Ok (Z.of_nat i).
  Proof.
    intros Hg Hv Hs Hi H1 H2.
    unfold vec_findInterval. destruct (Nat.eqb_spec (length v) 0); try lia.
    rewrite (proj2 (is_sorted_asc v Hg) Hs). simpl negb. cbv iota.
    destruct (find _ _) as [k|] eqn:E.
    - apply find_seq_some in E as (E1 & E2 & _). cbv beta in E2. apply andb_prop in E2 as [E2 E3].
      do 2 f_equal. pose proof (sorted_pairwise v Hg (Sorted_nth _ v n0 Hs)) as Hp.
      destruct (Nat.lt_trichotomy k i) as [Hlt|[Heq|Hgt]]; auto; exfalso.
      + assert (nltb value (vget v i) = true).
        { apply (ltb_leb_trans value (vget v (S k))); auto. apply all_good_nth; auto; lia. apply all_good_nth; auto; lia. apply Hp; lia. }
        rewrite leb_ltb in H1 by (auto; apply all_good_nth; auto; lia). change (nth i v n0) with (vget v i) in H1. rewrite H in H1. discriminate.
      + assert (nltb value (vget v k) = true).
        { apply (ltb_leb_trans value (vget v (S i))); auto. apply all_good_nth; auto; lia. apply all_good_nth; auto; lia. apply Hp; lia. }
        rewrite leb_ltb in E2 by (auto; apply all_good_nth; auto; lia). rewrite H in E2. discriminate.
    - pose proof (find_seq_none _ _ E i ltac:(lia)) as Hn. cbv beta in Hn.
      change (nth i v n0) with (vget v i) in H1. change (nth (S i) v n0) with (vget v (S i)) in H2.
      rewrite H1, H2 in Hn. discriminate.
  Qed.
  Lemma findInterval_above (v : list T) value : v <> [] -> all_good v -> good value ->
    Sorted (fun a b => nleb a b = true) v -> nltb (nth (length v - 1) v n0) value = true ->
    vec_findInterval v value = Ok (Z.of_nat (length v - 1)).
  Proof.
    intros Hne Hg Hv Hs H. assert (0 < length v)%nat by (destruct v; simpl; try congruence; lia).
    destruct (findInterval_spec v value Hne Hg Hv Hs) as (r & Hr & Hc). rewrite Hr.
    destruct Hc as [(i & -> & Hi & H1 & H2)|[[-> _]|[-> [H1|H1]]]]; auto; exfalso.
    - pose proof (sorted_pairwise v Hg (Sorted_nth _ v n0 Hs) (S i) (length v - 1) ltac:(lia) ltac:(lia)) as Hp.
      assert (nltb value (vget v (length v - 1)) = true).
      { eapply (ltb_leb_trans value (vget v (S i))); auto; apply all_good_nth; auto; lia. }
      assert (nltb value value = true) as Hirr. { apply (ltb_trans value (vget v (length v - 1))); auto. apply all_good_nth; auto; lia. }
      rewrite ltb_irrefl in Hirr; auto; discriminate.
    - pose proof (sorted_pairwise v Hg (Sorted_nth _ v n0 Hs) 0 (length v - 1) ltac:(lia) ltac:(lia)) as Hp.
      assert (nltb value (vget v (length v - 1)) = true).
      { eapply (ltb_leb_trans value (vget v 0)); auto; apply all_good_nth; auto; lia. }
      assert (nltb value value = true) as Hirr. { apply (ltb_trans value (vget v (length v - 1))); auto. apply all_good_nth; auto; lia. }
      rewrite ltb_irrefl in Hirr; auto; discriminate.
    - rewrite eqb_leb in H1 by (auto; apply all_good_nth; auto; lia). apply andb_prop in H1 as [H1 _].
      rewrite leb_ltb in H1 by (auto; apply all_good_nth; auto; lia). change (nth (length v - 1) v n0) with (vget v (length v - 1)) in H. rewrite H in H1. discriminate.
  Qed.
  Lemma findInterval_minus1 (v : list T) value : v <> [] -> all_good v -> good value ->
    Sorted (fun a b => nleb a b = true) v ->
    (nltb value (nth 0 v n0) = true \/ neqb value (nth (length v - 1) v n0) = true) ->
    vec_findInterval v value = Ok (-1)%Z.
  Proof.
    intros Hne Hg Hv Hs H. assert (0 < length v)%nat by (destruct v; simpl; try congruence; lia).
    assert (forall i, (i < length v)%nat -> good (vget v i)) as G by (intros; apply all_good_nth; auto).
    destruct (findInterval_spec v value Hne Hg Hv Hs) as (r & Hr & Hc). rewrite Hr.
    pose proof (sorted_pairwise v Hg (Sorted_nth _ v n0 Hs)) as Hp.
    change (nth 0 v n0) with (vget v 0) in H. change (nth (length v - 1) v n0) with (vget v (length v - 1)) in H.
    destruct Hc as [(i & -> & Hi & H1 & H2)|[[-> H1]|[-> _]]]; auto; exfalso.
    - destruct H as [H|H].
      + assert (nltb value (vget v i) = true) as Hlt by (apply (ltb_leb_trans value (vget v 0)); auto; try apply G; try lia; apply Hp; lia).
        rewrite leb_ltb, Hlt in H1; auto; try discriminate. apply G; lia.
      + rewrite eqb_leb in H by (auto; apply G; lia). apply andb_prop in H as [_ H].
        assert (nltb value (vget v (length v - 1)) = true) as Hlt by (apply (ltb_leb_trans value (vget v (S i))); auto; try apply G; try lia; apply Hp; lia).
        rewrite leb_ltb, Hlt in H; auto; try discriminate. apply G; lia.
    - destruct H as [H|H].
      + assert (nltb value (vget v (length v - 1)) = true) as Hlt by (apply (ltb_leb_trans value (vget v 0)); auto; try apply G; try lia; apply Hp; lia).
        assert (nltb value value = true) as Hirr by (apply (ltb_trans value (vget v (length v - 1))); auto; apply G; lia).
        rewrite ltb_irrefl in Hirr; auto; discriminate.
      + rewrite eqb_leb in H by (auto; apply G; lia). apply andb_prop in H as [H _].
        rewrite leb_ltb, H1 in H; auto; try discriminate. apply G; lia.
  Qed.
End Extremes.

Local Open Scope R_scope.

(** sorted real lists with the same elements are equal *)
Lemma Sorted_Rle_unique (l1 l2 : list R) : Sorted Rle l1 -> Sorted Rle l2 -> Permutation l1 l2 -> l1 = l2.
Proof.
  intros H1 H2. apply Sorted_StronglySorted in H1; [|intros a b c; apply Rle_trans].
  apply Sorted_StronglySorted in H2; [|intros a b c; apply Rle_trans].
  revert l2 H2. induction H1 as [|a l1 Hs IH Ha]; intros l2 H2 Hp.
  - apply Permutation_nil in Hp; auto.
  - destruct H2 as [|b l2 H2 Hb]. apply Permutation_sym, Permutation_nil in Hp; discriminate.
    assert (a = b) as ->.
    { rewrite Forall_forall in Ha, Hb. assert (In a (b :: l2)) as I1 by (eapply Permutation_in; eauto; left; auto).
      assert (In b (a :: l1)) as I2 by (eapply Permutation_in; [apply Permutation_sym|]; eauto; left; auto).
      destruct I1 as [I1|I1]; auto. destruct I2 as [I2|I2]; auto. specialize (Ha b I2). specialize (Hb a I1). lra. }
    f_equal. apply IH; auto. eapply Permutation_cons_inv; eauto.
Qed.
Lemma Sorted_weaken {A} (P Q : A -> A -> Prop) l : (forall a b, P a b -> Q a b) -> Sorted P l -> Sorted Q l.
Proof. intros H Hs. induction Hs; constructor; auto. destruct H0; constructor; auto. Qed.

Lemma isort_is_sorted (v s : list R) : Permutation v s -> Sorted Rle s -> isort nltb v = s.
Proof.
  intros Hp Hs. apply Sorted_Rle_unique; auto.
  - eapply Sorted_weaken; [|apply (isort_sorted v (good_all v))]. intros a b H. apply Rleb_true; auto.
  - rewrite isort_perm; auto.
Qed.

Lemma quantile_interpolates (v s : list R) k t : Permutation v s -> Sorted Rle s -> (S k < length v)%nat -> 0 <= t <= 1 ->
  vec_quantile v ((INR k + t) / INR (length v - 1)) = Ok ((1 - t) * nth k s 0 + t * nth (S k) s 0).
Proof.
  intros Hp Hs Hk Ht.
  assert (0 < INR (length v - 1)) as Hpos by (apply lt_0_INR; lia).
  assert (INR k + 1 <= INR (length v - 1)) as Hle by (rewrite <- S_INR; apply le_INR; lia).
  pose proof (pos_INR k) as Hk0.
  rewrite quantile_interp.
  - rewrite (isort_is_sorted v s) by auto.
    assert ((INR k + t) / INR (length v - 1) * IZR (Z.of_nat (length v) - 1) = INR k + t) as ->.
    { replace (Z.of_nat (length v) - 1)%Z with (Z.of_nat (length v - 1)) by lia. rewrite <- INR_IZR_INZ. field. lra. }
    f_equal. unfold interp. destruct (Req_dec t 1) as [E|E].
    + assert (Rfloor (INR k + t) = Z.of_nat (S k)) as ->.
      { apply Rfloor_unique. rewrite <- INR_IZR_INZ, S_INR. lra. }
      rewrite <- INR_IZR_INZ, S_INR, Nat2Z.id. subst t. ring.
    + assert (Rfloor (INR k + t) = Z.of_nat k) as ->.
      { apply Rfloor_unique. rewrite <- INR_IZR_INZ. lra. }
      rewrite <- INR_IZR_INZ, Nat2Z.id. ring.
  - destruct v; simpl in *; try congruence; lia.
  - split. apply Rle_mult_inv_pos; lra. apply Rmult_le_reg_r with (INR (length v - 1)); auto.
    unfold Rdiv. rewrite Rmult_assoc, Rinv_l by lra. lra.
Qed.

Lemma quantile_range (v : list R) p : v <> [] -> 0 <= p <= 1 ->
  exists q, vec_quantile v p = Ok q /\ (exists x, In x v /\ x <= q) /\ (exists y, In y v /\ q <= y).
Proof.
  intros Hne Hp. rewrite quantile_interp by auto. eexists; split; eauto.
  set (s := isort nltb v). assert (s <> []) as Hs.
  { intro E. apply Hne. apply Permutation_nil. rewrite <- E. apply isort_perm. }
  pose proof (interp_bounds s (isort_mono v)) as Hb.
  assert (length s = length v) as Hl by apply isort_length.
  assert (0 < length v)%nat by (destruct v; simpl in *; try congruence; lia).
  assert (0 <= IZR (Z.of_nat (length v) - 1)) by (apply (IZR_le 0); lia).
  set (idx := p * IZR (Z.of_nat (length v) - 1)).
  assert (0 <= idx <= IZR (Z.of_nat (length s) - 1)) as Hidx.
  { rewrite Hl. unfold idx. split. apply Rmult_le_pos; lra. rewrite <- (Rmult_1_l (IZR _)) at 2. apply Rmult_le_compat_r; lra. }
  destruct (Hb idx Hs Hidx) as (A & B & C & D).
  assert (forall k, (k < length s)%nat -> In (nth k s 0) v) as Hin.
  { intros. eapply Permutation_in. apply isort_perm. apply nth_In. auto. }
  split. exists (nth (Z.to_nat (Rfloor idx)) s 0); auto.
  pose proof (Rfloor_spec idx). destruct (Req_dec (IZR (Rfloor idx)) idx) as [E|E].
  - exists (nth (Z.to_nat (Rfloor idx)) s 0). split; auto. unfold interp. replace (idx - IZR (Rfloor idx)) with 0 by lra. lra.
  - exists (nth (S (Z.to_nat (Rfloor idx))) s 0). split. apply Hin, D; lra. apply B; lra.
Qed.

Lemma quantile_monotone (v : list R) p1 p2 q1 q2 : 0 <= p1 -> p1 <= p2 -> p2 <= 1 ->
  vec_quantile v p1 = Ok q1 -> vec_quantile v p2 = Ok q2 -> q1 <= q2.
Proof.
  intros H0 H12 H2 E1 E2. destruct v as [|a v']. { unfold vec_quantile in E1. simpl in E1. destruct (_ || _)%bool; discriminate. }
  assert (a :: v' <> []) as Hne by discriminate. set (v := a :: v') in *. clearbody v.
  rewrite quantile_interp in E1, E2 by (auto; lra).
  assert (forall x y : R, Ok x = Ok y -> y = x) as Hinj by (intros x y Hxy; injection Hxy; auto).
  rewrite (Hinj _ _ E1), (Hinj _ _ E2).
  assert (0 <= IZR (Z.of_nat (length v) - 1)) by (apply (IZR_le 0); destruct v; simpl length; [congruence|lia]).
  apply interp_mono. { apply isort_mono. }
  - intro E. apply Hne. apply Permutation_nil. rewrite <- E. apply isort_perm.
  - apply Rmult_le_pos; lra.
  - apply Rmult_le_compat_r; lra.
  - rewrite isort_length. rewrite <- (Rmult_1_l (IZR (Z.of_nat (length v) - 1))) at 2. apply Rmult_le_compat_r; lra.
Qed.

Lemma quantile_extremes (v : list R) i j : vec_findMinIndex v = Ok i -> vec_findMaxIndex v = Ok j ->
  vec_quantile v 0 = Ok (nth i v 0) /\ vec_quantile v 1 = Ok (nth j v 0).
Proof.
  intros Hi Hj. destruct v as [|a v']; try discriminate. set (v := a :: v') in *.
  assert (v <> []) as Hne by discriminate.
  destruct (findMin_ok v Hne (good_all v)) as (i' & Ei & _ & Li & Mi & _). rewrite Hi in Ei; inversion Ei; subst i'.
  destruct (findMax_ok v Hne (good_all v)) as (j' & Ej & _ & Lj & Mj & _). rewrite Hj in Ej; inversion Ej; subst j'.
  assert (forall x, In x v -> nth i v 0 <= x) as Hmin.
  { intros x Hx. apply (In_nth _ _ 0) in Hx as (k & Hk & <-). apply Rleb_true. apply Mi; auto. }
  assert (forall x, In x v -> x <= nth j v 0) as Hmax.
  { intros x Hx. apply (In_nth _ _ 0) in Hx as (k & Hk & <-). apply Rleb_true. apply Mj; auto. }
  set (s := isort nltb v). assert (length s = length v) as Hl by apply isort_length.
  assert (forall k, (k < length s)%nat -> In (nth k s 0) v) as Hin.
  { intros. eapply Permutation_in. apply isort_perm. apply nth_In. auto. }
  assert (forall x, In x v -> exists k, (k < length s)%nat /\ nth k s 0 = x) as Hin'.
  { intros x Hx. apply In_nth. eapply Permutation_in. apply Permutation_sym, isort_perm. auto. }
  assert (0 < length v)%nat by (unfold v; simpl; lia).
  rewrite !quantile_interp by (auto; lra). fold s. split; f_equal.
  - rewrite Rmult_0_l. unfold interp. rewrite (Rfloor_unique 0 0) by lra. simpl Z.to_nat.
    destruct (Hin' (nth i v 0)) as (k & Hk & E). apply nth_In; auto.
    pose proof (isort_mono v 0 k ltac:(lia) Hk) as M. fold s in M. rewrite E in M.
    specialize (Hmin (nth 0 s 0) (Hin 0%nat ltac:(lia))). lra.
  - rewrite Rmult_1_l. unfold interp. rewrite (Rfloor_unique (IZR (Z.of_nat (length v) - 1)) (Z.of_nat (length v) - 1)) by lra.
    destruct (Hin' (nth j v 0)) as (k & Hk & E). apply nth_In; auto.
    replace (Z.to_nat (Z.of_nat (length v) - 1)) with (length v - 1)%nat by lia.
    pose proof (isort_mono v k (length v - 1) ltac:(lia)) as M. fold s in M. specialize (M ltac:(lia)). rewrite E in M.
    specialize (Hmax (nth (length v - 1) s 0) (Hin (length v - 1)%nat ltac:(lia))). lra.
Qed.

Lemma quantile_throws (v : list R) p : (p < 0 \/ 1 < p -> vec_quantile v p = Throw InvalidArgument) /\
  (0 <= p <= 1 -> v = [] -> vec_quantile v p = Throw RuntimeError).
Proof.
  unfold vec_quantile. simpl nltb. split.
  - intros [H|H].
    + rewrite (proj2 (Rltb_true p 0)) by lra. auto.
    + rewrite (proj2 (Rltb_true 1 p)) by lra. rewrite orb_true_r. auto.
  - intros H ->. rewrite (proj2 (Rltb_false p 0)), (proj2 (Rltb_false 1 p)) by lra. auto.
Qed.

(** *** random fills *)
Lemma fillRandom_spec (v : list R) a b u : (forall k, 0 <= u k < 1) ->
  (a <= b -> exists w, vec_fillRandom v a b u = Ok w /\ length w = length v /\
     forall i, (i < length v)%nat -> a <= nth i w 0 <= b) /\
  (b < a -> vec_fillRandom v a b u = Throw InvalidArgument).
Proof.
  intros Hu. unfold vec_fillRandom. simpl nltb. split; intros H.
  - rewrite (proj2 (Rltb_false b a)) by lra. eexists; split; eauto. rewrite vbuild_length. split; auto.
    intros i Hi. change (nth i (vbuild ?n ?f) 0) with (vget (vbuild n f) i). rewrite vget_vbuild by auto. apply unif_between; auto.
  - rewrite (proj2 (Rltb_true b a)) by lra. auto.
Qed.

Lemma fillRandomV_spec (v a b : list R) u : (forall k, 0 <= u k < 1) ->
  (length a = length v -> length b = length v -> (forall i, (i < length v)%nat -> nth i a 0 <= nth i b 0) ->
   exists w, vec_fillRandomV v a b u = (w, Ok tt) /\ length w = length v /\
     forall i, (i < length v)%nat -> nth i a 0 <= nth i w 0 <= nth i b 0) /\
  (length a <> length v \/ length b <> length v \/ (exists i, (i < length v)%nat /\ nth i b 0 < nth i a 0) ->
   snd (vec_fillRandomV v a b u) = Throw InvalidArgument).
Proof.
  intros Hu. unfold vec_fillRandomV. split.
  - intros Ha Hb Hab. rewrite Ha, Hb, Nat.eqb_refl. simpl negb. cbv iota.
    match goal with |- context [loop ?n ?f ?s] =>
      pose proof (loop_inv (fun k st => exists w, st = (w, Ok tt) /\ length w = length v /\
         forall i, (i < k)%nat -> nth i a 0 <= nth i w 0 <= nth i b 0) n f s) as L end.
    apply L. { exists v; repeat split; auto; lia. }
    intros k t Hk (w & -> & Hw & Hi). simpl nltb. unfold vget. simpl n0.
    rewrite (proj2 (Rltb_false _ _)) by auto. eexists; split; eauto. rewrite upd_length. split; auto.
    intros i Hik. rewrite nth_upd by lia. destruct (Nat.eqb_spec k i).
    + subst. apply unif_between; auto.
    + apply Hi; lia.
  - intros H. destruct (Nat.eqb_spec (length a) (length v)) as [Ea|Ea]; simpl; auto.
    destruct (Nat.eqb_spec (length b) (length v)) as [Eb|Eb]; simpl; auto.
    destruct H as [H|[H|(i & Hi & Hlt)]]; try congruence.
    match goal with |- snd (loop ?n ?f ?s) = _ =>
      pose proof (loop_inv (fun k st => (exists w, st = (w, Ok tt) /\ (i < k -> False)%nat) \/ snd st = Throw InvalidArgument) n f s) as L end.
    destruct L as [(w & _ & E)|L]; auto.
    + left. exists v; split; auto; lia.
    + intros k t Hk [(w & -> & E)|E].
      * unfold vget; simpl n0. destruct (Rltb_spec (nth k b 0) (nth k a 0)) as [E'|E'].
        right; auto. left. eexists; split; eauto. intros Hik. destruct (Nat.eq_dec i k); [subst; lra|apply E; lia].
      * right. destruct t as [w o]. simpl in E. subst o. auto.
    + exfalso; auto.
Qed.

Lemma randomBetween_spec (a b : list R) u : (forall k, 0 <= u k < 1) -> length a = length b ->
  (forall i, (i < length a)%nat -> nth i a 0 <= nth i b 0) ->
  exists w, vec_randomBetween a b u = Ok w /\ length w = length a /\
     forall i, (i < length a)%nat -> nth i a 0 <= nth i w 0 <= nth i b 0.
Proof.
  intros Hu Hab Hle. unfold vec_randomBetween. rewrite <- Hab, Nat.eqb_refl. simpl negb. cbv iota.
  destruct (existsb _ _) eqn:E.
  - exfalso. apply existsb_seq in E as (i & Hi & E). simpl nltb in E. apply Rltb_true in E. unfold vget in E. simpl n0 in E.
    specialize (Hle i Hi). lra.
  - eexists; split; eauto. rewrite vbuild_length. split; auto.
    intros i Hi. change (nth i (vbuild ?n ?f) 0) with (vget (vbuild n f) i). rewrite vget_vbuild by auto. apply unif_between; auto. apply Hle; auto.
Qed.

Lemma unit_throws t (v : list R) : vec_unit t v = Throw RuntimeError <-> (forall i, (i < length v)%nat -> nth i v 0 = 0).
Proof.
  unfold vec_unit. simpl neqb. change (@n0 R RNum) with 0. destruct (Reqb_spec (vec_norm t v) 0) as [E|E]; rewrite <- (norm_zero t v).
  - split; auto.
  - split; intros; try discriminate; congruence.
Qed.
Lemma unit_ok t (v : list R) : (exists i, (i < length v)%nat /\ nth i v 0 <> 0) ->
  exists u, vec_unit t v = Ok u /\ vec_norm t u = 1 /\ length u = length v /\
            exists c, 0 < c /\ forall i, (i < length v)%nat -> nth i u 0 = nth i v 0 * c.
Proof.
  intros (i & Hi & Hne). pose proof (unit_norm t v) as HU. pose proof (norm_zero t v) as NZ. pose proof (norm_nonneg t v).
  unfold vec_unit in *. simpl neqb in *. change (@n0 R RNum) with 0 in *. destruct (Reqb_spec (vec_norm t v) 0) as [E|E].
  - exfalso. apply Hne, NZ; auto.
  - eexists; split; eauto. split; [apply HU; auto|]. rewrite vbuild_length. split; auto.
    exists (/ vec_norm t v). split. apply Rinv_0_lt_compat. lra.
    intros k Hk. change (nth k (vbuild ?n ?f) 0) with (vget (vbuild n f) k). rewrite vget_vbuild by auto. reflexivity.
Qed.

Lemma rsum_fold (g : R -> R) (v : list R) : rsum (length v) (fun i => g (nth i v 0)) = fold_right (fun x acc => g x + acc) 0 v.
Proof. induction v as [|a v IH]; auto. cbn [length]. rewrite rsum_S_l. simpl. rewrite <- IH. auto. Qed.
Lemma linf_attained n f : (0 < n)%nat -> exists k, (k < n)%nat /\ linf n f = Rabs (f k).
Proof.
  unfold linf. induction n; intros H. lia. simpl loop. rewrite nmax_Rmax. destruct n.
  - exists 0%nat. split; auto. simpl. apply Rmax_right, Rabs_pos.
  - destruct (IHn ltac:(lia)) as (k & Hk & E). unfold Rmax. destruct (Rle_dec _ _).
    + exists (S n). auto.
    + exists k. split; auto.
Qed.
Lemma norm_values (v : list R) :
  vec_norm L1 v = fold_right (fun x acc => Rabs x + acc) 0 v /\
  vec_norm L2 v = sqrt (fold_right (fun x acc => x * x + acc) 0 v) /\
  (forall x, In x v -> Rabs x <= vec_norm LINF v) /\ (v <> [] -> exists x, In x v /\ vec_norm LINF v = Rabs x).
Proof.
  rewrite !vec_norm_eq. split; [apply rsum_fold|]. split; [f_equal; apply (rsum_fold (fun x => x * x))|]. split.
  - intros x Hx. apply (In_nth _ _ 0) in Hx as (k & Hk & <-). apply (linf_ub (length v) (fun i => nth i v 0)); auto.
  - intros Hne. destruct (linf_attained (length v) (fun i => nth i v 0)) as (k & Hk & E).
    destruct v; simpl in *; try congruence; lia. exists (nth k v 0). split; auto. apply nth_In; auto.
Qed.
