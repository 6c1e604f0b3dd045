(** LU factorisation with partial pivoting, its solves, and inversion, over the reals. *)
From Coq Require Import Reals Lra List Arith Lia ZArith Bool Permutation.
From Verif Require Import Base Num RealNum RSpec DetSpec VecModel MatModel MatLemmas CholProofs MatReal.
Import ListNotations.
Local Open Scope R_scope.

Definition isq (m : mat R) (n : nat) : Prop := wf m /\ nrows m = n /\ ncols m = n.

Lemma lu_pivot_ok lu k n : (k < n)%nat ->
  (k <= lu_pivot lu k n < n)%nat /\ forall i, (k <= i < n)%nat -> Rabs (mget lu i k) <= Rabs (mget lu (lu_pivot lu k n) k).
Proof.
  intros Hk. unfold lu_pivot.
  pose (P := fun m r => (k <= r < m)%nat /\ forall i, (k <= i < m)%nat -> Rabs (mget lu i k) <= Rabs (mget lu r k)).
  assert (P n (loop_from (k + 1) n (fun i mr => if nabs (mget lu i k) >! nabs (mget lu mr k) then i else mr) k)) as H.
  { apply loop_from_inv. lia.
    - split. lia. intros i Hi. replace i with k by lia. lra.
    - intros m r Hm [A B]. simpl. destruct (Rltb_spec (Rabs (mget lu r k)) (Rabs (mget lu m k))).
      + split. lia. intros i Hi. destruct (Nat.eq_dec i m). subst; lra. specialize (B i ltac:(lia)). lra.
      + split. lia. intros i Hi. destruct (Nat.eq_dec i m). subst; lra. apply B; lia. }
  exact H.
Qed.

Lemma lu_swap_ok lu p k r n : isq lu n -> length p = n -> (k < n)%nat -> (r < n)%nat ->
  isq (fst (lu_swap lu p k r n)) n /\ length (snd (lu_swap lu p k r n)) = n /\
  (forall a b, (a < n)%nat -> (b < n)%nat ->
    mget (fst (lu_swap lu p k r n)) a b = if Nat.eqb a k then mget lu r b else if Nat.eqb a r then mget lu k b else mget lu a b) /\
  (forall a, (a < n)%nat ->
    nth a (snd (lu_swap lu p k r n)) 0%nat = if Nat.eqb a k then nth r p 0%nat else if Nat.eqb a r then nth k p 0%nat else nth a p 0%nat).
Proof.
  intros (W & Hr & Hc) Hp Hk Hrn. unfold lu_swap. destruct (Nat.eqb_spec r k) as [->|Hne].
  - simpl. repeat split; auto.
    + intros a b Ha Hb. destruct (Nat.eqb_spec a k); subst; auto.
    + intros a Ha. destruct (Nat.eqb_spec a k); subst; auto.
  - simpl.
    pose (P := fun c (M : mat R) => isq M n /\ forall a b, (a < n)%nat -> (b < n)%nat ->
      mget M a b = if Nat.ltb b c then (if Nat.eqb a k then mget lu r b else if Nat.eqb a r then mget lu k b else mget lu a b) else mget lu a b).
    assert (P n (loop n (fun j a => mset (mset a k j (mget a r j)) r j (mget a k j)) lu)) as [H1 H2].
    { apply loop_inv.
      - split. repeat split; auto. intros; auto.
      - intros c M Hcn [(W' & Hr' & Hc') HM]. split. repeat split; auto. apply mset_wf, mset_wf; auto.
        intros a b Ha Hb. rewrite mget_mset; simpl; auto; try lia. 2: apply mset_wf; auto. rewrite mget_mset by (auto; lia). rewrite !HM by lia.
        rewrite Nat.ltb_irrefl.
        destruct (Nat.eqb_spec r a), (Nat.eqb_spec c b), (Nat.eqb_spec k a), (Nat.ltb_spec b c), (Nat.ltb_spec b (S c)),
          (Nat.eqb_spec a k), (Nat.eqb_spec a r); simpl; subst; auto; try lia. }
    split; auto. split. rewrite !upd_length; auto. split.
    + intros a b Ha Hb. rewrite H2 by auto. destruct (Nat.ltb_spec b n); auto; lia.
    + intros a Ha. rewrite !nth_upd by (rewrite ?upd_length; lia).
      destruct (Nat.eqb_spec r a), (Nat.eqb_spec k a), (Nat.eqb_spec a k), (Nat.eqb_spec a r); subst; auto; lia.
Qed.

Lemma lu_elim_ok lu k n : isq lu n -> (k < n)%nat ->
  isq (lu_elim lu k n) n /\
  forall a b, (a < n)%nat -> (b < n)%nat ->
    mget (lu_elim lu k n) a b =
      if Nat.ltb k a then (if Nat.eqb b k then mget lu a k / mget lu k k
                           else if Nat.ltb k b then mget lu a b - mget lu a k / mget lu k k * mget lu k b else mget lu a b)
      else mget lu a b.
Proof.
  intros (W & Hr & Hc) Hk. unfold lu_elim.
  pose (P1 := fun i (M : mat R) => isq M n /\ forall a b, (a < n)%nat -> (b < n)%nat ->
     mget M a b = if (Nat.ltb k a && Nat.ltb a i && Nat.eqb b k)%bool then mget lu a k / mget lu k k else mget lu a b).
  assert (P1 n (loop_from (k + 1) n (fun i a => mset a i k (mget a i k /! mget a k k)) lu)) as [H1 H2].
  { apply loop_from_inv. lia.
    - split. repeat split; auto. intros a b Ha Hb. destruct (Nat.ltb_spec k a), (Nat.ltb_spec a (k + 1)); simpl; auto; lia.
    - intros i M Hi [(W' & Hr' & Hc') HM]. split. repeat split; auto. apply mset_wf; auto.
      intros a b Ha Hb. rewrite mget_mset by (auto; lia). rewrite !HM by lia. rewrite !Nat.ltb_irrefl, Nat.eqb_refl.
      destruct (Nat.eqb_spec i a) as [<-|Hia], (Nat.eqb_spec k b) as [<-|Hkb]; cbn [andb].
      + rewrite Nat.eqb_refl, andb_false_r. destruct (Nat.ltb_spec k i), (Nat.ltb_spec i (S i)); try lia. reflexivity.
      + destruct (Nat.eqb_spec b k); try lia. rewrite !andb_false_r. auto.
      + rewrite Nat.eqb_refl. destruct (Nat.ltb_spec a i), (Nat.ltb_spec a (S i)); auto; lia.
      + destruct (Nat.eqb_spec b k); try lia. rewrite !andb_false_r. auto. }
  set (l1 := loop_from (k + 1) n (fun i a => mset a i k (mget a i k /! mget a k k)) lu) in *.
  pose (f := fun a b => mget l1 a b - mget l1 a k * mget l1 k b).
  pose (P2 := fun j (M : mat R) => isq M n /\ forall a b, (a < n)%nat -> (b < n)%nat ->
     mget M a b = if (Nat.ltb k a && Nat.ltb k b && Nat.ltb b j)%bool then f a b else mget l1 a b).
  assert (P2 n (loop_from (k + 1) n (fun j a => loop_from (k + 1) n (fun i b => mset b i j (mget b i j -! mget b i k *! mget b k j)) a) l1)) as [H3 H4].
  { apply loop_from_inv. lia.
    - split. auto. intros a b Ha Hb. destruct (Nat.ltb_spec k a), (Nat.ltb_spec k b), (Nat.ltb_spec b (k + 1)); simpl; auto; lia.
    - intros j M Hj [HM1 HM].
      pose (P3 := fun i (M' : mat R) => isq M' n /\ forall a b, (a < n)%nat -> (b < n)%nat ->
        mget M' a b = if (Nat.ltb k a && Nat.ltb a i && Nat.eqb b j)%bool then f a b else mget M a b).
      assert (P3 n (loop_from (k + 1) n (fun i b => mset b i j (mget b i j -! mget b i k *! mget b k j)) M)) as [H5 H6].
      { apply loop_from_inv. lia.
        - split. auto. intros a b Ha Hb. destruct (Nat.ltb_spec k a), (Nat.ltb_spec a (k + 1)); simpl; auto; lia.
        - intros i M' Hi [(W' & Hr' & Hc') HM']. split. repeat split; auto. apply mset_wf; auto.
          intros a b Ha Hb. rewrite mget_mset by (auto; lia). rewrite !HM' by lia.
          destruct (Nat.eqb_spec i a) as [<-|Hia], (Nat.eqb_spec j b) as [<-|Hjb]; cbn [andb].
          + rewrite !HM by lia. rewrite Nat.ltb_irrefl.
            destruct (Nat.ltb_spec k i), (Nat.ltb_spec i i), (Nat.ltb_spec i (S i)), (Nat.eqb_spec j j), (Nat.eqb_spec k j), (Nat.ltb_spec k k), (Nat.ltb_spec k j), (Nat.ltb_spec j j); simpl; auto; try lia.
          + destruct (Nat.eqb_spec b j); try lia. rewrite !andb_false_r. auto.
          + destruct (Nat.ltb_spec a i), (Nat.ltb_spec a (S i)); auto; lia.
          + destruct (Nat.eqb_spec b j); try lia. rewrite !andb_false_r. auto. }
      split; auto. intros a b Ha Hb. rewrite H6, HM by auto.
      destruct (Nat.ltb_spec k a), (Nat.ltb_spec a n), (Nat.eqb_spec b j), (Nat.ltb_spec k b), (Nat.ltb_spec b j), (Nat.ltb_spec b (S j)); simpl; auto; lia. }
  split; auto. intros a b Ha Hb. rewrite H4 by auto. unfold f. rewrite !H2 by lia. rewrite Nat.ltb_irrefl, Nat.eqb_refl.
  destruct (Nat.ltb_spec k a), (Nat.ltb_spec k b), (Nat.ltb_spec b n), (Nat.ltb_spec a n), (Nat.eqb_spec b k), (Nat.ltb_spec k n); simpl; auto; try lia.
Qed.

(** *** the loop invariant *)
Definition lo (lu : mat R) (i m : nat) : R := if Nat.ltb m i then mget lu i m else if Nat.eqb m i then 1 else 0.
Definition up (lu : mat R) (m j : nat) : R := if Nat.leb m j then mget lu m j else 0.
Definition tiny : R := 1 / 10 ^ 9.

Lemma nlit_tiny : @nlit R RNum 10 (-10) = tiny.
Proof.
  unfold tiny. simpl nlit. unfold Rlit. change (-10)%Z with (- Z.of_nat 10)%Z. rewrite powerRZ_neg'. rewrite <- pow_powerRZ. field.
Qed.

Record luinv (A : mat R) (n k : nat) (lu : mat R) (p : list nat) : Prop := {
  li_sq : isq lu n;
  li_perm : Permutation p (seq 0 n);
  li_prod : forall i j, (i < n)%nat -> (j < n)%nat ->
    mget A (nth i p 0%nat) j = rsum k (fun m => lo lu i m * up lu m j) + (if (Nat.leb k i && Nat.leb k j)%bool then mget lu i j else 0);
  li_mult : forall i m, (i < n)%nat -> (m < k)%nat -> (m < i)%nat -> Rabs (mget lu i m) <= 1;
  li_piv : forall m, (m < k)%nat -> tiny <= Rabs (mget lu m m)
}.

Lemma tiny_pos : 0 < tiny.
Proof. unfold tiny. lra. Qed.

Lemma perm_swap p n k r p' : Permutation p (seq 0 n) -> (k < n)%nat -> (r < n)%nat -> length p' = n ->
  (forall a, (a < n)%nat -> nth a p' 0%nat = if Nat.eqb a k then nth r p 0%nat else if Nat.eqb a r then nth k p 0%nat else nth a p 0%nat) ->
  Permutation p' (seq 0 n).
Proof.
  intros Hp Hk Hr Hl H. transitivity p; auto. symmetry. apply Permutation_nth with (d := 0%nat).
  assert (length p = n) as Hlp by (rewrite (Permutation_length Hp), seq_length; auto).
  split. congruence. exists (fun a => if Nat.eqb a k then r else if Nat.eqb a r then k else a). rewrite Hlp. repeat split.
  - intros a Ha. destruct (Nat.eqb a k), (Nat.eqb a r); auto.
  - intros a b Ha Hb. destruct (Nat.eqb_spec a k), (Nat.eqb_spec a r), (Nat.eqb_spec b k), (Nat.eqb_spec b r); lia.
  - intros a Ha. rewrite H by auto. destruct (Nat.eqb a k), (Nat.eqb a r); auto.
Qed.

Lemma lu_step_ok A n k lu p : (k < n)%nat -> luinv A n k lu p ->
  match lu_step n k (Some (lu, p)) with
  | Some (lu', p') => luinv A n (S k) lu' p'
  | None => exists lu' p' r, (k <= r < n)%nat /\ luinv A n k lu' p' /\ (forall i, (k <= i < n)%nat -> Rabs (mget lu' i k) < tiny)
  end.
Proof.
  intros Hk [Hsq Hperm Hprod Hmult Hpiv]. unfold lu_step.
  destruct (lu_pivot_ok lu k n Hk) as [Hr Hmax]. set (r := lu_pivot lu k n) in *.
  assert (length p = n) as Hlp by (rewrite (Permutation_length Hperm), seq_length; auto).
  destruct (lu_swap_ok lu p k r n Hsq Hlp Hk ltac:(lia)) as (S1 & S2 & S3 & S4).
  destruct (lu_swap lu p k r n) as [lu1 p1]. simpl fst in *; simpl snd in *.
  assert (forall a m, (a < n)%nat -> (m < k)%nat -> lo lu1 a m = lo lu (if Nat.eqb a k then r else if Nat.eqb a r then k else a) m) as Hlo.
  { intros a m Ha Hm. unfold lo. rewrite !S3 by lia.
    destruct (Nat.eqb_spec a k), (Nat.eqb_spec a r), (Nat.ltb_spec m a), (Nat.ltb_spec m r), (Nat.ltb_spec m k), (Nat.eqb_spec m a), (Nat.eqb_spec m r), (Nat.eqb_spec m k); auto; try lia. }
  assert (forall m j, (m < k)%nat -> (j < n)%nat -> up lu1 m j = up lu m j) as Hup.
  { intros m j Hm Hj. unfold up. rewrite S3 by lia. destruct (Nat.eqb_spec m k), (Nat.eqb_spec m r); auto; lia. }
  assert (luinv A n k lu1 p1) as I1.
  { constructor; auto.
    - apply (perm_swap p n k r p1); auto; lia.
    - intros i j Hi Hj. rewrite S4, S3 by auto. rewrite (rsum_ext k _ (fun m => lo lu (if Nat.eqb i k then r else if Nat.eqb i r then k else i) m * up lu m j)).
      2:{ intros m Hm. rewrite Hlo, Hup by auto. auto. }
      destruct (Nat.eqb_spec i k) as [Eik|Eik].
      + rewrite Hprod by lia. destruct (Nat.leb_spec k r), (Nat.leb_spec k i), (Nat.leb_spec k j); simpl; auto; lia.
      + destruct (Nat.eqb_spec i r) as [Eir|Eir].
        * rewrite Hprod by lia. destruct (Nat.leb_spec k k), (Nat.leb_spec k i), (Nat.leb_spec k j); simpl; auto; lia.
        * apply Hprod; auto.
    - intros i m Hi Hm Hmi. rewrite S3 by lia. destruct (Nat.eqb_spec i k), (Nat.eqb_spec i r); apply Hmult; lia.
    - intros m Hm. rewrite S3 by lia. destruct (Nat.eqb_spec m k), (Nat.eqb_spec m r); try lia. apply Hpiv; auto. }
  assert (forall i, (k <= i < n)%nat -> Rabs (mget lu1 i k) <= Rabs (mget lu1 k k)) as Hmax1.
  { intros i Hi. rewrite (S3 k k), Nat.eqb_refl by lia. rewrite S3 by lia.
    destruct (Nat.eqb_spec i k), (Nat.eqb_spec i r); try lra; apply Hmax; lia. }
  clear Hsq Hperm Hprod Hmult Hpiv Hmax S3 S4 Hlo Hup Hlp. rewrite nlit_tiny.
  change (nabs (mget lu1 k k) <! tiny) with (Rltb (Rabs (mget lu1 k k)) tiny).
  destruct (Rltb_spec (Rabs (mget lu1 k k)) tiny) as [Ht|Ht].
  - exists lu1, p1, r. split; auto. split; auto. intros i Hi. specialize (Hmax1 i Hi). lra.
  - destruct I1 as [Hsq Hperm Hprod Hmult Hpiv].
    destruct (lu_elim_ok lu1 k n Hsq Hk) as (E1 & E2). set (lu2 := lu_elim lu1 k n) in *.
    assert (mget lu1 k k <> 0) as Hnz. { intros Z. rewrite Z, Rabs_R0 in Ht. pose proof tiny_pos. lra. }
    assert (forall a m, (a < n)%nat -> (m < k)%nat -> lo lu2 a m = lo lu1 a m) as Hlo.
    { intros a m Ha Hm. unfold lo. rewrite E2 by lia. destruct (Nat.ltb_spec m a); auto.
      destruct (Nat.ltb_spec k a), (Nat.eqb_spec m k), (Nat.ltb_spec k m); auto; lia. }
    assert (forall m j, (m < k)%nat -> (j < n)%nat -> up lu2 m j = up lu1 m j) as Hup.
    { intros m j Hm Hj. unfold up. rewrite E2 by lia. destruct (Nat.ltb_spec k m); auto; lia. }
    constructor; auto.
    + intros i j Hi Hj. rewrite Hprod by auto. cbn [rsum].
      rewrite (rsum_ext k (fun m => lo lu2 i m * up lu2 m j) (fun m => lo lu1 i m * up lu1 m j)) by (intros; rewrite Hlo, Hup; auto).
      rewrite Rplus_assoc. f_equal. unfold lo, up. rewrite !E2 by lia. rewrite Nat.ltb_irrefl, Nat.eqb_refl.
      destruct (Nat.leb_spec k i), (Nat.leb_spec k j), (Nat.leb_spec (S k) i), (Nat.leb_spec (S k) j), (Nat.ltb_spec k i), (Nat.eqb_spec k i), (Nat.eqb_spec j k), (Nat.ltb_spec k j);
        simpl; try lia; try lra.
      * subst j. field. auto.
      * subst i. lra.
      * subst i. lra.
    + intros i m Hi Hm Hmi. rewrite E2 by lia. destruct (Nat.eq_dec m k) as [->|Hne].
      * destruct (Nat.ltb_spec k i); try lia. rewrite Nat.eqb_refl. unfold Rdiv. rewrite Rabs_mult, Rabs_inv.
        assert (0 < Rabs (mget lu1 k k)) by (apply Rabs_pos_lt; auto).
        apply (Rmult_le_reg_r (Rabs (mget lu1 k k))); auto. rewrite Rmult_assoc, Rinv_l by lra. specialize (Hmax1 i ltac:(lia)). lra.
      * destruct (Nat.ltb_spec k i), (Nat.eqb_spec m k), (Nat.ltb_spec k m); try lia; apply Hmult; lia.
    + intros m Hm. rewrite E2 by lia. destruct (Nat.ltb_spec k m); try lia.
      destruct (Nat.eq_dec m k). subst. lra. apply Hpiv; lia.
Qed.

Lemma lu_decomposition_ok A : isq A (nrows A) ->
  match lu_decomposition A (nrows A) with
  | Some (lu, p) => luinv A (nrows A) (nrows A) lu p
  | None => exists k lu p, (k < nrows A)%nat /\ luinv A (nrows A) k lu p /\ (forall i, (k <= i < nrows A)%nat -> Rabs (mget lu i k) < tiny)
  end.
Proof.
  intros Hsq. set (n := nrows A). unfold lu_decomposition.
  apply (loop_inv (fun k st => match st with Some (lu, p) => luinv A n k lu p
    | None => exists k lu p, (k < n)%nat /\ luinv A n k lu p /\ (forall i, (k <= i < n)%nat -> Rabs (mget lu i k) < tiny) end)).
  - constructor; auto. intros i j Hi Hj. rewrite seq_nth by auto. simpl. lra. intros; lia. intros; lia.
  - intros k st Hk Hst. destruct st as [[lu p]|]; auto.
    pose proof (lu_step_ok A n k lu p Hk Hst) as X. destruct (lu_step n k (Some (lu, p))) as [[lu' p']|]; auto.
    destruct X as (lu' & p' & r & X1 & X2 & X3). exists k, lu', p'. auto.
Qed.

(** P A = L U *)
Lemma lu_product A n lu p : luinv A n n lu p -> forall i j, (i < n)%nat -> (j < n)%nat -> mget A (nth i p 0%nat) j = mm n (lo lu) (up lu) i j.
Proof.
  intros [H1 H2 H3 H4 H5] i j Hi Hj. rewrite H3 by auto. unfold mm. destruct (Nat.leb_spec n i); try lia. simpl. lra.
Qed.
Lemma lu_diag_nz A n lu p : luinv A n n lu p -> forall m, (m < n)%nat -> mget lu m m <> 0.
Proof. intros [H1 H2 H3 H4 H5] m Hm Z. specialize (H5 m Hm). rewrite Z, Rabs_R0 in H5. pose proof tiny_pos. lra. Qed.

(** *** substitutions *)
Lemma lu_forward_ok lu p (b : list R) n :
  length (lu_forward lu p b n) = n /\
  forall i, (i < n)%nat -> rsum n (fun j => lo lu i j * vget (lu_forward lu p b n) j) = vget b (nth i p 0%nat).
Proof.
  unfold lu_forward. set (y0 := vbuild n (fun i => vget b (nth i p 0%nat))).
  pose (P := fun k (y : list R) => length y = n /\
    (forall i, (i < k)%nat -> vget y i = vget b (nth i p 0%nat) - rsum i (fun j => mget lu i j * vget y j)) /\
    (forall i, (k <= i < n)%nat -> vget y i = vget b (nth i p 0%nat))).
  assert (P n (loop n (fun i y => loop i (fun j z => upd z i (vget z i -! mget lu i j *! vget z j)) y) y0)) as (H1 & H2 & _).
  { apply loop_inv.
    - split. apply vbuild_length. split. intros; lia. intros i Hi. unfold y0. rewrite vget_vbuild by lia. auto.
    - intros i y Hi (A & B & C).
      pose (Q := fun k (z : list R) => length z = n /\ vget z i = vget y i - rsum k (fun j => mget lu i j * vget y j) /\ forall a, a <> i -> vget z a = vget y a).
      assert (Q i (loop i (fun j z => upd z i (vget z i -! mget lu i j *! vget z j)) y)) as (Q1 & Q2 & Q3).
      { apply loop_inv.
        - split; auto. split; auto. simpl; lra.
        - intros k z Hk (X & Y & Z). split. rewrite upd_length; auto. split.
          + rewrite vget_upd by lia. rewrite Nat.eqb_refl. rewrite Y, Z by lia. simpl. lra.
          + intros a Ha. rewrite vget_upd by lia. destruct (Nat.eqb_spec i a); auto; lia. }
      split; auto. split.
      + intros a Ha. destruct (Nat.eq_dec a i) as [->|Hne].
        * rewrite Q2, C by lia. f_equal. apply rsum_ext. intros j Hj. rewrite Q3 by lia. auto.
        * rewrite Q3 by auto. rewrite B by lia. f_equal. apply rsum_ext. intros j Hj. rewrite Q3 by lia. auto.
      + intros a Ha. rewrite Q3 by lia. apply C; lia. }
  split; auto. intros i Hi. rewrite (rsum_trunc n (S i)); try lia.
  - cbn [rsum]. unfold lo at 2. rewrite Nat.ltb_irrefl, Nat.eqb_refl.
    rewrite (rsum_ext i _ (fun j => mget lu i j * vget (loop n (fun i y => loop i (fun j z => upd z i (vget z i -! mget lu i j *! vget z j)) y) y0) j)).
    + rewrite (H2 i Hi). lra.
    + intros k Hk. unfold lo. destruct (Nat.ltb_spec k i); auto; lia.
  - intros k Hk. unfold lo. destruct (Nat.ltb_spec k i), (Nat.eqb_spec k i); try lia. lra.
Qed.
Lemma lu_backward_ok lu (y : list R) n : (forall m, (m < n)%nat -> mget lu m m <> 0) ->
  length (lu_backward lu y n) = n /\
  forall i, (i < n)%nat -> rsum n (fun j => up lu i j * vget (lu_backward lu y n) j) = vget y i.
Proof.
  intros Hd. unfold lu_backward.
  pose (P := fun k (x : list R) => length x = n /\
    (forall i, (k <= i < n)%nat -> rsum n (fun j => up lu i j * vget x j) = vget y i)).
  assert (P 0%nat (loop_down n (fun i x =>
      let x := upd x i (vget y i) in
      let x := loop_from (i + 1) n (fun j z => upd z i (vget z i -! mget lu i j *! vget z j)) x in
      upd x i (vget x i /! mget lu i i)) (repeat n0 n))) as (H1 & H2).
  { apply loop_down_inv.
    - split. apply repeat_length. intros; lia.
    - intros i x Hi (A & B). cbv zeta.
      pose (Q := fun k (z : list R) => length z = n /\ vget z i = vget y i - rsum (k - (i + 1)) (fun d => mget lu i (i + 1 + d) * vget x (i + 1 + d)) /\ forall a, a <> i -> vget z a = vget x a).
      assert (Q n (loop_from (i + 1) n (fun j z => upd z i (vget z i -! mget lu i j *! vget z j)) (upd x i (vget y i)))) as (Q1 & Q2 & Q3).
      { apply loop_from_inv. lia.
        - split. rewrite upd_length; auto. split. rewrite vget_upd, Nat.eqb_refl, Nat.sub_diag by lia. simpl; lra.
          intros a Ha. rewrite vget_upd by lia. destruct (Nat.eqb_spec i a); auto; lia.
        - intros k z Hk (X & Y & Z). split. rewrite upd_length; auto. split.
          + rewrite vget_upd by lia. rewrite Nat.eqb_refl. rewrite Y, Z by lia. replace (S k - (i + 1))%nat with (S (k - (i + 1))) by lia.
            cbn [rsum]. replace (i + 1 + (k - (i + 1)))%nat with k by lia. simpl. lra.
          + intros a Ha. rewrite vget_upd by lia. destruct (Nat.eqb_spec i a); auto; lia. }
      set (z := loop_from (i + 1) n (fun j z => upd z i (vget z i -! mget lu i j *! vget z j)) (upd x i (vget y i))) in *.
      split. rewrite upd_length; auto. intros a Ha.
      assert (forall c, (c < n)%nat -> c <> i -> vget (upd z i (vget z i /! mget lu i i)) c = vget x c) as Hoth.
      { intros c Hc Hne. rewrite vget_upd by lia. destruct (Nat.eqb_spec i c); try lia. apply Q3; auto. }
      destruct (Nat.eq_dec a i) as [->|Hne].
      + replace n with (i + (S (n - (i + 1))))%nat at 1 by lia. rewrite rsum_split, rsum_0, rsum_S_l.
        2:{ intros k Hk. unfold up. destruct (Nat.leb_spec i k); try lia. lra. }
        rewrite Nat.add_0_r.
        rewrite (rsum_ext (n - (i + 1)) (fun k => up lu i (i + S k) * vget (upd z i (vget z i /! mget lu i i)) (i + S k)) (fun d => mget lu i (i + 1 + d) * vget x (i + 1 + d))).
        2:{ intros k Hk. rewrite Hoth by lia. unfold up. destruct (Nat.leb_spec i (i + S k)); try lia. f_equal; f_equal; lia. }
        rewrite vget_upd, Nat.eqb_refl by lia. rewrite Q2. unfold up. destruct (Nat.leb_spec i i); try lia. simpl. field. apply Hd; auto.
      + rewrite <- (B a) by lia. apply rsum_ext. intros k Hk. destruct (Nat.eq_dec k i) as [->|Hki].
        * unfold up. destruct (Nat.leb_spec a i); try lia. lra.
        * rewrite Hoth by auto. auto. }
  split; auto. intros; apply H2; lia.
Qed.

(** solving A x = b *)
Lemma lu_solve_ok A n lu p (b : list R) : luinv A n n lu p ->
  length (lu_backward lu (lu_forward lu p b n) n) = n /\
  forall i, (i < n)%nat -> mv n (mget A) (vget (lu_backward lu (lu_forward lu p b n) n)) i = vget b i.
Proof.
  intros H. pose proof (lu_diag_nz A n lu p H) as Hd. pose proof (lu_product A n lu p H) as Hp.
  destruct (lu_forward_ok lu p b n) as [F1 F2]. destruct (lu_backward_ok lu (lu_forward lu p b n) n Hd) as [B1 B2].
  split; auto. set (y := lu_forward lu p b n) in *. set (x := lu_backward lu y n) in *.
  assert (forall i, (i < n)%nat -> rsum n (fun j => mget A (nth i p 0%nat) j * vget x j) = vget b (nth i p 0%nat)) as X.
  { intros i Hi. rewrite <- F2 by auto.
    rewrite (rsum_ext n _ (fun j => rsum n (fun k => lo lu i k * up lu k j * vget x j))).
    2:{ intros j Hj. rewrite Hp by auto. unfold mm. rewrite rsum_scal_r. auto. }
    rewrite rsum_swap. apply rsum_ext. intros k Hk. rewrite <- (B2 k Hk), <- rsum_scal. apply rsum_ext. intros; lra. }
  intros i Hi. destruct (perm_seq_facts n p (li_perm _ _ _ _ _ H)) as (P1 & P2 & P3).
  destruct (P3 i Hi) as (i' & Hi' & E & _). rewrite <- E. apply X; auto.
Qed.

(** A x = 0 only for x = 0 *)
Lemma lu_nonsingular A n lu p : luinv A n n lu p -> ~ singular n (mget A).
Proof.
  intros H (x & (i0 & Hi0 & Hx) & HA). pose proof (lu_diag_nz A n lu p H) as Hd. pose proof (lu_product A n lu p H) as Hp.
  destruct (perm_seq_facts n p (li_perm _ _ _ _ _ H)) as (P1 & P2 & P3).
  set (z := fun k => rsum n (fun j => up lu k j * x j)).
  assert (forall i, (i < n)%nat -> rsum n (fun k => lo lu i k * z k) = 0) as HL.
  { intros i Hi. rewrite <- (HA (nth i p 0%nat)) by auto. unfold mv.
    rewrite (rsum_ext n (fun j => mget A _ j * x j) (fun j => rsum n (fun k => lo lu i k * up lu k j * x j))).
    2:{ intros j Hj. rewrite Hp by auto. unfold mm. rewrite rsum_scal_r. auto. }
    rewrite rsum_swap. apply rsum_ext. intros k Hk. unfold z. rewrite <- rsum_scal. apply rsum_ext. intros; lra. }
  assert (forall i, (i < n)%nat -> z i = 0) as Hz.
  { induction i as [i IH] using lt_wf_ind. intros Hi. specialize (HL i Hi). rewrite (rsum_trunc n (S i)) in HL; try lia.
    - cbn [rsum] in HL. rewrite rsum_0 in HL. unfold lo in HL. rewrite Nat.ltb_irrefl, Nat.eqb_refl in HL. lra.
      intros k Hk. rewrite IH by lia. lra.
    - intros k Hk. unfold lo. destruct (Nat.ltb_spec k i), (Nat.eqb_spec k i); try lia. lra. }
  assert (forall d i, (i + d = n)%nat -> forall k, (i <= k < n)%nat -> x k = 0) as Hx0.
  { induction d; intros i Hi k Hk. lia. destruct (Nat.eq_dec k i) as [->|Hne]. 2: apply (IHd (S i)); lia.
    specialize (Hz i ltac:(lia)). unfold z in Hz. rewrite (rsum_single n i) in Hz; try lia.
    - unfold up in Hz. rewrite Nat.leb_refl in Hz. apply Rmult_integral in Hz. destruct Hz as [Z|Z]; auto. exfalso. apply (Hd i); auto; lia.
    - intros j Hj Hji. destruct (Nat.lt_ge_cases j i). unfold up. destruct (Nat.leb_spec i j); try lia. lra. rewrite (IHd (S i)) by lia. lra. }
  apply Hx. apply (Hx0 n 0%nat); lia.
Qed.
