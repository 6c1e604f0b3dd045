(** Matrix structure lemmas: edits, sub-matrices, concatenation, products. *)
From Coq Require Import List Arith Lia ZArith Bool Sorted Permutation.
From Verif Require Import Base Num VecModel MatModel MatLemmas MatSpec VecProofs VecProofs2.
Import ListNotations.

(** *** std::sort + std::unique on ints *)
Lemma zinsert_In x l y : In y (zinsert x l) <-> y = x \/ In y l.
Proof.
  induction l as [|a l IH]; simpl. firstorder. destruct (Z.ltb_spec a x); simpl; rewrite ?IH; firstorder; subst; auto.
Qed.
Lemma zsort_In l y : In y (zsort l) <-> In y l.
Proof. induction l as [|a l IH]; simpl. tauto. rewrite zinsert_In, IH. firstorder. Qed.
Lemma zinsert_Sorted x l : Sorted Z.le l -> Sorted Z.le (zinsert x l).
Proof.
  intros Hs. induction Hs as [|a l Hs IH Hd]; simpl. constructor; auto.
  destruct (Z.ltb_spec a x).
  - constructor; auto. destruct l as [|b l]; simpl. constructor; lia. inversion Hd; subst.
    destruct (Z.ltb_spec b x); constructor; lia.
  - constructor. constructor; auto. constructor. lia.
Qed.
Lemma zsort_Sorted l : Sorted Z.le (zsort l).
Proof. induction l; simpl. constructor. apply zinsert_Sorted; auto. Qed.
Lemma zunique_cons2 x y t : zunique (x :: y :: t) = if (x =? y)%Z then zunique (y :: t) else x :: zunique (y :: t).
Proof. reflexivity. Qed.
Lemma zunique_In l y : In y (zunique l) <-> In y l.
Proof.
  induction l as [|a l IH]; [simpl; tauto|]. destruct l as [|b l]; [simpl; tauto|].
  rewrite zunique_cons2. destruct (Z.eqb_spec a b).
  - rewrite IH. simpl. firstorder. subst; auto.
  - change (In y (a :: zunique (b :: l)) <-> In y (a :: b :: l)). simpl In at 1. rewrite IH. simpl; tauto.
Qed.
Lemma zunique_hd a l : hd a (zunique (a :: l)) = a.
Proof.
  revert a; induction l as [|b l IH]; intros a; auto. rewrite zunique_cons2. destruct (Z.eqb_spec a b); auto.
  subst. specialize (IH b). destruct (zunique (b :: l)) eqn:E; simpl in *; auto.
Qed.
Lemma zunique_Sorted l : Sorted Z.le l -> Sorted Z.lt (zunique l).
Proof.
  intros Hs. induction Hs as [|a l Hs IH Hd]; [constructor|]. destruct l as [|b l]. repeat constructor.
  rewrite zunique_cons2. destruct (Z.eqb_spec a b); auto.
  constructor; auto. inversion Hd; subst.
  pose proof (zunique_hd b l). destruct (zunique (b :: l)) eqn:E; constructor. simpl in H. lia.
Qed.

Section StrictSorted.
  Variable s : list Z.
  Hypothesis Hs : Sorted Z.lt s.
  Lemma strict_gap i j : i <= j -> j < length s -> (nth i s 0 + Z.of_nat (j - i) <= nth j s 0)%Z.
  Proof.
    intros Hij. induction Hij; intros Hj.
    - rewrite Nat.sub_diag. lia.
    - specialize (IHHij ltac:(lia)). pose proof (Sorted_nth _ s 0%Z Hs m Hj). cbv beta in H. lia.
  Qed.
End StrictSorted.

Section MatProofs.
  Context {T : Type} {NT : Num T}.
  Implicit Types m o : mat T.

  (** *** rows *)
  Lemma rows_length m : length (rows m) = nrows m.
  Proof. unfold rows. rewrite map_length, seq_length; auto. Qed.
  Lemma nth_rows m i d : i < nrows m -> nth i (rows m) d = mrow m i.
  Proof. intros. unfold rows. rewrite nth_map_seq; auto. Qed.
  Lemma rows_eq m l d : length l = nrows m -> (forall i, i < nrows m -> nth i l d = mrow m i) -> rows m = l.
  Proof.
    intros Hl H. apply (list_ext _ _ d). rewrite rows_length; auto. intros i Hi. rewrite rows_length in Hi.
    rewrite nth_rows, H; auto.
  Qed.
  Lemma mrow_ext m (l : list T) i : length l = ncols m -> (forall j, j < ncols m -> mget m i j = vget l j) -> mrow m i = l.
  Proof. intros Hl H. apply vec_ext; rewrite mrow_length; auto. intros j Hj. rewrite vget_mrow; auto. Qed.
  Lemma mrow_mbuild r c f i : i < r -> mrow (mbuild (T:=T) r c f) i = vbuild c (fun j => f i j).
  Proof. intros. unfold mrow; simpl. apply vbuild_ext. intros; apply mget_mbuild; auto. Qed.
  Lemma rows_determine m o : wf m -> wf o -> ncols m = ncols o -> rows m = rows o -> m = o.
  Proof.
    intros Hm Ho Hc H. assert (nrows m = nrows o) as Hr by (rewrite <- (rows_length m), H, rows_length; auto).
    apply mat_ext; auto. intros i j Hi Hj.
    assert (mrow m i = mrow o i) as E by (rewrite <- (nth_rows m i []), H, nth_rows by lia; auto).
    rewrite <- (vget_mrow m), E, vget_mrow by lia; auto.
  Qed.
  Lemma rows_mbuild r c f : rows (mbuild (T:=T) r c f) = map (fun i => vbuild c (fun j => f i j)) (seq 0 r).
  Proof.
    apply (rows_eq _ _ []). rewrite map_length, seq_length; auto. intros i Hi. simpl in Hi.
    rewrite nth_map_seq, mrow_mbuild; auto.
  Qed.

  (** *** addRow *)
  Lemma nth_insert_at {A} p (x : A) l i d : p <= length l ->
    nth i (insert_at p x l) d = if Nat.ltb i p then nth i l d else if Nat.eqb i p then x else nth (i - 1) l d.
  Proof.
    intros Hp. unfold insert_at. destruct (Nat.ltb_spec i p).
    - rewrite app_nth1 by (rewrite firstn_len_le; auto). apply nth_firstn; auto.
    - rewrite app_nth2 by (rewrite firstn_len_le; auto). rewrite firstn_len_le by auto.
      destruct (Nat.eqb_spec i p). subst. rewrite Nat.sub_diag; auto.
      destruct (i - p) eqn:E; try lia. simpl. rewrite nth_skipn. f_equal; lia.
  Qed.
  Lemma insert_at_length {A} p (x : A) l : p <= length l -> length (insert_at p x l) = S (length l).
  Proof. intros. unfold insert_at. rewrite app_length, firstn_len_le by auto. simpl. rewrite skipn_length; lia. Qed.
  Lemma nth_remove_at {A} p (l : list A) i d : p < length l ->
    nth i (remove_at p l) d = if Nat.ltb i p then nth i l d else nth (i + 1) l d.
  Proof.
    intros Hp. unfold remove_at. destruct (Nat.ltb_spec i p).
    - rewrite app_nth1 by (rewrite firstn_len_le; lia). apply nth_firstn; auto.
    - rewrite app_nth2 by (rewrite firstn_len_le; lia). rewrite firstn_len_le by lia. rewrite nth_skipn. f_equal; lia.
  Qed.
  Lemma remove_at_length {A} p (l : list A) : p < length l -> length (remove_at p l) = length l - 1.
  Proof. intros. unfold remove_at. rewrite app_length, firstn_len_le by lia. rewrite skipn_length; lia. Qed.
  Lemma nth_replace_at {A} p (x : A) (l : list A) i d : p < length l ->
    nth i (replace_at p x l) d = if Nat.eqb i p then x else nth i l d.
  Proof.
    intros Hp. unfold replace_at. destruct (Nat.ltb_spec i p).
    - rewrite app_nth1 by (rewrite firstn_len_le; lia). destruct (Nat.eqb_spec i p); try lia. apply nth_firstn; auto.
    - rewrite app_nth2 by (rewrite firstn_len_le; lia). rewrite firstn_len_le by lia.
      destruct (Nat.eqb_spec i p). subst; rewrite Nat.sub_diag; auto.
      destruct (i - p) eqn:E; try lia. cbn [nth]. rewrite nth_skipn. f_equal; lia.
  Qed.
  Lemma replace_at_length {A} p (x : A) (l : list A) : p < length l -> length (replace_at p x l) = length l.
  Proof. intros. unfold replace_at. rewrite app_length, firstn_len_le by lia. cbn [length]. rewrite skipn_length; lia. Qed.

  Lemma fits_rows m r : table m -> fits r (rows m) = (Nat.eqb (nrows m) 0 || Nat.eqb (length r) (ncols m))%bool.
  Proof.
    intros _. unfold fits. destruct (rows m) as [|r0 rs] eqn:E.
    - rewrite <- (rows_length m), E; auto.
    - assert (nrows m > 0) by (rewrite <- rows_length, E; simpl; lia).
      destruct (Nat.eqb_spec (nrows m) 0); try lia. simpl.
      assert (r0 = mrow m 0) as -> by (rewrite <- (nth_rows m 0 []), E; auto). rewrite mrow_length; auto.
  Qed.

  Lemma addRow_step m r p : table m -> (-1 <= p)%Z -> r <> [] ->
    match spec_rowop (rows m) (AddRow r p) with
    | Some rs => exists m', mat_addRow m r p = (m', Ok tt) /\ table m' /\ rows m' = rs /\ ncols m' = length r
    | None => exists m', mat_addRow m r p = (m', Throw InvalidArgument) /\ table m' /\ rows m' = rows m
    end.
  Proof.
    intros Ht Hp Hr. pose proof Ht as [Hw Hc]. unfold spec_rowop. rewrite fits_rows by auto. rewrite rows_length.
    unfold mat_addRow. set (q := if (p =? -1)%Z then Z.of_nat (nrows m) else p).
    assert (0 <= q)%Z by (unfold q; destruct (Z.eqb_spec p (-1)); lia).
    assert (0 < length r) by (destruct r; simpl; try congruence; lia).
    set (m1 := if mat_isEmpty m then mkMat (nrows m) (length r) (mdata m) else m).
    assert (nrows m1 = nrows m) as Hr1 by (unfold m1; destruct (mat_isEmpty m); auto).
    assert (wf m1 /\ (nrows m > 0 -> m1 = m) /\ (nrows m = 0 -> ncols m1 = length r)) as (Hw1 & He1 & Hz1).
    { unfold m1, mat_isEmpty. destruct (Nat.eqb_spec (nrows m) 0) as [E|E]; simpl.
      - split; [unfold wf; simpl; unfold wf in Hw; rewrite Hw, E; lia|]. split; auto. lia.
      - destruct (Nat.eqb_spec (ncols m) 0); [lia|]. repeat split; auto; lia. }
    assert (length (mdata m1) <? nrows m1 * ncols m1 = false) as Hd by (rewrite Hw1; apply Nat.ltb_irrefl).
    rewrite Hd, Hr1. destruct (Z.ltb_spec (Z.of_nat (nrows m)) q) as [Hq|Hq].
    - destruct (Z.leb_spec q (Z.of_nat (nrows m))); try lia. simpl. exists m1. split; auto.
      destruct (Nat.eq_dec (nrows m) 0) as [E|E].
      + split. split; auto. rewrite Hr1, E; lia. unfold rows. rewrite Hr1, E. auto.
      + rewrite He1 by lia. auto.
    - destruct (Z.leb_spec q (Z.of_nat (nrows m))); try lia. cbn [andb].
      assert (Nat.eqb (length r) (ncols m1) = (Nat.eqb (nrows m) 0 || Nat.eqb (length r) (ncols m))%bool) as Hf.
      { destruct (Nat.eqb_spec (nrows m) 0) as [E|E]; simpl. rewrite Hz1 by auto. apply Nat.eqb_refl. rewrite He1 by lia; auto. }
      rewrite <- Hf. destruct (Nat.eqb_spec (length r) (ncols m1)) as [El|El]; cbn [negb].
      + destruct (Z.ltb_spec q 0); try lia. cbn [orb].
        eexists; split; eauto. rewrite <- Hr1 in *. split; [|split].
        * split. apply mbuild_wf. simpl. lia.
        * apply (rows_eq _ _ []). rewrite insert_at_length; rewrite rows_length; simpl; lia.
          intros i Hi. simpl in Hi. rewrite nth_insert_at by (rewrite rows_length; lia).
          rewrite mrow_mbuild by auto.
          destruct (Nat.ltb_spec i (Z.to_nat q)). { rewrite nth_rows by lia. rewrite He1 by lia. reflexivity. }
          destruct (Nat.eqb_spec i (Z.to_nat q)). { rewrite <- El. symmetry. apply vbuild_vget. }
          rewrite nth_rows by lia. rewrite He1 by lia. reflexivity.
        * simpl. auto.
      + exists m1. split; auto. destruct (Nat.eq_dec (nrows m) 0) as [E|E].
        * split. split; auto. lia. unfold rows. rewrite Hr1, E. auto.
        * rewrite He1 by lia. auto.
  Qed.

  Lemma deleteRow_step m i : table m -> (-1 <= i)%Z -> (i = (-1)%Z -> 0 < nrows m) ->
    match spec_rowop (rows m) (DelRow i) with
    | Some rs => exists m', mat_deleteRow m i = (m', Ok tt) /\ table m' /\ rows m' = rs /\ (nrows m' > 0 -> ncols m' = ncols m)
    | None => mat_deleteRow m i = (m, Throw OutOfRange)
    end.
  Proof.
    intros Ht Hi Hn. pose proof Ht as [Hw Hc]. unfold spec_rowop. rewrite rows_length.
    unfold mat_deleteRow. set (q := if (i =? -1)%Z then (Z.of_nat (nrows m) - 1)%Z else i).
    assert (0 <= q)%Z by (unfold q; destruct (Z.eqb_spec i (-1)); lia).
    destruct (Z.ltb_spec q (Z.of_nat (nrows m))), (Z.leb_spec (Z.of_nat (nrows m)) q); try lia; auto.
    destruct (Nat.eqb_spec (nrows m) 0); try lia.
    destruct (Nat.ltb_spec 0 (nrows m - 1)).
    - destruct (Z.ltb_spec q 0); try lia. eexists; split; eauto. split; [|split; [|auto]].
      + split. apply mbuild_wf. simpl. lia.
      + apply (rows_eq _ _ []). rewrite remove_at_length; rewrite rows_length; simpl; lia.
        intros k Hk. simpl in Hk. rewrite nth_remove_at by (rewrite rows_length; lia). rewrite mrow_mbuild by auto.
        destruct (Nat.ltb_spec k (Z.to_nat q)); rewrite nth_rows by lia; reflexivity.
    - eexists; split; eauto. split; [|split].
      + split; simpl; auto; unfold wf; simpl; lia.
      + assert (nrows m = 1) by lia. assert (Z.to_nat q = 0) as -> by lia.
        unfold rows at 2. rewrite H3. reflexivity.
      + simpl; lia.
  Qed.

  Lemma setRow_loop m r i n : wf m -> i < nrows m -> n <= ncols m ->
    let m' := loop n (fun j a => mset a i j (vget r j)) m in
    wf m' /\ nrows m' = nrows m /\ ncols m' = ncols m /\
    forall a b, a < nrows m -> b < ncols m -> mget m' a b = if (Nat.eqb a i && Nat.ltb b n)%bool then vget r b else mget m a b.
  Proof.
    intros Hw Hi Hn. apply (loop_inv (fun n m' => wf m' /\ nrows m' = nrows m /\ ncols m' = ncols m /\
      forall a b, a < nrows m -> b < ncols m -> mget m' a b = if (Nat.eqb a i && Nat.ltb b n)%bool then vget r b else mget m a b)).
    - repeat split; auto. intros. rewrite andb_false_r; auto.
    - intros k t Hk (A & B & C & D). repeat split; auto. apply mset_wf; auto.
      intros a b Ha Hb. rewrite mget_mset by (auto; lia). rewrite D by auto.
      destruct (Nat.eqb_spec i a), (Nat.eqb_spec k b), (Nat.eqb_spec a i), (Nat.ltb_spec b k), (Nat.ltb_spec b (S k)); simpl; auto; try lia; subst; auto.
  Qed.
  Lemma setRow_step m r i : table m ->
    match spec_rowop (rows m) (SetRow r i) with
    | Some rs => exists m', mat_setRow m r i = Ok m' /\ table m' /\ rows m' = rs /\ ncols m' = ncols m
    | None => exists e, mat_setRow m r i = Throw e
    end.
  Proof.
    intros Ht. pose proof Ht as [Hw Hc]. unfold spec_rowop. rewrite fits_rows, rows_length by auto. unfold mat_setRow.
    destruct (Nat.ltb_spec i (nrows m)), (Nat.leb_spec (nrows m) i); try lia; simpl; eauto.
    destruct (Nat.eqb_spec (nrows m) 0); try lia. simpl. destruct (Nat.eqb_spec (length r) (ncols m)); simpl; eauto.
    destruct (setRow_loop m r i (ncols m) Hw H (le_n _)) as (A & B & C & D).
    eexists; split; eauto. split; [|split].
    - split; auto. rewrite B, C; auto.
    - apply (rows_eq _ _ []). rewrite replace_at_length; rewrite rows_length; auto.
      intros k Hk. rewrite nth_replace_at by (rewrite rows_length; auto). rewrite B in Hk.
      destruct (Nat.eqb_spec k i).
      + symmetry. apply mrow_ext. lia. intros j Hj. rewrite C in Hj. rewrite D by auto.
        subst. rewrite Nat.eqb_refl. destruct (Nat.ltb_spec j (ncols m)); auto; lia.
      + rewrite nth_rows by auto. symmetry. apply mrow_ext. rewrite mrow_length; auto. intros j Hj. rewrite C in Hj.
        rewrite D, vget_mrow by auto. destruct (Nat.eqb_spec k i); auto; lia.
    - auto.
  Qed.

  (** *** deleteRows *)
  Definition keepIx (s : list Z) (k : nat) : bool := negb (existsb (Z.eqb (Z.of_nat k)) s).
  Definition kept (s : list Z) (k : nat) : list nat := filter (keepIx s) (seq 0 k).
  Lemma kept_S s k : kept s (S k) = kept s k ++ (if keepIx s k then [k] else []).
  Proof. unfold kept. rewrite seq_S, filter_app. simpl. destruct (keepIx s k); auto. Qed.
  Lemma existsb_In z s : existsb (Z.eqb z) s = true <-> In z s.
  Proof.
    rewrite existsb_exists. split. intros (x & Hx & E). apply Z.eqb_eq in E; subst; auto.
    intros H; exists z; split; auto. apply Z.eqb_refl.
  Qed.
  Lemma keepIx_ext s s' k : (forall z, In z s <-> In z s') -> keepIx s k = keepIx s' k.
  Proof.
    intros H. unfold keepIx. f_equal. destruct (existsb (Z.eqb (Z.of_nat k)) s) eqn:E, (existsb (Z.eqb (Z.of_nat k)) s') eqn:E'; auto.
    - apply existsb_In, H, existsb_In in E. congruence.
    - apply existsb_In, H, existsb_In in E'. congruence.
  Qed.
  Lemma drop_indices_kept {A} Ix (l : list A) d i0 :
    drop_indices Ix i0 l = map (fun k => nth (k - i0) l d) (filter (keepIx Ix) (seq i0 (length l))).
  Proof.
    revert i0. induction l as [|a l IH]; intros i0; simpl; auto.
    assert (drop_indices Ix (i0 + 1) l = map (fun k => nth (k - i0) (a :: l) d) (filter (keepIx Ix) (seq (S i0) (length l)))) as E.
    { rewrite IH. replace (i0 + 1) with (S i0) by lia. apply map_ext_in. intros k Hk. apply filter_In in Hk as [Hk _]. apply in_seq in Hk.
      replace (k - i0) with (S (k - S i0)) by lia. auto. }
    unfold keepIx at 1. destruct (existsb (Z.eqb (Z.of_nat i0)) Ix); cbn [negb map]; rewrite E; auto.
    rewrite Nat.sub_diag; auto.
  Qed.

  Lemma copyRow_loop m res newRow oldRow n : wf res -> newRow < nrows res -> n <= ncols res ->
    let r' := loop n (fun col r => mset r newRow col (mget m oldRow col)) res in
    wf r' /\ nrows r' = nrows res /\ ncols r' = ncols res /\
    forall a b, a < nrows res -> b < ncols res -> mget r' a b = if (Nat.eqb a newRow && Nat.ltb b n)%bool then mget m oldRow b else mget res a b.
  Proof.
    intros Hw Hi Hn. apply (loop_inv (fun n m' => wf m' /\ nrows m' = nrows res /\ ncols m' = ncols res /\
      forall a b, a < nrows res -> b < ncols res -> mget m' a b = if (Nat.eqb a newRow && Nat.ltb b n)%bool then mget m oldRow b else mget res a b)).
    - repeat split; auto. intros. rewrite andb_false_r; auto.
    - intros k t Hk (A & B & C & D). repeat split; auto. apply mset_wf; auto.
      intros a b Ha Hb. rewrite mget_mset by (auto; lia). rewrite D by auto.
      destruct (Nat.eqb_spec newRow a), (Nat.eqb_spec k b), (Nat.eqb_spec a newRow), (Nat.ltb_spec b k), (Nat.ltb_spec b (S k)); simpl; auto; try lia; subst; auto.
  Qed.

  Lemma deleteRows_loop m s : wf m -> Sorted Z.lt s -> (forall z, In z s -> (0 <= z < Z.of_nat (nrows m))%Z) ->
    let '(newRow, di, res) :=
      loop (nrows m)
        (fun oldRow '(newRow, deleteIndex, res) =>
           if (Nat.ltb deleteIndex (length s) && (Z.of_nat oldRow =? nth deleteIndex s 0)%Z)%bool
           then (newRow, S deleteIndex, res)
           else (S newRow, deleteIndex, loop (ncols m) (fun col r => mset r newRow col (mget m oldRow col)) res))
        (0, 0, mat_zero (nrows m - length s) (ncols m)) in
    length (kept s (nrows m)) = nrows m - length s /\ wf res /\ nrows res = nrows m - length s /\ ncols res = ncols m /\
    forall i b, i < nrows m - length s -> b < ncols m -> mget res i b = mget m (nth i (kept s (nrows m)) 0) b.
  Proof.
    intros Hw Hs Hr.
    set (P := fun (k : nat) (st : nat * nat * mat T) => let '(newRow, di, res) := st in
        newRow = length (kept s k) /\ newRow + di = k /\ di <= length s /\
        (forall d, d < di -> (nth d s 0 < Z.of_nat k)%Z) /\ (forall d, di <= d < length s -> (Z.of_nat k <= nth d s 0)%Z) /\
        wf res /\ nrows res = nrows m - length s /\ ncols res = ncols m /\
        (forall i b, i < newRow -> b < ncols m -> mget res i b = mget m (nth i (kept s k) 0) b)).
    match goal with |- context [loop ?n ?f ?st] => assert (P n (loop n f st)) as L; [apply loop_inv|] end.
    - unfold P. repeat split; auto; try (intros; lia). 2: apply mat_zero_wf.
      intros d Hd. specialize (Hr (nth d s 0%Z)). apply Hr. apply nth_In; lia.
    - intros k [[newRow di] res] Hk (L1 & L2 & L3 & L4 & L5 & L6 & L7 & L8 & L9).
      assert ((Nat.ltb di (length s) && (Z.of_nat k =? nth di s 0)%Z)%bool = negb (keepIx s k)) as E.
      { unfold keepIx. rewrite negb_involutive. destruct (Nat.ltb_spec di (length s)) as [Hd|Hd]; simpl.
        - destruct (Z.eqb_spec (Z.of_nat k) (nth di s 0%Z)) as [E|E].
          + symmetry. apply existsb_In. rewrite E. apply nth_In; auto.
          + destruct (existsb _ _) eqn:Ex; auto. exfalso. apply existsb_In in Ex. apply (In_nth _ _ 0%Z) in Ex as (d & Hd' & Ed).
            destruct (Nat.lt_ge_cases d di) as [Hlt|Hge]. specialize (L4 d Hlt). lia.
            destruct (Nat.eq_dec d di). subst; congruence.
            pose proof (strict_gap s Hs di d Hge Hd'). specialize (L5 di ltac:(lia)). lia.
        - destruct (existsb _ _) eqn:Ex; auto. exfalso. apply existsb_In in Ex. apply (In_nth _ _ 0%Z) in Ex as (d & Hd' & Ed).
          specialize (L4 d ltac:(lia)). lia. }
      rewrite E. unfold P. destruct (keepIx s k) eqn:K; cbn [negb].
      + (* kept row *)
        assert (newRow < nrows res) as Hlt.
        { rewrite L7. destruct (Nat.eq_dec di (length s)). lia.
          assert (Z.of_nat k < nth di s 0)%Z.
          { specialize (L5 di ltac:(lia)). rewrite andb_false_iff in E. destruct E as [E|E].
            apply Nat.ltb_ge in E; lia. apply Z.eqb_neq in E. lia. }
          pose proof (strict_gap s Hs di (length s - 1) ltac:(lia) ltac:(lia)).
          assert (In (nth (length s - 1) s 0%Z) s) by (apply nth_In; lia). specialize (Hr _ H1). lia. }
        destruct (copyRow_loop m res newRow k (ncols m) L6 Hlt ltac:(lia)) as (C1 & C2 & C3 & C4).
        rewrite kept_S, K, app_length; simpl length.
        repeat split; try lia; auto; try congruence.
        * intros d Hd. specialize (L4 d Hd). lia.
        * intros d Hd. rewrite andb_false_iff in E. pose proof (L5 di ltac:(lia)) as L5'.
          pose proof (strict_gap s Hs di d ltac:(lia) ltac:(lia)).
          assert (Z.of_nat k <> nth di s 0%Z).
          { destruct E as [E|E]. apply Nat.ltb_ge in E; lia. apply Z.eqb_neq in E; auto. }
          lia.
        * intros i b Hi Hb. rewrite C4 by lia. destruct (Nat.eqb_spec i newRow), (Nat.ltb_spec b (ncols m)); simpl; try lia.
          -- rewrite app_nth2 by lia. subst i. rewrite L1, Nat.sub_diag. auto.
          -- rewrite app_nth1 by lia. apply L9; lia.
      + (* deleted row *)
        apply andb_prop in E as [E1 E2]. apply Nat.ltb_lt in E1. apply Z.eqb_eq in E2.
        rewrite kept_S, K, app_nil_r. repeat split; auto; try lia.
        * intros d Hd. destruct (Nat.eq_dec d di). subst; lia. specialize (L4 d ltac:(lia)). lia.
        * intros d Hd. pose proof (strict_gap s Hs di d ltac:(lia) ltac:(lia)). lia.
    - destruct (loop _ _ _) as [[newRow di] res]. destruct L as (L1 & L2 & L3 & L4 & L5 & L6 & L7 & L8 & L9).
      assert (di = length s) as Hdi.
      { destruct (Nat.eq_dec di (length s)); auto. assert (In (nth di s 0%Z) s) as Hin by (apply nth_In; lia).
        specialize (Hr _ Hin). specialize (L5 di ltac:(lia)). lia. }
      assert (length (kept s (nrows m)) = nrows m - length s) by lia.
      repeat split; auto. intros i b Hi Hb. apply L9; lia.
  Qed.

  Lemma deleteRows_step m Ix : table m ->
    match spec_rowop (rows m) (DelRows Ix) with
    | Some rs => exists m', mat_deleteRows m Ix = (m', Ok tt) /\ table m' /\ rows m' = rs /\ (nrows m' > 0 -> ncols m' = ncols m)
    | None => mat_deleteRows m Ix = (m, Throw OutOfRange)
    end.
  Proof.
    intros Ht. pose proof Ht as [Hw Hc]. unfold spec_rowop. rewrite rows_length.
    unfold mat_deleteRows. destruct Ix as [|ix0 Ix'].
    - simpl. exists m. repeat split; auto. rewrite (drop_indices_kept [] (rows m) []).
      rewrite rows_length. unfold rows.
      replace (filter (keepIx []) (seq 0 (nrows m))) with (seq 0 (nrows m)).
      + apply map_ext_in. intros k Hk. apply in_seq in Hk. rewrite Nat.sub_0_r. fold (rows m). rewrite nth_rows by lia. reflexivity.
      + clear. induction (seq 0 (nrows m)); simpl; auto. congruence.
    - set (Ix := ix0 :: Ix'). set (s := zunique (zsort Ix)).
      assert (forall z, In z s <-> In z Ix) as Hin by (intros; unfold s; rewrite zunique_In, zsort_In; tauto).
      assert (Sorted Z.lt s) as Hs by (apply zunique_Sorted, zsort_Sorted).
      assert (s <> []) as Hne. { intro E. assert (In ix0 s) by (apply Hin; left; auto). rewrite E in H; destruct H. }
      assert (0 < length s) as Hl by (destruct s; simpl; try congruence; lia).
      assert (hd 0%Z s = nth 0 s 0%Z) as Hhd by (destruct s; auto).
      assert (last s 0%Z = nth (length s - 1) s 0%Z) as Hlast.
      { clear -Hne. destruct s as [|a s]; try congruence. clear Hne. revert a. induction s as [|b s IH]; intros a; auto.
        change (last (b :: s) 0%Z = nth (S (length s)) (a :: b :: s) 0%Z). rewrite IH. simpl. rewrite Nat.sub_0_r. auto. }
      assert (forallb (fun i => (0 <=? i) && (i <? Z.of_nat (nrows m)))%Z Ix
              = negb ((Z.of_nat (nrows m) <=? last s 0%Z) || (hd 0%Z s <? 0))%Z%bool) as Hb.
      { rewrite Hhd, Hlast. destruct (forallb _ Ix) eqn:Ef; symmetry.
        - rewrite forallb_forall in Ef. apply negb_true_iff, orb_false_iff. 
          assert (In (nth 0 s 0%Z) Ix) as I1 by (apply Hin, nth_In; lia).
          assert (In (nth (length s - 1) s 0%Z) Ix) as I2 by (apply Hin, nth_In; lia).
          apply Ef in I1. apply Ef in I2. apply andb_prop in I1 as [I1 I1']. apply andb_prop in I2 as [I2 I2'].
          apply Z.leb_le in I1, I2. apply Z.ltb_lt in I1', I2'. split. apply Z.leb_gt; auto. apply Z.ltb_ge; auto.
        - apply negb_false_iff, orb_true_iff.
          assert (exists z, In z Ix /\ ~ (0 <= z < Z.of_nat (nrows m))%Z) as (z & Hz & Hbad).
          { clear -Ef. induction Ix as [|a l IH]; simpl in *; try discriminate.
            apply andb_false_iff in Ef as [Ef|Ef].
            - exists a. split; auto. apply andb_false_iff in Ef as [Ef|Ef]. apply Z.leb_gt in Ef; lia. apply Z.ltb_ge in Ef; lia.
            - destruct (IH Ef) as (z & Hz & Hb). exists z; auto. }
          apply Hin in Hz. apply (In_nth _ _ 0%Z) in Hz as (d & Hd & <-).
          pose proof (strict_gap s Hs 0 d ltac:(lia) Hd). pose proof (strict_gap s Hs d (length s - 1) ltac:(lia) ltac:(lia)).
          destruct (Z.leb_spec (Z.of_nat (nrows m)) (nth (length s - 1) s 0%Z)); auto.
          right. apply Z.ltb_lt. lia. }
      rewrite Hb. destruct (((Z.of_nat (nrows m) <=? last s 0%Z) || (hd 0%Z s <? 0))%Z%bool) eqn:Eb; cbn [negb]; auto.
      assert (forall z, In z s -> (0 <= z < Z.of_nat (nrows m))%Z) as Hr.
      { intros z Hz. apply Hin in Hz. rewrite forallb_forall in Hb. apply Hb in Hz. apply andb_prop in Hz as [Z1 Z2].
        apply Z.leb_le in Z1. apply Z.ltb_lt in Z2. lia. }
      assert (drop_indices Ix 0 (rows m) = map (fun k => mrow m k) (kept s (nrows m))) as Hdrop.
      { rewrite (drop_indices_kept Ix (rows m) []), rows_length. unfold kept.
        rewrite (filter_ext (keepIx Ix) (keepIx s)) by (intros; apply keepIx_ext; intros; rewrite Hin; tauto).
        apply map_ext_in. intros k Hk. apply filter_In in Hk as [Hk _]. apply in_seq in Hk. rewrite Nat.sub_0_r, nth_rows by lia. auto. }
      pose proof (deleteRows_loop m s Hw Hs Hr) as L.
      destruct (Nat.eqb_spec (nrows m - length s) 0) as [E0|E0].
      + assert (length (kept s (nrows m)) = 0) as Hk0. { destruct (loop _ _ _) as [[? ?] ?]. lia. }
        exists mat_empty. rewrite Hdrop. repeat split; auto; try (simpl; lia).
        destruct (kept s (nrows m)); simpl in *; try lia. auto.
      + destruct (loop _ _ _) as [[newRow di] res]. destruct L as (L1 & L2 & L3 & L4 & L5).
        exists res. rewrite Hdrop. repeat split; auto; try lia.
        apply (rows_eq _ _ []). rewrite map_length; lia.
        intros i Hi. rewrite (nth_indep _ [] (mrow m 0)) by (rewrite map_length; lia).
        rewrite (map_nth (fun k => mrow m k)). symmetry. apply mrow_ext. rewrite mrow_length; auto.
        intros j Hj. rewrite L5, vget_mrow by lia. auto.
  Qed.

  (** *** any sequence of row edits *)
  Lemma rowop_step m op : table m -> rowop_defined (nrows m) op ->
    match spec_rowop (rows m) op with
    | Some rs => exists m', run_rowop m op = (m', Ok tt) /\ table m' /\ rows m' = rs
    | None => exists m' e, run_rowop m op = (m', Throw e) /\ table m' /\ rows m' = rows m
    end.
  Proof.
    intros Ht Hd. destruct op as [r p|i|Ix|r i]; simpl in Hd.
    - destruct Hd as [H1 H2]. pose proof (addRow_step m r p Ht H1 H2) as H. destruct (spec_rowop _ _).
      destruct H as (m' & A & B & C & _); eauto. destruct H as (m' & A & B & C); eauto 6.
    - destruct Hd as [H1 H2]. pose proof (deleteRow_step m i Ht H1 H2) as H. destruct (spec_rowop _ _).
      destruct H as (m' & A & B & C & _); eauto. exists m, OutOfRange; auto.
    - pose proof (deleteRows_step m Ix Ht) as H. destruct (spec_rowop _ _).
      destruct H as (m' & A & B & C & _); eauto. exists m, OutOfRange; auto.
    - pose proof (setRow_step m r i Ht) as H. destruct (spec_rowop _ _).
      + destruct H as (m' & A & B & C & _). exists m'. unfold run_rowop. rewrite A. auto.
      + destruct H as (e & A). exists m, e. unfold run_rowop. rewrite A. auto.
  Qed.
End MatProofs.
