(** Sequences of row edits. *)
From Coq Require Import List Arith Lia ZArith Bool.
From Verif Require Import Base Num VecModel MatModel MatLemmas MatSpec VecProofs VecProofs2 MatProofs MatProofs2.
Import ListNotations.

Section MatProofs3.
  Context {T : Type} {NT : Num T}.
  Lemma table_zero r c : (r > 0 -> c > 0) -> table (mat_zero (T:=T) r c).
  Proof. intros. split. apply mat_zero_wf. auto. Qed.

  Lemma remove_insert_at {A} p (x : A) l : p <= length l -> remove_at p (insert_at p x l) = l.
  Proof.
    intros. unfold remove_at, insert_at. rewrite firstn_app, firstn_firstn, Nat.min_id, firstn_length_le by auto.
    rewrite Nat.sub_diag, app_nil_r.
    replace (S p) with (length (firstn p l ++ [x]))%nat by (rewrite app_length, firstn_length_le by auto; simpl; lia).
    change (x :: skipn p l) with ([x] ++ skipn p l). rewrite app_assoc, skipn_app, skipn_all, Nat.sub_diag. simpl. apply firstn_skipn.
  Qed.

  Lemma addRow_deleteRow (m : mat T) r p : table m -> r <> [] -> fits r (rows m) = true -> p <= nrows m ->
    exists m1 m2, mat_addRow m r (Z.of_nat p) = (m1, Ok tt) /\ mat_deleteRow m1 (Z.of_nat p) = (m2, Ok tt) /\
      (nrows m > 0 -> m2 = m).
  Proof.
    intros Ht Hr Hf Hp.
    pose proof (rowop_step m (AddRow r (Z.of_nat p)) Ht) as A. simpl in A.
    destruct (Z.eqb_spec (Z.of_nat p) (-1)); try lia. rewrite rows_length in A. destruct (Z.leb_spec (Z.of_nat p) (Z.of_nat (nrows m))); try lia.
    rewrite Hf in A. cbn [andb] in A. destruct A as (m1 & A1 & A2 & A3). split; auto; lia. rewrite Nat2Z.id in A3.
    assert (nrows m1 = S (nrows m)) as Hn. { rewrite <- rows_length, A3, insert_at_length, rows_length by (rewrite rows_length; auto). auto. }
    pose proof (rowop_step m1 (DelRow (Z.of_nat p)) A2) as B. simpl in B.
    destruct (Z.eqb_spec (Z.of_nat p) (-1)); try lia. rewrite rows_length, Hn in B. destruct (Z.ltb_spec (Z.of_nat p) (Z.of_nat (S (nrows m)))); try lia.
    destruct B as (m2 & B1 & B2 & B3). split; lia. rewrite Nat2Z.id in B3.
    exists m1, m2. repeat split; auto. intros Hpos.
    assert (rows m2 = rows m) as E. { rewrite B3, A3. apply remove_insert_at. rewrite rows_length; auto. }
    assert (nrows m2 = nrows m) as En by (rewrite <- (rows_length m), <- E, rows_length; auto).
    apply rows_determine; auto. apply B2. apply Ht.
    assert (length (nth 0 (rows m2) []) = length (nth 0 (rows m) [])) as X by (rewrite E; auto).
    rewrite !nth_rows, !mrow_length in X by lia. auto.
  Qed.

  Lemma run_ops_refines ops : forall m : mat T, table m -> ops_defined (rows m) ops ->
    exists m', run_ops m ops = Some (m', snd (spec_run (rows m) ops)) /\ table m' /\ rows m' = fst (spec_run (rows m) ops).
  Proof.
    induction ops as [|op t IH]; intros m Ht Hd; simpl.
    - exists m; auto.
    - simpl in Hd. destruct Hd as [H1 H2]. rewrite rows_length in H1. pose proof (rowop_step m op Ht H1) as H.
      destruct (spec_rowop (rows m) op) as [rs|] eqn:E.
      + destruct H as (m1 & A & B & C). rewrite A. subst rs. destruct (IH m1 B H2) as (m' & X & Y & Z). rewrite X.
        exists m'. destruct (spec_run (rows m1) t); auto.
      + destruct H as (m1 & e & A & B & C). rewrite A. rewrite <- C in H2. destruct (IH m1 B H2) as (m' & X & Y & Z). rewrite X.
        exists m'. rewrite C in *. destruct (spec_run (rows m) t); auto.
  Qed.
End MatProofs3.
