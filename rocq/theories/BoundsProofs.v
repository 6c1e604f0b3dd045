(** Bounds: what successful setters establish, and points generated inside. *)
From Coq Require Import Reals Lra List Arith Lia ZArith Bool.
From Verif Require Import Base Num RealNum VecModel VecReal BoundsModel.
Import ListNotations.

Section Gen.
  Context {T : Type} {NT : Num T}.
  Definition bnds_valid (s : bnds T) : Prop :=
    b_set s = true /\ (0 < b_dim s)%nat /\ length (b_lo s) = b_dim s /\ length (b_up s) = b_dim s /\
    forall i, (i < b_dim s)%nat -> nleb (vget (b_up s) i) (vget (b_lo s) i) = false.

  Lemma check_from_ok (lo up : list T) l : check_from lo up l = Ok true <->
    forall i, In i l -> (i < length lo)%nat /\ (i < length up)%nat /\ nleb (vget up i) (vget lo i) = false.
  Proof.
    induction l as [|k t IH]; simpl. split; auto; intros _ i [].
    destruct (Nat.leb_spec (length lo) k), (Nat.leb_spec (length up) k); simpl;
      try (split; [discriminate | intros H1; specialize (H1 k (or_introl eq_refl)); lia]).
    destruct (nleb (vget up k) (vget lo k)) eqn:E.
    - split. discriminate. intros H1. destruct (H1 k (or_introl eq_refl)) as (_ & _ & X). congruence.
    - rewrite IH. split; intros H1 i Hi. destruct Hi as [<-|Hi]; auto. apply H1; auto.
  Qed.
  Lemma finish_ok (s s' : bnds T) e : bnds_finish s e = (s', Ok tt) -> length (b_lo s) = b_dim s -> length (b_up s) = b_dim s ->
    bnds_valid s' /\ s' = mkB (b_dim s) (b_lo s) (b_up s) true.
  Proof.
    unfold bnds_finish, bnds_check. intros E Hl Hu. destruct (Nat.eqb_spec (b_dim s) 0). discriminate.
    destruct (check_from (b_lo s) (b_up s) (seq 0 (b_dim s))) as [[|]| |] eqn:C; try discriminate.
    injection E as <-. split; auto. split; auto. simpl. split. lia. split; auto. split; auto.
    intros i Hi. rewrite check_from_ok in C. apply C. apply in_seq. lia.
  Qed.
  Lemma setter_ok (s s' : bnds T) o : is_setter o = true -> bstep s o = (s', Ok tt) -> bnds_valid s'.
  Proof.
    intros Hs E. destruct o; try discriminate; simpl in E.
    - unfold bnds_setScalar in E. destruct (nleb u l) eqn:C; [discriminate|]. destruct (Nat.eqb_spec (b_dim s) 0); [discriminate|].
      injection E as <-. split; auto. simpl. split. lia. rewrite !repeat_length. split; auto. split; auto.
      intros i Hi. unfold vget. rewrite !(nth_indep _ n0 l) by (rewrite repeat_length; auto).
      rewrite nth_repeat. rewrite (nth_indep _ l u) by (rewrite repeat_length; auto). rewrite nth_repeat. auto.
    - unfold bnds_setStd in E. destruct (Nat.ltb_spec (length ub) (length lb)); [discriminate|].
      apply finish_ok in E; auto. tauto. simpl. rewrite firstn_length. lia.
    - unfold bnds_setVec in E. destruct (Nat.eqb (length lb) 0 || Nat.eqb (length ub) 0)%bool; [discriminate|].
      destruct (Nat.eqb_spec (length lb) (length ub)); simpl in E; [|discriminate]. apply finish_ok in E; auto. tauto.
  Qed.
  Lemma ctor_std_ok (lb ub : list T) s : bnds_of_std lb ub = Ok s -> bnds_valid s /\ b_lo s = lb /\ b_up s = ub.
  Proof.
    unfold bnds_of_std. destruct (Nat.eqb_spec (length lb) (length ub)); simpl; [|discriminate].
    destruct (bnds_finish _ _) as [s' r] eqn:E. destruct r as [[]| |]; try discriminate. intros X. injection X as <-.
    apply finish_ok in E; auto. destruct E as [A ->]. auto.
  Qed.
  (** the constructor from vec does not compare sizes: a longer upper vector is stored as it is *)
  Lemma ctor_vec_ok (lb ub : list T) s : bnds_of_vec lb ub = Ok s -> length lb = length ub -> bnds_valid s /\ b_lo s = lb /\ b_up s = ub.
  Proof.
    unfold bnds_of_vec. intros E H. destruct (bnds_finish _ _) as [s' r] eqn:E'. destruct r as [[]| |]; try discriminate. injection E as <-.
    apply finish_ok in E'; auto. destruct E' as [A ->]. auto.
  Qed.
End Gen.
Local Open Scope R_scope.

Lemma within_from_ok (x lo up : list R) l : (forall i, In i l -> (i < length lo)%nat /\ (i < length up)%nat) ->
  exists b, within_from x lo up l = Ok b /\ (b = true <-> forall i, In i l -> nth i lo 0 <= nth i x 0 <= nth i up 0).
Proof.
  induction l as [|k t IH]; intros H. exists true. split; auto. split; auto. intros _ i [].
  destruct (H k (or_introl eq_refl)) as [Hl Hu]. cbn [within_from].
  destruct (Nat.leb_spec (length lo) k); try lia. destruct (Nat.leb_spec (length up) k); try lia.
  destruct IH as (b & E & Hb). { intros i Hi. apply H. right; auto. }
  unfold vget. change (@nltb R RNum) with Rltb. change (@n0 R RNum) with 0.
  destruct (Rltb_spec (nth k x 0) (nth k lo 0)).
  { exists false. split; auto. split. discriminate. intros X. specialize (X k (or_introl eq_refl)). lra. }
  destruct (Rltb_spec (nth k up 0) (nth k x 0)).
  { exists false. split; auto. split. discriminate. intros X. specialize (X k (or_introl eq_refl)). lra. }
  exists b. split; auto. rewrite Hb. split; intros X i Hi; [destruct Hi as [<-|Hi]; auto; lra | apply X; right; auto].
Qed.

Lemma isWithin_ok (s : bnds R) x : bnds_valid s ->
  (length x = b_dim s -> exists b, bnds_isWithin s x = Ok b /\ (b = true <-> forall i, (i < b_dim s)%nat -> nth i (b_lo s) 0 <= nth i x 0 <= nth i (b_up s) 0)) /\
  (length x <> b_dim s -> bnds_isWithin s x = Throw InvalidArgument).
Proof.
  intros (H1 & H2 & H3 & H4 & H5). unfold bnds_isWithin. split; intros Hx.
  - rewrite Hx, Nat.eqb_refl. cbn [negb]. destruct (within_from_ok x (b_lo s) (b_up s) (seq 0 (b_dim s))) as (b & E & Hb).
    intros i Hi. apply in_seq in Hi. lia. exists b. split; auto. rewrite Hb. split; intros X i Hi. apply X, in_seq; lia. apply X. apply in_seq in Hi. lia.
  - destruct (Nat.eqb_spec (length x) (b_dim s)); [contradiction|]. auto.
Qed.

Lemma valid_lt (s : bnds R) : bnds_valid s -> forall i, (i < b_dim s)%nat -> nth i (b_lo s) 0 < nth i (b_up s) 0.
Proof.
  intros (_ & _ & _ & _ & H) i Hi. specialize (H i Hi). unfold vget in H. change (@nleb R RNum) with Rleb in H. change (@n0 R RNum) with 0 in H.
  destruct (Rleb_spec (nth i (b_up s) 0) (nth i (b_lo s) 0)); [discriminate|]. lra.
Qed.
