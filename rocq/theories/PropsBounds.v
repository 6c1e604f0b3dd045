(** Property C03: the Bounds object. *)
From Coq Require Import Reals Lra List Arith Lia ZArith Bool.
From Verif Require Import Base Num RealNum NumFloat VecModel VecReal VecProofs2 BoundsModel BoundsProofs.
Import ListNotations.
Local Open Scope R_scope.

(** after any calls whatever (throwing ones included) followed by a setBounds call that succeeds *)
Theorem C03_after_successful_setBounds : forall (ops : list (bop R)) o s0 s',
  is_setter o = true -> bstep (brun ops s0) o = (s', Ok tt) ->
  b_set s' = true /\ (0 < b_dim s')%nat /\ length (b_lo s') = b_dim s' /\ length (b_up s') = b_dim s' /\
  (forall i, (i < b_dim s')%nat -> nth i (b_lo s') 0 < nth i (b_up s') 0) /\
  (forall u, (forall k, 0 <= u k < 1) -> exists x, bnds_generate s' u = Ok x /\ bnds_isWithin s' x = Ok true) /\
  (forall x, length x = b_dim s' -> exists b, bnds_isWithin s' x = Ok b /\
     (b = true <-> forall i, (i < b_dim s')%nat -> nth i (b_lo s') 0 <= nth i x 0 <= nth i (b_up s') 0)) /\
  (forall x, length x <> b_dim s' -> bnds_isWithin s' x = Throw InvalidArgument).
Proof.
  intros ops o s0 s' Hs E. pose proof (setter_ok _ _ _ Hs E) as HV. pose proof (valid_lt s' HV) as HL. pose proof HV as (H1 & H2 & H3 & H4 & H5).
  split; auto. split; auto. split; auto. split; auto. split; auto. split.
  - intros u Hu. unfold bnds_generate. rewrite H1. simpl negb. cbv iota.
    destruct (fillRandomV_spec (repeat 0 (b_dim s')) (b_lo s') (b_up s') u Hu) as [F _].
    rewrite repeat_length in F. destruct F as (w & Ew & Lw & Bw); auto. intros i Hi. specialize (HL i Hi). lra.
    change (@n0 R RNum) with 0. rewrite Ew. exists w. split; auto. destruct (proj1 (isWithin_ok s' w HV) Lw) as (b & Eb & Hb).
    rewrite Eb. f_equal. apply Hb. auto.
  - split. intros x. apply (proj1 (isWithin_ok s' x HV)). intros x. apply (proj2 (isWithin_ok s' x HV)).
Qed.
Print Assumptions C03_after_successful_setBounds.
(** what each successful setter stores *)
Theorem C03_stored_values : forall (T : Type) (NT : Num T) (s s' : bnds T),
  (forall l u, bnds_setScalar s l u = (s', Ok tt) -> b_lo s' = repeat l (b_dim s) /\ b_up s' = repeat u (b_dim s) /\ b_dim s' = b_dim s) /\
  (forall lb ub, bnds_setVec s lb ub = (s', Ok tt) -> b_lo s' = lb /\ b_up s' = ub /\ b_dim s' = length lb) /\
  (forall lb ub, length lb = length ub -> bnds_setStd s lb ub = (s', Ok tt) -> b_lo s' = lb /\ b_up s' = ub /\ b_dim s' = length lb).
Proof.
  intros T NT s s'. split; [|split].
  - unfold bnds_setScalar. intros l u E. destruct (nleb u l); [discriminate|]. destruct (Nat.eqb (b_dim s) 0); [discriminate|]. injection E as <-. auto.
  - unfold bnds_setVec. intros lb ub E. destruct (_ || _)%bool; [discriminate|]. destruct (Nat.eqb_spec (length lb) (length ub)); simpl in E; [|discriminate].
    apply finish_ok in E; auto. destruct E as (_ & ->). auto.
  - unfold bnds_setStd. intros lb ub H E. rewrite H, Nat.ltb_irrefl in E. rewrite firstn_all in E. apply finish_ok in E; auto. destruct E as (_ & ->). auto.
Qed.
Print Assumptions C03_stored_values.
(** the constructors *)
Theorem C03_constructors : forall (lb ub : list R) s, (bnds_of_std lb ub = Ok s \/ (bnds_of_vec lb ub = Ok s /\ length lb = length ub)) ->
  b_lo s = lb /\ b_up s = ub /\ b_set s = true /\ (0 < b_dim s)%nat /\ length lb = b_dim s /\ length ub = b_dim s /\
  forall i, (i < b_dim s)%nat -> nth i lb 0 < nth i ub 0.
Proof.
  intros lb ub s H.
  assert (bnds_valid s /\ b_lo s = lb /\ b_up s = ub) as (HV & <- & <-).
  { destruct H as [H|[H H']]. apply ctor_std_ok; auto. apply ctor_vec_ok; auto. }
  pose proof (valid_lt s HV). destruct HV as (H1 & H2 & H3 & H4 & H5). repeat (split; auto).
Qed.
Print Assumptions C03_constructors.
(** an empty Bounds object, or one after reset, generates nothing *)
Theorem C03_unset_generates_nothing : forall (T : Type) (NT : Num T) (s : bnds T) u d,
  bnds_generate (bnds_reset s) u = Throw LogicError /\ bnds_generate (bnds_new_dim d) u = Throw LogicError.
Proof. intros; split; reflexivity. Qed.
Print Assumptions C03_unset_generates_nothing.
(** setBounds(vec,vec) rejects exactly: an empty vector, different sizes, or some lb >= ub *)
Theorem C03_setVec_rejects : forall (s : bnds R) lb ub,
  (snd (bnds_setVec s lb ub) = Ok tt <-> (0 < length lb)%nat /\ length lb = length ub /\ forall i, (i < length lb)%nat -> nth i lb 0 < nth i ub 0) /\
  (snd (bnds_setVec s lb ub) = Ok tt \/ snd (bnds_setVec s lb ub) = Throw InvalidArgument).
Proof.
  intros s lb ub. unfold bnds_setVec.
  destruct (Nat.eqb_spec (length lb) 0) as [E1|E1]. { simpl. split; auto. split. discriminate. lia. }
  destruct (Nat.eqb_spec (length ub) 0) as [E2|E2]. { simpl. split; auto. split. discriminate. lia. }
  destruct (Nat.eqb_spec (length lb) (length ub)) as [E3|E3]. 2:{ simpl. split; auto. split. discriminate. lia. }
  simpl. unfold bnds_finish, bnds_check. simpl. destruct (Nat.eqb_spec (length lb) 0); try lia.
  pose proof (check_from_ok lb ub (seq 0 (length lb))) as C.
  assert ((forall i, In i (seq 0 (length lb)) -> (i < length lb)%nat /\ (i < length ub)%nat /\ nleb (vget ub i) (vget lb i) = false) <->
          forall i, (i < length lb)%nat -> nth i lb 0 < nth i ub 0) as X.
  { unfold vget. change (@nleb R RNum) with Rleb. change (@n0 R RNum) with 0. split.
    - intros H i Hi. destruct (H i) as (_ & _ & Y). apply in_seq; lia. destruct (Rleb_spec (nth i ub 0) (nth i lb 0)); [discriminate|lra].
    - intros H i Hi. apply in_seq in Hi. split. lia. split. lia. specialize (H i ltac:(lia)). destruct (Rleb_spec (nth i ub 0) (nth i lb 0)); auto; lra. }
  rewrite X in C.
  assert (forall l, (forall i, In i l -> (i < length lb)%nat) -> exists b, check_from lb ub l = Ok b) as Y.
  { induction l; simpl; intros. eauto. destruct (Nat.leb_spec (length lb) a). specialize (H a (or_introl eq_refl)); lia.
    destruct (Nat.leb_spec (length ub) a). specialize (H a (or_introl eq_refl)); lia. simpl. destruct (Rleb (vget ub a) (vget lb a)); eauto. }
  destruct (Y (seq 0 (length lb))) as (b & Eb). { intros i Hi. apply in_seq in Hi. lia. }
  rewrite Eb in *. destruct b; simpl.
  - split; auto. split; auto. intros _. split. lia. split; auto. apply C; auto.
  - split; auto. split. discriminate. intros (_ & _ & H). apply C in H. discriminate.
Qed.
Print Assumptions C03_setVec_rejects.
(** "a setBounds call that throws leaves the object unchanged" is false: the rejected bounds are stored while the
    object still says the bounds are set *)
Theorem C03_throwing_setBounds_keeps_old_bounds_refuted : exists (ops : list (bop F)) s' lb ub,
  b_set (brun ops bnds_new) = true /\ bstep (brun ops bnds_new) (BSetVec lb ub) = (s', Throw InvalidArgument) /\
  b_set s' = true /\ b_lo s' = lb /\ b_up s' = ub /\ nltb (vget ub 0) (vget lb 0) = true.
Proof.
  exists [BSetVec [FofZ 0] [FofZ 1]]. eexists. exists [FofZ 5], [FofZ 2]. vm_compute. repeat split.
Qed.
Print Assumptions C03_throwing_setBounds_keeps_old_bounds_refuted.
(** setDimension after setBounds breaks the size agreement: generating then throws *)
Theorem C03_setDimension_after_setBounds_refuted : exists (ops : list (bop F)), let s := brun ops bnds_new in
  b_set s = true /\ b_dim s = 2%nat /\ length (b_lo s) = 1%nat /\ bnds_generate s (fun _ => FofZ 0) = Throw InvalidArgument.
Proof. exists [BSetVec [FofZ 0] [FofZ 1]; BSetDimension 2]. vm_compute. repeat split. Qed.
Print Assumptions C03_setDimension_after_setBounds_refuted.
(** NaN bounds are accepted; no point is then generated inside them *)
Theorem C03_nan_bounds_rejected_refuted : exists s' : bnds F,
  bnds_setVec bnds_new [SpecFloat.S754_nan] [FofZ 1] = (s', Ok tt) /\ b_set s' = true.
Proof. eexists. vm_compute. auto. Qed.
Print Assumptions C03_nan_bounds_rejected_refuted.
(** the constructor from two vec accepts a longer upper vector; generating a point then throws *)
Theorem C03_constructor_sizes_refuted : exists s : bnds F, bnds_of_vec [FofZ 0] [FofZ 1; FofZ 2] = Ok s /\
  length (b_up s) <> b_dim s /\ bnds_generate s (fun _ => FofZ 0) = Throw InvalidArgument.
Proof. eexists. split. vm_compute. reflexivity. vm_compute. split; auto; discriminate. Qed.
Print Assumptions C03_constructor_sizes_refuted.

(** a history with a rejected call in the middle *)
Example C03_example : exists s' : bnds R,
  bstep (brun [BSetDimension 3; BSetScalar 2 1; BSetVec [0] [0]] bnds_new) (BSetVec [0; -1] [1; 5]) = (s', Ok tt) /\ b_dim s' = 2%nat.
Proof.
  pose proof (C03_setVec_rejects (brun [BSetDimension 3; BSetScalar 2 1; BSetVec [0] [0]] bnds_new) [0; -1] [1; 5]) as [[_ H] _].
  destruct (bnds_setVec (brun _ bnds_new) [0; -1] [1; 5]) as [s' r] eqn:E. exists s'. cbn [snd] in H. rewrite H in E.
  - split. exact E. destruct (C03_stored_values R RNum (brun [BSetDimension 3; BSetScalar 2 1; BSetVec [0] [0]] bnds_new) s') as (_ & X & _). apply X in E. destruct E as (_ & _ & ->). auto.
  - simpl. split. lia. split; auto. intros [|[|i]] Hi; simpl; try lra; lia.
Qed.
