(** The two linear-system objects: call histories, determinants and end-to-end solves. *)
From Coq Require Import Reals Lra List Arith Lia ZArith Bool Permutation.
From Verif Require Import Base Num RealNum RSpec DetSpec VecModel MatModel MatLemmas CholProofs CholProofs2 MatReal LuProofs LuProofs2 LinSolverModel.
Import ListNotations.

(** histories in which setDimension is never called while a factorisation is held *)
Section Hist.
  Context {T : Type} {NT : Num T}.
  Inductive chol_history : list (sys_op T) -> chol_sys T -> Prop :=
  | ch_new : chol_history [] chol_new
  | ch_dim d : chol_history [] (chol_new_dim d)
  | ch_set_dimension ops s d : chol_history ops s -> chol_isDone s = false -> chol_history (ops ++ [SetDimension d]) (chol_setDimension s d)
  | ch_set_matrix ops s m : chol_history ops s -> wf m -> chol_history (ops ++ [SetMatrix m]) (chol_setMatrix s m)
  | ch_factorize ops s : chol_history ops s -> chol_history (ops ++ [Factorize]) (fst (chol_factorize s)).

  Lemma chol_history_ok ops s : chol_history ops s ->
    wf (cs_A s) /\ cs_dim s = nrows (cs_A s) /\ (chol_isDone s = true -> exists L, cs_fact s = Some L /\ mat_cholesky (cs_A s) = Ok (Some L)).
  Proof.
    unfold chol_isDone. intros H. induction H; try solve [simpl; split; [apply mat_zero_wf | split; auto; discriminate]].
    - destruct IHchol_history as (W & D & E). simpl. split. apply mat_zero_wf. split; auto. unfold chol_isDone in *. simpl. rewrite H0. discriminate.
    - simpl. split; auto. split; auto. discriminate.
    - destruct IHchol_history as (W & D & E). unfold chol_factorize. destruct (mat_cholesky (cs_A s)) as [[L|]| |] eqn:C; simpl.
      all: split; [auto|split;[auto|]]. 1: rewrite C; eauto. discriminate. all: rewrite C; auto.
  Qed.

  Inductive lu_history : list (sys_op T) -> lu_sys T -> Prop :=
  | lh_new : lu_history [] lu_new
  | lh_set_dimension ops s d : lu_history ops s -> ls_done s = false -> lu_history (ops ++ [SetDimension d]) (fst (lu_setDimension s d))
  | lh_set_matrix ops s m : lu_history ops s -> wf m -> lu_history (ops ++ [SetMatrix m]) (lu_setMatrix s m)
  | lh_factorize ops s : lu_history ops s -> lu_history (ops ++ [Factorize]) (fst (lu_factorize s)).

  Lemma lu_history_ok ops s : lu_history ops s ->
    wf (ls_A s) /\ ls_dim s = nrows (ls_A s) /\
    (ls_done s = true -> exists lu, ls_fact s = Some lu /\ mat_lu (ls_A s) = Ok (Some (lu, ls_piv s))).
  Proof.
    intros H. induction H.
    - simpl. split. apply mat_zero_wf. split; auto. discriminate.
    - destruct IHlu_history as (W & D & E). unfold lu_setDimension. destruct (Nat.eqb d 0); simpl; auto.
      split. apply mat_zero_wf. split; auto. rewrite H0; discriminate.
    - simpl. split; auto. split; auto. discriminate.
    - destruct IHlu_history as (W & D & E). unfold lu_factorize. destruct (mat_lu (ls_A s)) as [r| |] eqn:C; simpl.
      2,3: rewrite C; auto.
      destruct (Nat.eqb (length (ls_piv s)) 0); simpl. { rewrite C. auto. }
      destruct r as [[lu p]|]; simpl; (split; [auto|split;[auto|]]). rewrite C; eauto. discriminate.
  Qed.
  Lemma chol_history_run ops s : chol_history ops s -> exists d, s = chol_run ops (chol_new_dim d).
  Proof.
    intros H. induction H; try (destruct IHchol_history as (d0 & ->); exists d0; unfold chol_run; rewrite fold_left_app; auto).
    exists 0; auto. exists d; auto.
  Qed.
  Lemma lu_history_run ops s : lu_history ops s -> s = lu_run ops lu_new.
  Proof. intros H. induction H; auto; rewrite IHlu_history; unfold lu_run; rewrite fold_left_app; auto. Qed.
End Hist.

Local Open Scope R_scope.

Lemma vec_product_rprod (v : list R) : vec_product v = rprod (length v) (vget v).
Proof. unfold vec_product. induction (length v); simpl; auto. rewrite <- IHn. auto. Qed.

Lemma mat_diag_ok (L : mat R) n : nrows L = n -> ncols L = n -> wf L -> (0 < n)%nat ->
  exists d, mat_diag L = Ok d /\ length d = n /\ forall i, (i < n)%nat -> vget d i = mget L i i.
Proof.
  intros Hr Hc W Hn. unfold mat_diag. rewrite Hr, Hc, Nat.eqb_refl. simpl negb. cbv iota.
  assert (mat_isEmpty L = false) as ->. { unfold mat_isEmpty. rewrite Hr, Hc. destruct (Nat.eqb_spec n 0); auto; lia. }
  eexists. split. reflexivity. split. unfold vbuild. rewrite map_length, seq_length; auto.
  intros i Hi. unfold vget, vbuild. rewrite nth_map_seq by auto. unfold mget. f_equal. rewrite Hr. lia.
Qed.

Lemma rprod_pos n f : (forall i, (i < n)%nat -> 0 < f i) -> 0 < rprod n f.
Proof. induction n; simpl; intros. lra. apply Rmult_lt_0_compat; auto. Qed.
Lemma ln_rprod n f : (forall i, (i < n)%nat -> 0 < f i) -> ln (rprod n f) = rsum n (fun i => ln (f i)).
Proof.
  induction n; simpl; intros. apply ln_1. rewrite ln_mult; auto. rewrite IHn by auto. auto. apply rprod_pos; auto.
Qed.

Lemma det_gram n (L A : nat -> nat -> R) : (forall i j, (i < n)%nat -> (j < n)%nat -> (i < j)%nat -> L i j = 0) ->
  (forall i j, (i < n)%nat -> (j < n)%nat -> rsum n (fun k => L i k * L j k) = A i j) ->
  det n A = rprod n (fun i => L i i) * rprod n (fun i => L i i).
Proof.
  intros Hz Hp. rewrite (det_ext n A (mm n L (fun k j => L j k))).
  - rewrite det_lower_mul by auto. f_equal. apply (det_upper n (fun k j => L j k)). intros i j Hi Hj Hlt. auto.
  - intros i j Hi Hj. rewrite <- Hp by auto. auto.
Qed.

Lemma chol_det_ok ops s n : chol_history ops s -> chol_isDone s = true -> n = nrows (cs_A s) -> (0 < n)%nat ->
  symmetric n (mget (cs_A s)) -> posdef n (mget (cs_A s)) ->
  0 < det n (mget (cs_A s)) /\ chol_det s = Ok (det n (mget (cs_A s))) /\ chol_logdet s = Ok (ln (det n (mget (cs_A s)))).
Proof.
  intros H Hd -> Hn Hs Hp. destruct (chol_history_ok _ _ H) as (W & D & E). destruct (E Hd) as (L & F & C).
  destruct (cholesky_sound _ L Hs C) as (Hsq & WL & Hr & Hc & Hnn & Hz & HP).
  destruct (cholesky_complete _ Hsq Hs Hp) as (L' & C' & _ & Hpos).
  assert (L' = L) by congruence. subst L'.
  set (n := nrows (cs_A s)) in *.
  assert (det n (mget (cs_A s)) = rprod n (fun i => mget L i i) * rprod n (fun i => mget L i i)) as ED.
  { apply det_gram; auto. apply HP. intros i Hi. specialize (Hpos i Hi). lra. }
  assert (0 < rprod n (fun i => mget L i i)) as HPP by (apply rprod_pos; auto).
  destruct (mat_diag_ok L n Hr Hc WL Hn) as (d & Dd & Ld & Vd).
  unfold chol_isDone in Hd.
  split. rewrite ED. apply Rmult_lt_0_compat; auto.
  split.
  - unfold chol_det. rewrite Hd, F. simpl negb. cbv iota. rewrite Dd. unfold bind. f_equal.
    rewrite vec_product_rprod, Ld, ED. simpl. rewrite (rprod_ext n (vget d) (fun i => mget L i i)) by auto. auto.
  - unfold chol_logdet. rewrite Hd, F. simpl negb. cbv iota. rewrite Dd. unfold bind. rewrite D, Ld. fold n. rewrite Nat.ltb_irrefl. f_equal.
    rewrite nsum_rsum. rewrite ED, ln_mult by auto. rewrite ln_rprod by auto. simpl.
    rewrite (rsum_ext n (fun i => ln (vget d i)) (fun i => ln (mget L i i))). lra. intros; rewrite Vd by auto; auto.
Qed.

(** end to end: every right-hand side is solved *)
Lemma chol_system_solves ops s b : chol_history ops s -> chol_isDone s = true -> symmetric (cs_dim s) (mget (cs_A s)) -> posdef (cs_dim s) (mget (cs_A s)) ->
  length b = cs_dim s -> exists x, chol_solve s b = Ok x /\ length x = cs_dim s /\
    forall i, (i < cs_dim s)%nat -> mv (cs_dim s) (mget (cs_A s)) (fun j => nth j x 0) i = nth i b 0.
Proof.
  intros H Hd Hs Hp Hl. destruct (chol_history_ok _ _ H) as (W & D & E). destruct (E Hd) as (L & F & C). rewrite D in *.
  assert (nrows (cs_A s) = ncols (cs_A s)) as Hsq by (destruct (cholesky_sound _ L Hs C); auto).
  destruct (cholesky_complete _ Hsq Hs Hp) as (L' & C' & _ & Hpos). assert (L' = L) by congruence. subst L'.
  unfold chol_solve. unfold chol_isDone in Hd. rewrite Hd, F. simpl negb. cbv iota. apply cholesky_solve; auto.
  intros i Hi. specialize (Hpos i Hi). lra.
Qed.
Lemma chol_factorize_posdef s : nrows (cs_A s) = ncols (cs_A s) -> symmetric (nrows (cs_A s)) (mget (cs_A s)) -> posdef (nrows (cs_A s)) (mget (cs_A s)) ->
  snd (chol_factorize s) = Ok tt /\ chol_isDone (fst (chol_factorize s)) = true.
Proof.
  intros Hsq Hs Hp. destruct (cholesky_complete _ Hsq Hs Hp) as (L & C & _). unfold chol_factorize. rewrite C. auto.
Qed.

Lemma lu_system_solves ops s (b : list R) : lu_history ops s -> ls_done s = true -> length b = ls_dim s ->
  exists x, lu_solveSystem s b = Ok x /\ length x = ls_dim s /\
    forall i, (i < ls_dim s)%nat -> mv (ls_dim s) (mget (ls_A s)) (fun j => nth j x 0) i = nth i b 0.
Proof.
  intros H Hd Hl. destruct (lu_history_ok _ _ H) as (W & D & E). destruct (E Hd) as (lu & F & C).
  unfold lu_solveSystem. rewrite Hl, Nat.eqb_refl, Hd, F. simpl negb. cbv iota.
  unfold mat_lu in C. destruct (Nat.eqb_spec (nrows (ls_A s)) (ncols (ls_A s))) as [Hsq|]; simpl in C; [|discriminate].
  assert (isq (ls_A s) (nrows (ls_A s))) as Hq by (split; auto).
  pose proof (lu_decomposition_ok _ Hq) as HL. injection C as C. rewrite C in HL.
  destruct (li_sq _ _ _ _ _ HL) as (W1 & R1 & C1).
  unfold mat_solveLU. rewrite R1, C1, Hl, D, !Nat.eqb_refl. simpl. 
  destruct (lu_solve_ok _ _ lu (ls_piv s) b HL) as [S1 S2]. eexists. split. reflexivity. split; auto.
Qed.
