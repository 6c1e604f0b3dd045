(** Matrix lemmas over the reals: normalisation, random fills, Latin hypercube, products. *)
From Coq Require Import Reals Lra List Arith Lia ZArith Bool Permutation.
From Verif Require Import Base Num RealNum RSpec VecModel MatModel MatLemmas MatSpec VecProofs VecReal VecProofs2 MatProofs MatProofs2.
Import ListNotations.
Local Open Scope R_scope.

Lemma mat_scale_ok (m : mat R) a : wf m -> wf (mat_scale m a) /\ nrows (mat_scale m a) = nrows m /\ ncols (mat_scale m a) = ncols m /\
  forall i j, (i < nrows m)%nat -> (j < ncols m)%nat -> mget (mat_scale m a) i j = a * mget m i j.
Proof.
  intros Hw. split. apply flat_wf. repeat split; auto. intros i j Hi Hj. unfold mat_scale. rewrite mget_flat by auto. reflexivity.
Qed.

(** *** C02 *)
Lemma mat_normalize_ok (m : mat R) lb ub : length lb = ncols m -> length ub = ncols m ->
  (forall j, (j < ncols m)%nat -> nth j lb 0 < nth j ub 0) ->
  exists m', mat_normalize m lb ub = Ok m' /\ wf m' /\ nrows m' = nrows m /\ ncols m' = ncols m /\
    forall i, (i < nrows m)%nat -> vec_normalize (nth i (rows m) []) lb ub = Ok (nth i (rows m') []).
Proof.
  intros Hl Hu Hb. unfold mat_normalize. cbv zeta. rewrite Hl, Hu, !Nat.eqb_refl. cbn [negb].
  destruct (existsb _ _) eqn:E.
  { exfalso. apply existsb_seq in E. destruct E as [i [Hi He]]. specialize (Hb i Hi).
    unfold vget in He; simpl in He. destruct (Rleb_spec (nth i ub 0) (nth i lb 0)); try discriminate. lra. }
  eexists; split; eauto.
  destruct (mat_scale_ok (mbuild (nrows m) (ncols m) (fun i j => (mget m i j -! vget lb j) /! (vget ub j -! vget lb j))) (n1 /! nofnat (ncols m))) as (A & B & C & D).
  apply mbuild_wf.
  repeat split; auto.
  intros i Hi. rewrite !nth_rows by (rewrite ?B; auto). rewrite normalize_ok by (rewrite mrow_length; lia).
  f_equal. rewrite mrow_length. apply vec_ext. rewrite vbuild_length, mrow_length. auto.
  intros j Hj. rewrite vbuild_length in Hj. rewrite vget_vbuild by auto.
  rewrite !vget_mrow by exact Hj. rewrite D by auto. rewrite mget_mbuild by auto. simpl.
  specialize (Hb j Hj). unfold vget in *; simpl in *.
  unfold nofnat; simpl. field.
  split. lra. apply not_0_IZR. lia.
Qed.
Lemma mat_normalize_rejects (m : mat R) lb ub :
  length lb <> ncols m \/ length ub <> ncols m \/ (exists j, (j < ncols m)%nat /\ nth j ub 0 <= nth j lb 0) ->
  mat_normalize m lb ub = Throw InvalidArgument.
Proof.
  intros H. unfold mat_normalize. destruct (Nat.eqb_spec (length lb) (length ub)) as [E|E]; auto. cbn [negb].
  destruct (Nat.eqb_spec (length lb) (ncols m)) as [E'|E']; auto. cbn [negb].
  destruct H as [H|[H|H]]; try lia.
  assert (existsb (fun i => vget lb i >=! vget ub i) (seq 0 (length lb)) = true) as ->; auto.
  apply existsb_seq. destruct H as [j [Hj Hle]]. exists j. split. lia. unfold vget; simpl.
  destruct (Rleb_spec (nth j ub 0) (nth j lb 0)); auto; lra.
Qed.

(** *** C04 *)
Lemma mat_fillRandom_ok (m : mat R) a b (u : nat -> R) : (forall k, 0 <= u k <= 1) ->
  (a < b -> exists m', mat_fillRandom m a b u = Ok m' /\ wf m' /\ nrows m' = nrows m /\ ncols m' = ncols m /\
     forall i j, (i < nrows m)%nat -> (j < ncols m)%nat -> a <= mget m' i j <= b) /\
  (b <= a -> mat_fillRandom m a b u = Throw InvalidArgument).
Proof.
  intros Hu. unfold mat_fillRandom. change (nleb b a) with (Rleb b a). destruct (Rleb_spec b a); split; intros Hab; try lra; auto.
  eexists; split; eauto. fold (vbuild (nrows m * ncols m) (fun k => u k *! (b -! a) +! a)). split. apply flat_wf. split; auto. split; auto.
  intros i j Hi Hj. rewrite mget_flat by auto. simpl. specialize (Hu (j * nrows m + i)%nat). split.
  - assert (0 <= u (j * nrows m + i)%nat * (b - a)) by (apply Rmult_le_pos; lra). lra.
  - assert (u (j * nrows m + i)%nat * (b - a) <= 1 * (b - a)) by (apply Rmult_le_compat_r; lra). lra.
Qed.
Lemma lohi_check (lb ub : list R) n : existsb (fun j => vget lb j >! vget ub j) (seq 0 n) = true <-> exists j, (j < n)%nat /\ nth j ub 0 < nth j lb 0.
Proof.
  rewrite existsb_seq. split; intros [j [Hj He]]; exists j; split; auto; unfold vget in *; simpl in *;
  destruct (Rltb_spec (nth j ub 0) (nth j lb 0)); auto; try discriminate; lra.
Qed.
Lemma mat_fillRandomV_ok (m : mat R) lb ub (u : nat -> nat -> R) : (forall i j, 0 <= u i j <= 1) ->
  (length lb = ncols m -> length ub = ncols m -> (forall j, (j < ncols m)%nat -> nth j lb 0 <= nth j ub 0) ->
   exists m', mat_fillRandomV m lb ub u = Ok m' /\ wf m' /\ nrows m' = nrows m /\ ncols m' = ncols m /\
     forall i j, (i < nrows m)%nat -> (j < ncols m)%nat -> nth j lb 0 <= mget m' i j <= nth j ub 0) /\
  (length lb <> ncols m \/ length ub <> ncols m \/ (exists j, (j < ncols m)%nat /\ nth j ub 0 < nth j lb 0) ->
   mat_fillRandomV m lb ub u = Throw InvalidArgument).
Proof.
  intros Hu. unfold mat_fillRandomV. split.
  - intros Hl Hb Hle. rewrite Hl, Hb, Nat.eqb_refl. cbn [andb negb].
    destruct (existsb _ _) eqn:E. { apply lohi_check in E. destruct E as [j [Hj Hlt]]. specialize (Hle j Hj). lra. }
    eexists; split; eauto. split. apply mbuild_wf. split; auto. split; auto. intros i j Hi Hj. rewrite mget_mbuild by auto. simpl.
    specialize (Hu i j). specialize (Hle j Hj). unfold vget; simpl.
    assert (0 <= u i j * (nth j ub 0 - nth j lb 0)) by (apply Rmult_le_pos; lra).
    assert (u i j * (nth j ub 0 - nth j lb 0) <= 1 * (nth j ub 0 - nth j lb 0)) by (apply Rmult_le_compat_r; lra). lra.
  - intros H. destruct (Nat.eqb_spec (length lb) (ncols m)), (Nat.eqb_spec (length ub) (ncols m)); auto. cbn [andb negb].
    destruct H as [H|[H|H]]; try lia. apply lohi_check in H. rewrite H. auto.
Qed.

(** *** C05 *)
Lemma perm_seq_facts n p : Permutation p (seq 0 n) ->
  length p = n /\ (forall i, (i < n)%nat -> (nth i p 0 < n)%nat) /\
  (forall k, (k < n)%nat -> exists i, (i < n)%nat /\ nth i p 0%nat = k /\ forall i', (i' < n)%nat -> nth i' p 0%nat = k -> i' = i).
Proof.
  intros H. assert (length p = n) as Hl by (rewrite (Permutation_length H), seq_length; auto).
  assert (NoDup p) as Hn by (eapply Permutation_NoDup; [symmetry; eauto | apply seq_NoDup]).
  repeat split; auto.
  - intros i Hi. assert (In (nth i p 0%nat) (seq 0 n)) as X by (eapply Permutation_in; eauto; apply nth_In; lia). apply in_seq in X. lia.
  - intros k Hk. assert (In k p) as X by (eapply Permutation_in; [symmetry; eauto|apply in_seq; lia]).
    apply (In_nth _ _ 0%nat) in X. destruct X as [i [Hi He]]. exists i. repeat split; auto; try lia.
    intros i' Hi' He'. apply (proj1 (NoDup_nth p 0%nat) Hn); try lia.
Qed.

Lemma lhs_strata (m : mat R) lb ub u perm :
  (0 < nrows m)%nat ->
  length lb = ncols m -> length ub = ncols m -> (forall j, (j < ncols m)%nat -> nth j lb 0 < nth j ub 0) ->
  (forall i j, 0 <= u i j < 1) -> (forall j, (j < ncols m)%nat -> Permutation (perm j) (seq 0 (nrows m))) ->
  exists m', mat_fillRandomLHS m lb ub u perm = Ok m' /\ wf m' /\ nrows m' = nrows m /\ ncols m' = ncols m /\
    (forall i j, (i < nrows m)%nat -> (j < ncols m)%nat -> nth j lb 0 <= mget m' i j < nth j ub 0) /\
    forall j k, (j < ncols m)%nat -> (k < nrows m)%nat ->
      exists i, ((i < nrows m)%nat /\ in_stratum (nth j lb 0) (nth j ub 0) (nrows m) k (mget m' i j)) /\
        forall i', (i' < nrows m)%nat /\ in_stratum (nth j lb 0) (nth j ub 0) (nrows m) k (mget m' i' j) -> i' = i.
Proof.
  intros Hn Hl Hb Hlt Hu Hp. unfold mat_fillRandomLHS. rewrite Hl, Hb, Nat.eqb_refl. cbn [andb negb].
  destruct (existsb _ _) eqn:E. { apply lohi_check in E. destruct E as [j [Hj Hlt']]. specialize (Hlt j Hj). lra. } clear E.
  eexists; split; eauto. split. apply mbuild_wf. split; auto. split; auto.
  assert (0 < INR (nrows m)) as Hpos by (apply lt_0_INR; auto).
  assert (forall i j, (i < nrows m)%nat -> (j < ncols m)%nat ->
    in_stratum (nth j lb 0) (nth j ub 0) (nrows m) (nth i (perm j) 0%nat) (mget
     (mbuild (nrows m) (ncols m)
        (fun i j => vget (vbuild (nrows m) (fun row =>
               unif (vget lb j +! nofnat row *! ((vget ub j -! vget lb j) /! nofnat (nrows m)))
                 (vget lb j +! nofnat (row + 1) *! ((vget ub j -! vget lb j) /! nofnat (nrows m))) 
                 (u row j))) (nth i (perm j) 0%nat))) i j)) as Hin.
  { intros i j Hi Hj. rewrite mget_mbuild by auto. destruct (perm_seq_facts _ _ (Hp j Hj)) as (P1 & P2 & P3).
    rewrite vget_vbuild by auto. set (k := nth i (perm j) 0%nat) in *. unfold in_stratum.
    unfold nofnat; simpl. unfold vget; simpl. rewrite <- !INR_IZR_INZ. rewrite plus_INR. simpl (INR 1).
    set (h := (nth j ub 0 - nth j lb 0) / INR (nrows m)).
    assert (0 < h) as Hh. { unfold h. apply Rmult_lt_0_compat. specialize (Hlt j Hj). lra. apply Rinv_0_lt_compat; auto. }
    destruct (unif_between (nth j lb 0 + INR k * h) (nth j lb 0 + (INR k + 1) * h) (u k j)) as [X Y]; auto. lra.
    split. apply X. apply Y. lra. }
  assert (forall i j, (i < nrows m)%nat -> (j < ncols m)%nat -> forall k x, (k < nrows m)%nat ->
     in_stratum (nth j lb 0) (nth j ub 0) (nrows m) k x -> nth j lb 0 <= x < nth j ub 0) as Hsub.
  { intros i j Hi Hj k x Hk [X Y]. set (h := (nth j ub 0 - nth j lb 0) / INR (nrows m)) in *.
    assert (0 < h) as Hh. { unfold h. apply Rmult_lt_0_compat. specialize (Hlt j Hj). lra. apply Rinv_0_lt_compat; auto. }
    assert (INR (nrows m) * h = nth j ub 0 - nth j lb 0) as Eh by (unfold h; field; lra).
    assert (0 <= INR k) by apply pos_INR. assert (INR k + 1 <= INR (nrows m)) by (rewrite <- S_INR; apply le_INR; lia).
    assert (0 <= INR k * h) by (apply Rmult_le_pos; lra).
    assert ((INR k + 1) * h <= INR (nrows m) * h) by (apply Rmult_le_compat_r; lra). lra. }
  split.
  - intros i j Hi Hj. destruct (perm_seq_facts _ _ (Hp j Hj)) as (P1 & P2 & P3). apply (Hsub i j Hi Hj (nth i (perm j) 0%nat)); auto.
  - intros j k Hj Hk. destruct (perm_seq_facts _ _ (Hp j Hj)) as (P1 & P2 & P3).
    destruct (P3 k Hk) as [i [Hi [He Hun]]]. exists i. split.
    + split; auto. rewrite <- He. apply Hin; auto.
    + intros i' [Hi' Hs]. apply Hun; auto. specialize (Hin i' j Hi' Hj).
      set (x := mget _ i' j) in *. set (k' := nth i' (perm j) 0%nat) in *. clearbody x.
      destruct Hs as [S1 S2], Hin as [S3 S4]. set (h := (nth j ub 0 - nth j lb 0) / INR (nrows m)) in *.
      assert (0 < h) as Hh. { unfold h. apply Rmult_lt_0_compat. specialize (Hlt j Hj). lra. apply Rinv_0_lt_compat; auto. }
      assert (INR k < INR k' + 1). { apply (Rmult_lt_reg_r h); lra. }
      assert (INR k' < INR k + 1). { apply (Rmult_lt_reg_r h); lra. }
      rewrite <- S_INR in *. apply INR_lt in H. apply INR_lt in H0. lia.
Qed.

(** *** C15 *)
Lemma mat_vec_ok (A : mat R) x : length x = ncols A ->
  exists y, mat_vec A x = Ok y /\ length y = nrows A /\
    forall i, (i < nrows A)%nat -> nth i y 0 = rsum (ncols A) (fun j => mget A i j * nth j x 0).
Proof.
  intros Hl. unfold mat_vec. rewrite Hl, Nat.eqb_refl. cbn [negb]. eexists; split; eauto. split. apply vbuild_length.
  intros i Hi. change 0 with (@n0 R RNum) at 1. fold (vget (vbuild (nrows A) (fun i => nsum (ncols A) (fun j => mget A i j *! vget x j))) i).
  rewrite vget_vbuild by auto. rewrite nsum_rsum. reflexivity.
Qed.
Lemma mat_vec_throws (A : mat R) x : length x <> ncols A -> mat_vec A x = Throw InvalidArgument.
Proof. intros. unfold mat_vec. destruct (Nat.eqb_spec (length x) (ncols A)); auto; lia. Qed.
Lemma mat_mul_ok (A B : mat R) : ncols A = nrows B ->
  exists C, mat_mul A B = Ok C /\ is_mat C (nrows A) (ncols B) (fun i j => rsum (ncols A) (fun k => mget A i k * mget B k j)).
Proof.
  intros Hc. unfold mat_mul. rewrite Hc, Nat.eqb_refl. cbn [negb]. eexists; split; eauto. split. apply mbuild_wf. repeat split; auto.
  intros i j Hi Hj. rewrite mget_mbuild by auto. rewrite nsum_rsum. reflexivity.
Qed.
Lemma mat_mul_throws (A B : mat R) : ncols A <> nrows B -> mat_mul A B = Throw InvalidArgument.
Proof. intros. unfold mat_mul. destruct (Nat.eqb_spec (ncols A) (nrows B)); auto; lia. Qed.

Lemma mul_vec_assoc (A B C : mat R) x y : mat_mul A B = Ok C -> mat_vec B x = Ok y -> mat_vec C x = mat_vec A y.
Proof.
  intros H1 H2.
  assert (ncols A = nrows B) as Hc. { destruct (Nat.eq_dec (ncols A) (nrows B)); auto. rewrite mat_mul_throws in H1 by auto; discriminate. }
  assert (length x = ncols B) as Hx. { destruct (Nat.eq_dec (length x) (ncols B)); auto. rewrite mat_vec_throws in H2 by auto; discriminate. }
  destruct (mat_mul_ok A B Hc) as (C' & E & W & R1 & C1 & G). rewrite H1 in E. injection E as <-.
  destruct (mat_vec_ok B x Hx) as (y' & E & L & Gy). rewrite H2 in E. injection E as <-.
  destruct (mat_vec_ok C x ltac:(lia)) as (z & Ez & Lz & Gz). destruct (mat_vec_ok A y ltac:(lia)) as (w & Ew & Lw & Gw).
  rewrite Ez, Ew. f_equal. apply (list_ext _ _ 0). lia. intros i Hi. rewrite Gz, Gw by lia.
  rewrite (rsum_ext (ncols C) _ (fun j => rsum (ncols A) (fun k => mget A i k * mget B k j * nth j x 0))).
  - rewrite rsum_swap. apply rsum_ext. intros k Hk. rewrite Gy by lia. rewrite C1, <- rsum_scal. apply rsum_ext. intros; lra.
  - intros j Hj. rewrite G by lia. rewrite <- rsum_scal_r. reflexivity.
Qed.
Lemma mul_transpose (A B C : mat R) : wf A -> wf B -> mat_mul A B = Ok C ->
  mat_mul (mat_transpose B) (mat_transpose A) = Ok (mat_transpose C).
Proof.
  intros Wa Wb H1.
  assert (ncols A = nrows B) as Hc. { destruct (Nat.eq_dec (ncols A) (nrows B)); auto. rewrite mat_mul_throws in H1 by auto; discriminate. }
  destruct (mat_mul_ok A B Hc) as (C' & E & W & R1 & C1 & G). rewrite H1 in E. injection E as <-.
  destruct (transpose_ok A) as (TA1 & TA2 & TA3 & TA4). destruct (transpose_ok B) as (TB1 & TB2 & TB3 & TB4).
  destruct (transpose_ok C) as (TC1 & TC2 & TC3 & TC4).
  destruct (mat_mul_ok (mat_transpose B) (mat_transpose A) ltac:(lia)) as (D & ED & WD & RD & CD & GD).
  rewrite ED. f_equal. apply mat_ext; auto; try lia. intros i j Hi Hj. rewrite GD, TC4, G by lia.
  rewrite TB3, <- Hc. apply rsum_ext. intros k Hk. rewrite TB4, TA4 by lia. lra.
Qed.
Lemma mul_assoc (A B C AB BC : mat R) : mat_mul A B = Ok AB -> mat_mul B C = Ok BC -> mat_mul AB C = mat_mul A BC.
Proof.
  intros H1 H2.
  assert (ncols A = nrows B) as Hc. { destruct (Nat.eq_dec (ncols A) (nrows B)); auto. rewrite mat_mul_throws in H1 by auto; discriminate. }
  assert (ncols B = nrows C) as Hc'. { destruct (Nat.eq_dec (ncols B) (nrows C)); auto. rewrite mat_mul_throws in H2 by auto; discriminate. }
  destruct (mat_mul_ok A B Hc) as (X & E & W & R1 & C1 & G). rewrite H1 in E. injection E as <-.
  destruct (mat_mul_ok B C Hc') as (Y & E & W' & R1' & C1' & G'). rewrite H2 in E. injection E as <-.
  destruct (mat_mul_ok AB C ltac:(lia)) as (L & EL & WL & RL & CL & GL).
  destruct (mat_mul_ok A BC ltac:(lia)) as (Q & EQ & WQ & RQ & CQ & GQ).
  rewrite EL, EQ. f_equal. apply mat_ext; auto; try lia. intros i j Hi Hj. rewrite GL, GQ by lia.
  rewrite (rsum_ext (ncols AB) _ (fun k => rsum (ncols A) (fun l => mget A i l * mget B l k * mget C k j))).
  - rewrite rsum_swap. apply rsum_ext. intros l Hl. rewrite G' by lia. rewrite C1, <- rsum_scal. apply rsum_ext. intros; lra.
  - intros k Hk. rewrite G by lia. rewrite <- rsum_scal_r. reflexivity.
Qed.
Lemma lhs_rejects (m : mat R) lb ub u perm :
  length lb <> ncols m \/ length ub <> ncols m \/ (exists j, (j < ncols m)%nat /\ nth j ub 0 < nth j lb 0) ->
  mat_fillRandomLHS m lb ub u perm = Throw InvalidArgument.
Proof.
  intros H. unfold mat_fillRandomLHS. destruct (Nat.eqb_spec (length lb) (ncols m)), (Nat.eqb_spec (length ub) (ncols m)); auto. cbn [andb negb].
  destruct H as [H|[H|H]]; try lia. apply lohi_check in H. rewrite H. auto.
Qed.
