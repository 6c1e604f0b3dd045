(** Values of candidates in the training. *)
From Coq Require Import Reals Lra List Arith Lia ZArith Bool Permutation.
From Verif Require Import Base StM Num RealNum RSpec VecModel MatModel MatLemmas MatSpec VecProofs VecReal MatProofs MatProofs2 MatProofs3 MatReal CholProofs CholProofs2 LinSolverModel BoundsModel CorrModel CorrProofs CorrSpec CorrObj
  DataModel DataSpec DataProofs DataReal KrigModel KrigSpec KrigMath KrigProofs KrigProofs2 KrigProofs3 KrigProg KrigProofs4 PropsData KrigProofs5 EaModel EaProofs EaRun EaReal EaDemo PropsEa TrainModel TrainProofs TrainReal.
Import ListNotations.
Local Open Scope R_scope.

Section Generic.
  Context {T : Type} {NT : Num T} {NF : NumFun T}.
  Definition corr_matrix (k : krig T) : mat T := cb_R (ec_b (k_cf k)).
  Ltac sstep H := apply sbind_inv in H; let k := fresh "k" in let a := fresh "a" in let H1 := fresh "H" in destruct H as (k & a & H1 & H).
  Lemma throw_if_inv {S} b e (s s' : S) u : sthrow_if b e s = (s', Ok u) -> b = false /\ s' = s.
  Proof. destruct b; cbn; intros H; inversion H; auto. Qed.
  (** a successful update factorises the correlation matrix *)
  Lemma update_factor (k k' : krig T) : krig_update k = (k', Ok tt) ->
    (cs_done (k_sys k') = false /\ mat_cholesky (corr_matrix k') = Ok None) \/ (cs_done (k_sys k') = true /\ exists L, mat_cholesky (corr_matrix k') = Ok (Some L)).
  Proof.
    intros H. unfold krig_update in H. sstep H. injection H0 as <- <-.
    do 5 (sstep H; apply throw_if_inv in H0; destruct H0 as [_ ->]).
    sstep H. unfold in_kcf in H0. apply zoom_inv in H0. destruct H0 as (c & H0 & ->).
    sstep H. injection H1 as <- <-. sstep H. unfold in_ksys in H1. apply zoom_inv in H1. destruct H1 as (s & H1 & ->).
    assert ((cs_done s = false /\ mat_cholesky (cb_R (ec_b c)) = Ok None) \/ (cs_done s = true /\ exists L, mat_cholesky (cb_R (ec_b c)) = Ok (Some L))) as HF.
    { unfold chol_factorize in H1. cbn [k_sys kset_sys k_cf kset_cf chol_setMatrix cs_A] in H1. destruct (mat_cholesky (cb_R (ec_b c))) as [[L|]|e|] eqn:E; inversion H1; subst; cbn; eauto. }
    clear H1. assert (forall k2 : krig T, k_sys k2 = s -> k_cf k2 = c ->
      (cs_done (k_sys k2) = false /\ mat_cholesky (corr_matrix k2) = Ok None) \/ (cs_done (k_sys k2) = true /\ exists L, mat_cholesky (corr_matrix k2) = Ok (Some L))) as FIN.
    { intros k2 E1 E2. unfold corr_matrix. rewrite E1, E2. exact HF. }
    sstep H. injection H1 as <- <-. unfold krig_resize in H. sstep H. sstep H1. injection H2 as <- <-. sstep H1. apply throw_if_inv in H2. destruct H2 as [_ ->]. injection H1 as <- <-.
    sstep H. injection H1 as <- <-. unfold swhen in H. destruct (chol_isDone _).
    - do 7 (sstep H; unfold slift in H1; injection H1 as <- _). injection H as <-. apply FIN; reflexivity.
    - injection H as <-. apply FIN; reflexivity.
  Qed.
  Lemma validation_result h (k k' : krig T) v : krig_validationErrorFor h k = (k', Ok v) ->
    (mat_cholesky (corr_matrix k') = Ok None /\ v = n0 -! ndblmax) \/ ((exists L, mat_cholesky (corr_matrix k') = Ok (Some L)) /\ krig_validationError k' = Ok v /\ (0 < d_nv (k_data k'))%nat).
  Proof.
    intros H. pose proof (keeps_evaluate true h k) as SK. unfold train_evaluate in SK. rewrite H in SK. cbn [fst] in SK. destruct (stable_parts _ _ SK) as (_ & _ & _ & SD & _).
    unfold krig_validationErrorFor in H. sstep H. injection H0 as <- <-. do 3 (sstep H; apply throw_if_inv in H0; destruct H0 as [_ ->]). sstep H; apply throw_if_inv in H0; destruct H0 as [NV ->].
    sstep H. sstep H. match type of H1 with krig_update _ = (_, Ok ?u) => destruct u end. apply update_factor in H1. sstep H. injection H2 as <- <-. unfold chol_isDone in H.
    destruct H1 as [[E1 E2]|[E1 E2]]; rewrite E1 in H; cbn [negb] in H.
    - injection H as <- <-. auto.
    - unfold slift in H. injection H as <- H. right. split; auto. split; auto. rewrite SD. apply Nat.eqb_neq in NV. lia.
  Qed.
  Lemma likelihood_result h (k k' : krig T) v : krig_likelihood h k = (k', Ok v) -> mat_cholesky (corr_matrix k') = Ok None -> v = n0 -! ndblmax.
  Proof.
    intros H HN. unfold krig_likelihood in H. sstep H. injection H0 as <- <-. do 3 (sstep H; apply throw_if_inv in H0; destruct H0 as [_ ->]).
    sstep H. sstep H. match type of H1 with krig_update _ = (_, Ok ?u) => destruct u end. apply update_factor in H1. sstep H. injection H2 as <- <-. unfold chol_isDone in H.
    destruct H1 as [[E1 E2]|[E1 (L & E2)]]; rewrite E1 in H; cbn [negb] in H.
    - injection H as <- <-. auto.
    - sstep H. unfold slift in H1. injection H1 as <- _. injection H as <- _. congruence.
  Qed.
End Generic.

Lemma validationError_nonneg (k : krig R) v : krig_validationError k = Ok v -> (0 < d_nv (k_data k))%nat -> 0 <= v.
Proof.
  unfold krig_validationError. intros H Hn. destruct (Nat.ltb_spec 0 (d_nv (k_data k))); [|lia]. destruct (negb _); [discriminate|].
  destruct (loopR _ _ _) as [e|x|] eqn:E; cbn [bind] in H; try discriminate. injection H as <-.
  assert (0 <= e) as He.
  { match goal with E : loopR ?N ?f ?s = _ |- _ => assert (forall m e, loopR m f s = Ok e -> 0 <= e) as K end.
    { induction m; intros e0 L. cbn [loopR] in L. injection L as <-. change (@n0 R RNum) with 0. lra.
      cbn [loopR] in L. destruct (loopR m _ _) as [a|x|]; cbn [bind] in L; try discriminate. specialize (IHm a eq_refl).
      destruct (mat_getRow _ _) as [r|x|]; cbn [bind] in L; try discriminate. destruct (krig_interpolate k r) as [f|x|]; cbn [bind] in L; try discriminate.
      destruct (vec_at _ _) as [y|x|]; cbn [bind] in L; try discriminate. injection L as <-. pose proof (Rabs_pos (f - y)). change (0 <= a + Rabs (f - y)). lra. }
    eapply K; eauto. }
  change (0 <= e / @nofnat R RNum (d_nv (k_data k))). unfold nofnat. change (nofZ (Z.of_nat (d_nv (k_data k)))) with (IZR (Z.of_nat (d_nv (k_data k)))). rewrite <- INR_IZR_INZ. pose proof (lt_0_INR _ Hn).
  apply Rmult_le_pos; auto. left. apply Rinv_0_lt_compat; auto.
Qed.
Lemma dblmax_pos : 0 < @ndblmax R RNum.
Proof. pose proof DM_big. unfold DM in *. lra. Qed.
