(** Proofs about the training: evaluation of candidates, selection over the threads. *)
From Coq Require Import List Arith Lia ZArith Bool Permutation.
From Verif Require Import Base StM Num VecModel MatModel LinSolverModel BoundsModel CorrModel DataModel KrigModel EaModel TrainModel.
Import ListNotations.

Section Evaluate.
  Context {T : Type} {NT : Num T} {NF : NumFun T}.
  (** the part of a model that evaluations of candidates leave alone *)
  Definition stable_cf (c : ecf T) : ecf T := mkE (mkCB (cb_X (ec_b c)) (cb_N (ec_b c)) (cb_dim (ec_b c)) (mat_zero 0 0) (cb_eps (ec_b c)) (cb_set (ec_b c))) [] [].
  Definition stable (k : krig T) : krig T := kset_sol [] [] [] [] n0 n0 (kset_sys chol_new (kset_cf (stable_cf (k_cf k)) k)).

  Lemma stable_setHyper h (c : ecf T) : stable_cf (fst (ecf_setHyper c h)) = stable_cf c.
  Proof.
    unfold ecf_setHyper. destruct (negb _); auto. destruct (vec_head h _); auto; destruct (vec_tail h _); auto.
    unfold ecf_setTheta. repeat (match goal with |- context[if ?b then _ else _] => destruct b end; auto).
    all: unfold ecf_setGamma; repeat (match goal with |- context[if ?b then _ else _] => destruct b end; auto).
  Qed.
  Lemma stable_compute (c : ecf T) : stable_cf (fst (ecf_computeMatrix c)) = stable_cf c.
  Proof. unfold ecf_computeMatrix. repeat (match goal with |- context[if ?b then _ else _] => destruct b end; auto). Qed.

  (** running a step keeps the stable part *)
  Definition keeps {A} (m : SM (krig T) A) : Prop := forall k, stable (fst (m k)) = stable k.
  Lemma keeps_bind {A B} (m : SM (krig T) A) (f : A -> SM (krig T) B) : keeps m -> (forall a, keeps (f a)) -> keeps (sbind m f).
  Proof. intros H1 H2 k. unfold sbind. specialize (H1 k). destruct (m k) as [k1 [a|e|]]; cbn [fst] in *; auto. rewrite H2. auto. Qed.
  Lemma keeps_get {A} (f : krig T -> A) : keeps (sget f).
  Proof. intros k. reflexivity. Qed.
  Lemma keeps_ret {A} (a : A) : keeps (sret a).
  Proof. intros k. reflexivity. Qed.
  Lemma keeps_lift {A} (r : Res A) : keeps (slift r).
  Proof. intros k. reflexivity. Qed.
  Lemma keeps_throw_if b e : keeps (sthrow_if b e).
  Proof. intros k. destruct b; reflexivity. Qed.
  Lemma keeps_when b (m : SM (krig T) unit) : keeps m -> keeps (swhen b m).
  Proof. intros H k. destruct b; [apply H|reflexivity]. Qed.
  Lemma keeps_cf {A} (m : SM (ecf T) A) : (forall c, stable_cf (fst (m c)) = stable_cf c) -> keeps (in_kcf m).
  Proof. intros H k. unfold in_kcf, szoom. specialize (H (k_cf k)). destruct (m (k_cf k)) as [c r]. cbn [fst] in *. unfold stable, kset_sol, kset_sys, kset_cf. cbn. rewrite H. auto. Qed.
  Lemma keeps_sys {A} (m : SM (@chol_sys T) A) : keeps (in_ksys m).
  Proof. intros k. unfold in_ksys, szoom. destruct (m (k_sys k)) as [c r]. reflexivity. Qed.
  Lemma keeps_update : keeps krig_update.
  Proof.
    unfold krig_update, krig_reset, krig_resize.
    repeat first [apply keeps_bind; [|intros ?] | apply keeps_get | apply keeps_ret | apply keeps_lift | apply keeps_throw_if | apply keeps_when | apply keeps_sys | (apply keeps_cf; apply stable_compute) | (intros ?; reflexivity)].
  Qed.
  Lemma keeps_evaluate val h : keeps (train_evaluate val h).
  Proof.
    unfold train_evaluate, krig_validationErrorFor, krig_likelihood. destruct val.
    all: repeat first [apply keeps_update | apply keeps_bind; [|intros ?] | apply keeps_get | apply keeps_ret | apply keeps_lift | apply keeps_throw_if | apply keeps_update | (apply keeps_cf; intros c; apply stable_setHyper)
       | match goal with |- keeps (if ?b then _ else _) => destruct b end | progress cbv zeta | (intros ?; reflexivity)].
  Qed.

  (** two runs of the same step from related states *)
  Definition rel {A} (P : krig T -> krig T -> Prop) (m : SM (krig T) A) (Q : krig T -> krig T -> Prop) : Prop :=
    forall k1 k2, P k1 k2 -> snd (m k1) = snd (m k2) /\ forall a, snd (m k1) = Ok a -> Q (fst (m k1)) (fst (m k2)).
  Lemma rel_bind {A B} P Q R (m : SM (krig T) A) (f : A -> SM (krig T) B) : rel P m Q -> (forall a, rel Q (f a) R) -> rel P (sbind m f) R.
  Proof.
    intros H1 H2 k1 k2 HP. destruct (H1 k1 k2 HP) as [E F]. unfold sbind. destruct (m k1) as [k1' r1], (m k2) as [k2' r2]. cbn [fst snd] in *. subst r2.
    destruct r1 as [a|e|]; cbn [fst snd]; try (split; [reflexivity|discriminate]). apply (H2 a). apply (F a). reflexivity.
  Qed.
  Lemma rel_get {A} (P Q : krig T -> krig T -> Prop) (f : krig T -> SM (krig T) A) : (forall k1 k2, P k1 k2 -> f k1 = f k2) -> (forall k, rel P (f k) Q) -> rel P (sbind (sget (fun k => k)) f) Q.
  Proof. intros H1 H2 k1 k2 HP. unfold sbind, sget. rewrite (H1 k1 k2 HP). apply H2. auto. Qed.
  Lemma rel_throw_if P b e : rel P (sthrow_if b e) P.
  Proof. intros k1 k2 HP. destruct b; (split; [reflexivity|auto]); discriminate. Qed.
  Lemma rel_lift {A} P (r : Res A) : rel P (slift r) P.
  Proof. intros k1 k2 HP. split; auto. Qed.
  Lemma rel_mod (P Q : krig T -> krig T -> Prop) f : (forall k1 k2, P k1 k2 -> Q (f k1) (f k2)) -> rel P (smod f) Q.
  Proof. intros H k1 k2 HP. split; auto. intros _ _. apply H; auto. Qed.
  Lemma rel_eq {A} (m : SM (krig T) A) : rel eq m eq.
  Proof. intros k1 k2 <-. auto. Qed.

  Definition agree1 (k1 k2 : krig T) : Prop := stable k1 = stable k2 /\ ec_theta (k_cf k1) = ec_theta (k_cf k2) /\ ec_gamma (k_cf k1) = ec_gamma (k_cf k2).
  Definition agree2 (k1 k2 : krig T) : Prop := stable k1 = stable k2 /\ k_cf k1 = k_cf k2.
  Definition agree3 (k1 k2 : krig T) : Prop := stable k1 = stable k2 /\ k_cf k1 = k_cf k2 /\ k_sys k1 = k_sys k2.
  Lemma stable_parts k1 k2 : stable k1 = stable k2 ->
    k_dim k1 = k_dim k2 /\ k_n k1 = k_n k2 /\ k_nhyp k1 = k_nhyp k2 /\ k_data k1 = k_data k2 /\ k_cfinit k1 = k_cfinit k2 /\ k_lin k1 = k_lin k2 /\ k_uselin k1 = k_uselin k2 /\
    k_avg k1 = k_avg k2 /\ k_read k1 = k_read k2 /\ k_norm k1 = k_norm k2 /\ k_init k1 = k_init k2 /\ stable_cf (k_cf k1) = stable_cf (k_cf k2).
  Proof. intros S. split; [exact (f_equal k_dim S)|]. split; [exact (f_equal k_n S)|]. split; [exact (f_equal k_nhyp S)|]. split; [exact (f_equal k_data S)|]. split; [exact (f_equal k_cfinit S)|]. split; [exact (f_equal k_lin S)|]. split; [exact (f_equal k_uselin S)|]. split; [exact (f_equal k_avg S)|]. split; [exact (f_equal k_read S)|]. split; [exact (f_equal k_norm S)|]. split; [exact (f_equal k_init S)|]. exact (f_equal k_cf S). Qed.
  Lemma cf_parts (c1 c2 : ecf T) : stable_cf c1 = stable_cf c2 -> cb_X (ec_b c1) = cb_X (ec_b c2) /\ cb_N (ec_b c1) = cb_N (ec_b c2) /\ cb_dim (ec_b c1) = cb_dim (ec_b c2) /\
    cb_eps (ec_b c1) = cb_eps (ec_b c2) /\ cb_set (ec_b c1) = cb_set (ec_b c2).
  Proof. destruct c1 as [[] ? ?], c2 as [[] ? ?]. unfold stable_cf. cbn. intros S. inversion S. auto 10. Qed.

  Lemma rel_setHyper h : rel (fun k1 k2 => stable k1 = stable k2) (in_kcf (fun c => ecf_setHyper c h)) agree1.
  Proof.
    intros k1 k2 S. pose proof (stable_parts _ _ S) as (_ & _ & _ & _ & _ & _ & _ & _ & _ & _ & _ & C).
    assert (stable (fst (in_kcf (fun c => ecf_setHyper c h) k1)) = stable (fst (in_kcf (fun c => ecf_setHyper c h) k2))) as SS.
    { rewrite !(keeps_cf (fun c => ecf_setHyper c h)) by (apply stable_setHyper). auto. }
    unfold in_kcf, szoom in *. destruct (k_cf k1) as [b1 th1 ga1] eqn:E1, (k_cf k2) as [b2 th2 ga2] eqn:E2. pose proof (cf_parts _ _ C) as (CX & CN & CD & CE & CS). cbn [ec_b] in *.
    unfold ecf_setHyper in *. cbn [ec_b] in *. rewrite CD in *. destruct (negb (length h =? 2 * cb_dim b2)); [split; [reflexivity|discriminate]|].
    destruct (vec_head h (cb_dim b2)); [|destruct (vec_tail h (cb_dim b2)); split; try reflexivity; discriminate..].
    destruct (vec_tail h (cb_dim b2)); [|split; try reflexivity; discriminate..].
    unfold ecf_setTheta, ecf_setGamma in *. cbn [ec_b ec_theta ec_gamma] in *. rewrite CD in *.
    repeat (match goal with |- context[if ?b then _ else _] => destruct b eqn:? end; cbn [fst snd ec_b ec_theta ec_gamma] in *; rewrite ?CD in *; try (split; [reflexivity|discriminate])).
    all: split; [reflexivity|]; intros _ _; split; [exact SS|]; unfold kset_cf; cbn; auto.
  Qed.
  Lemma rel_compute : rel agree1 (in_kcf ecf_computeMatrix) agree2.
  Proof.
    intros k1 k2 (S & E1 & E2). pose proof (stable_parts _ _ S) as (_ & _ & _ & _ & _ & _ & _ & _ & _ & _ & _ & C). destruct (cf_parts _ _ C) as (CX & CN & CD & CE & CS).
    assert (stable (fst (in_kcf ecf_computeMatrix k1)) = stable (fst (in_kcf ecf_computeMatrix k2))) as SS.
    { rewrite !(keeps_cf ecf_computeMatrix) by (apply stable_compute). auto. }
    unfold in_kcf, szoom in *. unfold ecf_computeMatrix in *. rewrite CX, CN, CD, CE, CS, E1, E2 in *.
    repeat (match goal with |- context[if ?b then _ else _] => destruct b eqn:? end; cbn [fst snd] in *; try (split; [reflexivity|discriminate])).
    all: split; [reflexivity|]; intros _ _; split; [exact SS|]; reflexivity.
  Qed.
  Lemma rel_update : rel agree1 krig_update eq.
  Proof.
    unfold krig_update. apply rel_get. { intros k1 k2 (S & _). destruct (stable_parts _ _ S) as (-> & -> & _ & _ & -> & _ & _ & _ & -> & -> & _). reflexivity. }
    intros k. do 5 (apply (rel_bind _ agree1); [apply rel_throw_if|intros _]).
    apply (rel_bind _ agree2). apply rel_compute. intros _.
    apply (rel_bind _ agree3). { apply rel_mod. intros k1 k2 (S & C). split; [exact S|]. split; [exact C|]. cbn [k_sys kset_sys]. rewrite C. reflexivity. }
    intros _. apply (rel_bind _ agree3).
    { intros k1 k2 (S & C & E). assert (stable (fst (in_ksys chol_factorize k1)) = stable (fst (in_ksys chol_factorize k2))) as SS by (rewrite !(keeps_sys chol_factorize); auto).
      unfold in_ksys, szoom in *. rewrite E in *. destruct (chol_factorize (k_sys k2)) as [c r]. cbn [fst snd] in *. split; auto. intros _ _. split; auto. }
    intros _. apply (rel_bind _ eq).
    { apply rel_mod. intros k1 k2 (S & C & E). destruct (stable_parts _ _ S) as (? & ? & ? & ? & ? & ? & ? & ? & ? & ? & ? & _). destruct k1, k2; unfold kset_sol; cbn in *. subst. auto. }
    intros _. apply rel_eq.
  Qed.
  Lemma rel_evaluate val h : rel (fun k1 k2 => stable k1 = stable k2) (train_evaluate val h) (fun _ _ => True).
  Proof.
    unfold train_evaluate. destruct val.
    - unfold krig_validationErrorFor. apply rel_get. { intros k1 k2 S. destruct (stable_parts _ _ S) as (_ & -> & _ & -> & _ & _ & _ & _ & -> & -> & _). reflexivity. }
      intros k. do 4 (eapply rel_bind; [apply rel_throw_if|intros _]). eapply rel_bind. apply rel_setHyper. intros _. eapply rel_bind. apply rel_update. intros _.
      intros k1 k2 <-. split; auto.
    - apply (rel_bind _ (fun _ _ => True)). 2:{ intros a k1 k2 _. split; auto. }
      unfold krig_likelihood. apply rel_get. { intros k1 k2 S. destruct (stable_parts _ _ S) as (_ & -> & _ & _ & _ & _ & _ & _ & -> & -> & _). reflexivity. }
      intros k. do 3 (eapply rel_bind; [apply rel_throw_if|intros _]). eapply rel_bind. apply rel_setHyper. intros _. eapply rel_bind. apply rel_update. intros _.
      intros k1 k2 <-. split; auto.
  Qed.
  (** the value of a candidate does not depend on the candidates evaluated before *)
  Lemma evaluations_keep val hs k : stable (fold_left (fun k h => fst (train_evaluate val h k)) hs k) = stable k.
  Proof. revert k. induction hs; intros; cbn [fold_left]; auto. rewrite IHhs. apply keeps_evaluate. Qed.
  Lemma evaluate_pure val hs h k : snd (train_evaluate val h (fold_left (fun k h => fst (train_evaluate val h k)) hs k)) = train_objective val k h.
  Proof. apply (rel_evaluate val h). apply evaluations_keep. Qed.
End Evaluate.
