(** The test data of a data object play no part in reading, scaling and fitting the training data. *)
From Coq Require Import Ascii String ZArith Bool Arith List Lia.
From Verif Require Import Base StM Num VecModel MatModel LinSolverModel StrModel BoundsModel CorrModel DataModel KrigModel EaModel TrainModel.
Import ListNotations.

Section Frame.
  Context {T : Type} {NT : Num T} {NF : NumFun T}.
  (** the test data *)
  Record tdata := mkTv { o_nt : nat; o_xr : mat T; o_x : mat T; o_y : vec T; o_tf : bool; o_tr : bool }.
  Definition test_of (s : sdata T) : tdata := mkTv (d_nt s) (d_Xrawtest s) (d_Xtest s) (d_ytest s) (f_testf s) (f_testread s).
  Definition dt (t : tdata) (s : sdata T) : sdata T := set_test (o_xr t) (o_x t) (o_y t) (o_tf t) (o_tr t) (set_nt (o_nt t) s).
  Definition kt (t : tdata) (k : krig T) : krig T := kset_data (dt t (k_data k)) k.
  Lemma dt_self s : dt (test_of s) s = s.
  Proof. destruct s. reflexivity. Qed.
  Lemma dt_dt t t' s : dt t (dt t' s) = dt t s.
  Proof. destruct s. reflexivity. Qed.
  Lemma kt_self k : kt (test_of (k_data k)) k = k.
  Proof. unfold kt. rewrite dt_self. destruct k. reflexivity. Qed.
  Lemma kt_kt t t' k : kt t (kt t' k) = kt t k.
  Proof. destruct k as [? ? ? []]. reflexivity. Qed.
  Lemma test_of_dt t s : test_of (dt t s) = t.
  Proof. destruct t, s. reflexivity. Qed.

  (** a computation on a state with an overlay [f] that does not look at it *)
  Definition blind {S V A} (f : V -> S -> S) (m : SM S A) : Prop := forall t s, m (f t s) = (f t (fst (m s)), snd (m s)).
  Section Blind.
    Context {S V : Type} (f : V -> S -> S).
    Lemma b_ret {A} (a : A) : blind f (sret a).
    Proof. intros t s. reflexivity. Qed.
    Lemma b_throw {A} e : blind f (@sthrow S A e).
    Proof. intros t s. reflexivity. Qed.
    Lemma b_throw_if b e : blind f (sthrow_if b e).
    Proof. destruct b; intros t s; reflexivity. Qed.
    Lemma b_assert b : blind f (sassert b).
    Proof. destruct b; intros t s; reflexivity. Qed.
    Lemma b_lift {A} (r : Res A) : blind f (slift r).
    Proof. intros t s. reflexivity. Qed.
    Lemma b_bind {A B} (m : SM S A) (k : A -> SM S B) : blind f m -> (forall a, blind f (k a)) -> blind f (sbind m k).
    Proof. intros H1 H2 t s. unfold sbind. rewrite H1. destruct (m s) as [s1 [a|e|]]; cbn; [apply H2|reflexivity|reflexivity]. Qed.
    Lemma b_get {A B} (g : S -> A) (k : A -> SM S B) : (forall a, blind f (k a)) -> (forall t s, k (g (f t s)) = k (g s)) -> blind f (sbind (sget g) k).
    Proof. intros H1 H2 t s. unfold sbind, sget. rewrite H2. apply H1. Qed.
    Lemma b_mod g : (forall t s, g (f t s) = f t (g s)) -> blind f (smod g).
    Proof. intros H t s. unfold smod. rewrite H. reflexivity. Qed.
    Lemma b_when b m : blind f m -> blind f (swhen b m).
    Proof. intros H. destruct b; [exact H|apply b_ret]. Qed.
    Lemma b_rethrow {A} e (m : SM S A) : blind f m -> blind f (srethrow e m).
    Proof. intros H t s. unfold srethrow. rewrite H. destruct (m s) as [s1 [a|[]|]]; reflexivity. Qed.
    Lemma b_loop n (g : nat -> SM S unit) : (forall i, blind f (g i)) -> blind f (sloop n g).
    Proof. intros H. induction n; cbn [sloop]; [apply b_ret|]. apply b_bind; auto. Qed.
    Lemma b_for {A} (l : list A) (g : A -> SM S unit) : (forall i, blind f (g i)) -> blind f (sfor l g).
    Proof. intros H. induction l; cbn [sfor]; [apply b_ret|]. apply b_bind; auto. Qed.
  End Blind.
  Lemma in_kdata_blind {A} (m : SM (sdata T) A) : blind dt m -> blind kt (in_kdata m).
  Proof. intros H t k. unfold in_kdata, szoom. change (k_data (kt t k)) with (dt t (k_data k)). rewrite H. destruct (m (k_data k)) as [s r]. reflexivity. Qed.
  Lemma in_klin_blind {A} (m : SM (lmodel T) A) : blind kt (in_klin m).
  Proof. intros t k. unfold in_klin, szoom. change (k_lin (kt t k)) with (k_lin k). destruct (m (k_lin k)). reflexivity. Qed.
  Lemma in_kcf_blind {A} (m : SM (ecf T) A) : blind kt (in_kcf m).
  Proof. intros t k. unfold in_kcf, szoom. change (k_cf (kt t k)) with (k_cf k). destruct (m (k_cf k)). reflexivity. Qed.
  Lemma in_ksys_blind {A} m : blind kt (@in_ksys T A m).
  Proof. intros t k. unfold in_ksys, szoom. change (k_sys (kt t k)) with (k_sys k). destruct (m (k_sys k)). reflexivity. Qed.
  Ltac blind_step := match goal with
    | |- blind _ (sbind (sget _) _) => apply b_get; [intro|reflexivity]
    | |- blind _ (sbind _ _) => apply b_bind; [|intro]
    | |- blind _ (sthrow_if _ _) => apply b_throw_if
    | |- blind _ (sassert _) => apply b_assert
    | |- blind _ (slift _) => apply b_lift
    | |- blind _ (swhen _ _) => apply b_when
    | |- blind _ (sret _) => apply b_ret
    | |- blind _ (sloop _ _) => apply b_loop; intro
    | |- blind _ (sfor _ _) => apply b_for; intro
    | |- blind _ (srethrow _ _) => apply b_rethrow
    | |- blind _ (smod _) => apply b_mod; reflexivity
    | |- blind _ (in_klin _) => apply in_klin_blind
    | |- blind _ (in_kcf _) => apply in_kcf_blind
    | |- blind _ (in_ksys _) => apply in_ksys_blind
    | |- blind _ (in_kdata _) => apply in_kdata_blind
    end.
  Ltac blind := repeat blind_step; auto.
  Lemma data_assignX_blind : blind dt data_assignX.
  Proof. unfold data_assignX, data_check. blind. Qed.
  Lemma data_read_blind file perm : blind dt (data_read file perm).
  Proof.
    unfold data_read, data_assignDimension, data_assignAll, data_assignY, data_assignGrad, data_assignDD, data_assignDirs, data_check. blind; try apply data_assignX_blind.
    - intros t s. unfold data_addVal. change (d_val (dt t s)) with (d_val s). destruct (mat_addRow (d_val s) _ _). reflexivity.
    - intros t s. unfold data_deleteWork. change (d_work (dt t s)) with (d_work s). destruct (mat_deleteRows (d_work s) _). reflexivity.
  Qed.
  Lemma data_normalize_blind z : blind dt (data_normalize z).
  Proof. unfold data_normalize, data_normX, data_normDD, data_normGrad. blind. Qed.
  Lemma data_revert_blind z : blind dt (data_revert z).
  Proof. unfold data_revert, data_assignAll, data_assignY, data_assignGrad, data_assignDD, data_assignDirs, data_check. blind; try apply data_assignX_blind. apply data_normalize_blind. Qed.
  Lemma krig_readData_blind file perm : blind kt (krig_readData file perm).
  Proof. unfold krig_readData. blind. apply data_read_blind. Qed.
  Lemma krig_normalize_blind : blind kt krig_normalizeData.
  Proof. unfold krig_normalizeData. blind. apply data_normalize_blind. Qed.
  Lemma krig_setBox_blind b : blind kt (krig_setBox b).
  Proof. unfold krig_setBox. blind.  unfold data_setBox. blind. Qed.
  Lemma krig_setDimension_blind d : blind kt (krig_setDimension d).
  Proof. unfold krig_setDimension. blind.  unfold data_setDimension. blind. Qed.
  Lemma krig_update_blind : blind kt krig_update.
  Proof. unfold krig_update, krig_reset, krig_resize. blind. Qed.
  Lemma setOutput_blind v : blind dt (data_setOutput v).
  Proof. unfold data_setOutput. blind. Qed.
  Lemma krig_initialize_blind : blind kt krig_initialize.
  Proof. unfold krig_initialize. blind. apply setOutput_blind. apply krig_update_blind. Qed.
  Lemma train_revert_blind : blind kt train_revert.
  Proof. unfold train_revert, krig_resize. blind. apply data_revert_blind. apply setOutput_blind. Qed.
  Lemma blind_keeps {A} (m : SM (krig T) A) k : blind kt m -> test_of (k_data (fst (m k))) = test_of (k_data k).
  Proof. intros H. pose proof (H (test_of (k_data k)) k) as E. rewrite kt_self in E. rewrite E at 1. cbn [fst]. change (k_data (kt ?t ?x)) with (dt t (k_data x)). apply test_of_dt. Qed.
End Frame.
Arguments tdata : clear implicits.
