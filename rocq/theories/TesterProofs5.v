(** One test of a Kriging model by a new tester, from the calls of the program to the files. *)
From Coq Require Import Ascii String ZArith Bool Arith Permutation Reals Lra List Lia.
From Verif Require Import Base StM Num RealNum RSpec VecModel MatModel MatLemmas MatSpec VecProofs VecReal MatProofs MatProofs2 LuProofs StrModel StrSpec StrReal ExtModel ExtProofs BoundsModel CorrModel CorrSpec DataModel DataSpec DataProofs DataReal
  KrigModel KrigSpec KrigMath KrigProofs KrigProofs2 KrigProofs3 KrigProg KrigProofs4 KrigProofs5 PropsData PropsStat EaModel TrainModel TrainReal CsvModel CsvSpec CsvProofs PropsCsv RunFileModel RunFileSpec RunFileText TesterModel TesterSpec TesterFrame TesterProofs TesterProofs2 TesterProofs3 TesterProofs4.
Import ListNotations.
Local Open Scope R_scope.

(** the settings made by the test on a new model *)
Definition ratio_value (r : option R) : R := match r with Some v => v | None => 0 end.
Lemma config_any (k0 : krig R) (lin : bool) d b eps v : k_uselin k0 = lin -> k_avg k0 = false -> cb_eps (ec_b (k_cf k0)) = eps -> k_cfinit k0 = false -> k_lin k0 = lmodel_new -> k_data k0 = set_ratio v sdata_new -> box_ok ztol d b -> (0 < d)%nat ->
  exists k', (run krig_setDimension d; krig_setBox b) k0 = (k', Ok tt) /\ kconf k' d b lin eps /\ k_data k' = set_ratio v (set_box b (set_dim d sdata_new)).
Proof.
  intros A1 P2 P3 P4 P5 P6 (Bs & Bd & _) Hd.
  set (k2 := kset_data (set_dim d (k_data k0)) (kset_lin (mkL d (l_n (k_lin k0)) (l_data (k_lin k0)) (l_w (k_lin k0)) (l_reg (k_lin k0)) (l_read (k_lin k0)) (l_norm (k_lin k0)) (l_init (k_lin k0))) (kset_dim d k0))).
  rewrite (sbind_ok _ _ _ k2 tt) by reflexivity.
  unfold krig_setBox. rewrite (sbind_ok _ _ _ k2 k2) by reflexivity. rewrite Bs, Bd. change (k_dim k2) with d. rewrite Nat.eqb_refl. destruct (Nat.eqb_spec d 0) as [|_]; [lia|]. cbn [negb sthrow_if]. do 3 rewrite (sbind_ok _ _ _ k2 tt) by reflexivity.
  change (k_uselin k2) with (k_uselin k0). rewrite A1.
  set (k3 := if lin then kset_lin (lset_data (set_box b (l_data (k_lin k2))) (k_lin k2)) k2 else k2).
  rewrite (sbind_ok _ _ _ k3 tt). 2:{ unfold k3. destruct lin; [|reflexivity]. cbn [swhen]. unfold in_klin, lin_setBox, in_ldata, data_setBox, szoom, sassert, sbind. rewrite Bs. reflexivity. }
  assert (k_data k3 = set_dim d (k_data k0) /\ k_dim k3 = d /\ k_uselin k3 = lin /\ k_avg k3 = false /\ k_cf k3 = k_cf k0 /\ k_cfinit k3 = k_cfinit k0 /\ (lin = true -> l_dim (k_lin k3) = d /\ l_data (k_lin k3) = set_box b (l_data (k_lin k0)))) as (C1 & C2 & C3 & C4 & C5 & C6 & C7).
  { unfold k3. destruct lin; repeat split; auto; discriminate. }
  clearbody k3. clear k2.
  exists (kset_data (set_box b (k_data k3)) k3). split. { unfold in_kdata, data_setBox, szoom, sassert, sbind. rewrite Bs. reflexivity. }
  split. { constructor; auto. change (k_cf (kset_data (set_box b (k_data k3)) k3)) with (k_cf k3). congruence.
    change (k_cfinit (kset_data (set_box b (k_data k3)) k3)) with (k_cfinit k3). congruence.
    intros L. change (k_lin (kset_data (set_box b (k_data k3)) k3)) with (k_lin k3). destruct (C7 L) as (E1 & E2). split; auto. rewrite E2, P5. constructor; auto. cbn. destruct (Rltb_spec 0 0); auto; lra. }
  change (k_data (kset_data (set_box b (k_data k3)) k3)) with (set_box b (k_data k3)). rewrite C1, P6. reflexivity.
Qed.
Lemma new_config (lin : bool) d b ratio : (0 < d)%nat -> box_ok ztol d b ->
  exists k1, (run krig_setDimension d; krig_setBox b) (kset_ratio ratio (if lin then kset_uselin true krig_new else krig_new)) = (k1, Ok tt) /\ kconf k1 d b lin (1 / 10 ^ 12) /\
    k_data k1 = set_ratio (ratio_value ratio) (set_box b (set_dim d sdata_new)).
Proof.
  intros Hd B. assert (@nlit R RNum 1 (-12) = 1 / 10 ^ 12) as EE by (simpl; unfold Rlit; simpl; lra).
  apply config_any; auto; destruct lin, ratio; try reflexivity; exact EE.
Qed.
(** the training data read, with and without a validation set *)
Lemma new_read (s : sdata R) k d b ratio file perm : s = set_ratio (ratio_value ratio) (set_box b (set_dim k sdata_new)) -> k = 0%nat \/ k = d -> (0 < d)%nat -> table file -> (0 < nrows file)%nat -> ncols file = S d ->
  (forall v, ratio = Some v -> 0 < v < 1) -> (ratio <> None -> Permutation perm (seq 0 (nrows file))) ->
  exists s1 tr, data_read file perm s = (s1, Ok tt) /\ dloaded s1 d b tr file /\ training_rows ratio perm (rows file) tr.
Proof.
  intros -> Hkd Hd Ht Hn Hc Hr Hp. destruct ratio as [v|]; cbn [ratio_value].
  - specialize (Hr v eq_refl). specialize (Hp ltac:(discriminate)).
    destruct (val_count_R (nrows file) v) as (q & Ek & Hk & Hb). lra.
    assert (q < nrows file)%nat as Hqn. { apply INR_lt. pose proof (lt_0_INR _ Hn). nra. }
    assert (length (firstn q perm) = q) as Hl. { rewrite firstn_length, (Permutation_length Hp), seq_length. lia. }
    assert (NoDup (firstn q perm)) as Hnd. { apply NoDup_firstn. apply (Permutation_NoDup (Permutation_sym Hp)), seq_NoDup. }
    assert (forall i, In i (firstn q perm) -> (i < length (rows file))%nat) as Hin.
    { intros i Hi. rewrite rows_length. assert (In i perm) as Hi' by (rewrite <- (firstn_skipn q perm); apply in_or_app; auto).
      apply (Permutation_in _ Hp) in Hi'. apply in_seq in Hi'. lia. }
    destruct (data_read_split (set_ratio v (set_box b (set_dim k sdata_new))) file perm q d) as (s1 & E & A1 & A2 & A3 & A4 & A5 & A6 & A7 & A8 & A9 & A10 & A11 & A12 & A13 & A14 & A15 & A16); auto.
    { cbn. lia. } { cbn. apply Rltb_true; lra. } { split. reflexivity. simpl; lia. }
    exists s1, (unpicked (firstn q perm) (rows file)). split; auto. split; [|exists q; rewrite rows_length; auto].
    constructor; auto. rewrite unpicked_length; auto. rewrite Hl, rows_length. lia. intros Hv. rewrite A8 in Hv. apply A13; auto.
  - destruct (read_plain_loaded (set_ratio 0 (set_box b (set_dim k sdata_new))) d b file perm) as (s1 & E & DL & _); auto. { constructor; auto. cbn. destruct (Rltb_spec 0 0); auto; lra. }
    exists s1, (rows file). split; auto. split; auto. reflexivity.
Qed.

Section Test.
  Context (writable : str -> bool) (fixed : nat -> R -> str) (F : forall p x, fixed_text_of p x (fixed p x)) (W : writable results_file = true).
  (** the test of a Kriging model, after the set-up *)
  Lemma perform_kriging h ty multi st perm us ws fs : b_set (h_box h) = true -> h_name h <> [] -> (0 < h_dim h)%nat -> data_file_name (h_train h) -> data_file_name (h_test h) ->
    tester_perform writable fixed perm us ws (mkTt h ty true PKriging multi st, fs) =
    (let (w, r) := test_krig writable fixed h perm us ws (st, fs) in ((mkTt h ty true PKriging multi (fst w), snd w), r)).
  Proof.
    intros Hb Hn Hd F1 F2. apply filename_iff in F1. apply filename_iff in F2. unfold tester_perform. unfold sbind at 1, sget at 1. cbn [fst snd q_conf q_bound q_ptr].
    rewrite Hb. cbn [negb]. unfold sthrow_if. unfold sbind at 1, sret at 1. unfold sassert. unfold sbind at 1, sret at 1.
    assert (is_empty (h_name h) = false) as -> by (destruct (h_name h); [congruence|reflexivity]). cbn [negb]. unfold sbind at 1, sret at 1.
    destruct (Nat.ltb_spec 0 (h_dim h)); [|lia]. unfold sbind at 1, sret at 1. unfold slift. rewrite F1, F2. unfold sbind at 1 2. unfold szoom. cbn [fst snd q_state q_conf q_type q_bound q_ptr q_multi].
    destruct (test_krig _ _ _ _ _ _ _) as [w r]. reflexivity.
  Qed.
  Lemma kriging_test_run (lin : bool) d b ratio file tfile h perm us ws fs : let st := mkTS lmodel_new tested_new (mkTr (kset_ratio ratio (if lin then kset_uselin true krig_new else krig_new)) (100 * 100) 1 false (has_ratio ratio) None) tested_new in
    h_dim h = d -> h_box h = b -> h_warm h = false -> (0 < d)%nat -> (lin = true -> (d < 100)%nat) -> box_ok ztol d b -> (forall v, ratio = Some v -> 0 < v < 1) -> (ratio <> None -> Permutation perm (seq 0 (nrows file))) -> (forall j k i, 0 <= us j k i < 1) ->
    mat_readFromCSV (h_train h) false fs = (fs, Ok file) -> table file -> (0 < nrows file)%nat -> ncols file = S d ->
    mat_readFromCSV (h_test h) false fs = (fs, Ok tfile) -> table tfile -> (0 < nrows tfile)%nat -> ncols tfile = S d \/ ncols tfile = d ->
    let tf := Nat.eqb (ncols tfile) (S d) in
    exists st' fs' r, test_krig writable fixed h perm us ws (st, fs) = ((st', fs'), r) /\
      ((exists p tx, trained_kriging d b lin (rows file) p /\ r = Ok (Some (mean_squared_error d b (fun x => fst (p x)) (rows file))) /\
         (tf = true -> g_error (v_krigtest st') = mean_squared_error d b (fun x => fst (p x)) (rows tfile)) /\ g_header (v_krigtest st') <> [] /\
         fs' results_file = Some tx /\ result_text d tf (h_var h) b p (rows tfile) tx /\ (forall f, f <> results_file -> fs' f = fs f)) \/
       ((forall e, r <> Ok (Some e)) /\ fs' = fs)).
  Proof.
    intros st Hd Hb Hw D0 Dl B Hr Hp Hu C1 Ht Hn Hc C2 Tt Tn Tc tf. destruct (new_config lin d b ratio D0 B) as (k1 & E1 & KC & KD).
    destruct (new_read _ d d b ratio file perm KD (or_intror eq_refl) D0 Ht Hn Hc Hr Hp) as (s1 & tr & ER & DL & Tr).
    destruct (load_with_test k1 d b lin _ file perm s1 tr tfile KC B D0 Dl Ht Hn Hc ER DL Tt Tn Tc) as (kz & c & th & ga & ys & LT).
    assert (has_values d tfile (f_testf (k_data k1)) = tf) as HV. { unfold has_values. rewrite KD. cbn. apply orb_false_r. } rewrite HV in LT.
    set (t := mkTr (kset_ratio ratio (if lin then kset_uselin true krig_new else krig_new)) (100 * 100) 1 false (has_ratio ratio) None) in *.
    assert (test_krig writable fixed h perm us ws (st, fs) = sbind (on_krig (krig_train us ws [0%nat])) (krig_finish writable fixed (h_var h)) (mkTS lmodel_new tested_new (tset_iters (h_iters h) (tset_k kz t)) (marked tested_new), fs)) as ET.
    { unfold st. eapply test_krig_train with (k1 := k1); eauto; rewrite ?Hd, ?Hb; eauto. }
    rewrite ET. set (t1 := tset_iters (h_iters h) (tset_k kz t)). unfold sbind, on_krig, szoom. cbn [fst snd v_krig v_lin v_lintest v_krigtest].
    destruct (krig_train us ws [0%nat] t1) as [t2 r2] eqn:E2. destruct r2 as [[[]|]|e|].
    - destruct LT as [_ Fit TR FA _ _ _]. destruct (train_fitted t1 t2 us ws [0%nat] d b lin _ tr file c th ga ys Hu eq_refl Fit eq_refl) as (best & v & th' & ga' & ys' & _ & RG & _ & _ & Fit' & _); auto.
      assert (test_of (k_data (t_k t2)) = test_of (k_data kz)) as Tk by (apply (train_keeps us ws [0%nat] t1 t2); auto).
      assert (fitted (t_k t2) d b lin (1 / 10 ^ 12) (rows file) file c th' ga' ys') as Fit2. { change (t_hasval t1) with (has_ratio ratio) in Fit'. destruct ratio; cbn [has_ratio] in Fit'; auto. cbn in Tr. rewrite Tr in Fit'. exact Fit'. }
      destruct (krig_finish_ok writable fixed F W lmodel_new tested_new t2 (marked tested_new) fs d b lin file c th' ga' ys' tfile tf (h_var h) Fit2 RG D0 Ht Hn Hc) as (p & g' & fs' & tx & P1 & P2 & P3 & P4 & P5 & P6 & P7); auto.
      { rewrite Tk. auto. } { unfold tf. destruct (Nat.eqb_spec (ncols tfile) (S d)); auto. right. destruct Tc; [lia|auto]. }
      rewrite P2. eexists _, fs', _. split; [reflexivity|]. left. exists p, tx. auto 10.
    - cbn. eexists _, fs, _. split; [reflexivity|]. right. split; auto. intros e; discriminate.
    - eexists _, fs, _. split; [reflexivity|]. right. split; auto. intros e'; discriminate.
    - eexists _, fs, _. split; [reflexivity|]. right. split; auto. intros e'; discriminate.
  Qed.
End Test.
