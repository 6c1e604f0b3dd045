(** Properties C33 and C34: training / validation split and column layout of the training data.
    [inputs], [outputs], [gradients], [derivatives], [directions], [picked], [unpicked], [shows_training], [shows_validation] are in DataSpec. *)
From Coq Require Import Reals Lra List Arith Lia ZArith Bool Permutation.
From Verif Require Import Base StM Num RealNum NumFloat RSpec VecModel MatModel MatLemmas MatSpec VecProofs MatProofs MatProofs2 BoundsModel DataModel DataSpec DataProofs DataReal CorrDeriv.
Import ListNotations.
Local Open Scope R_scope.

Lemma val_count_R N (ratio : R) : 0 <= ratio <= 1 -> exists k, val_count N ratio = Some k /\ (k <= N)%nat /\ INR k <= ratio * INR N < INR k + 1.
Proof.
  intros Hr. unfold val_count. simpl. unfold nofnat. simpl. rewrite <- INR_IZR_INZ. eexists. split; [reflexivity|].
  pose proof (pos_INR N) as HN. assert (0 <= ratio * INR N <= INR N) as Hb by (split; nra).
  pose proof (Rfloor_spec (ratio * INR N)) as Hz. set (z := Rfloor (ratio * INR N)) in *.
  assert (0 <= z <= Z.of_nat N)%Z as Hzb. { split. cut (-1 < z)%Z; [lia|]. apply lt_IZR. lra. apply le_IZR. rewrite <- INR_IZR_INZ. lra. }
  destruct (Z.gtb_spec z (Z.of_nat N)); [lia|]. destruct (Z.ltb_spec z 0); [lia|].
  split. lia. rewrite (INR_IZR_INZ (Z.to_nat z)), Z2Nat.id by lia. exact Hz.
Qed.

(** a data object on which data may be read for dimension d: not both kinds of derivatives, dimension unset or equal to d *)
Definition can_read (s : sdata R) (d : nat) (file : mat R) : Prop :=
  table file /\ (0 < nrows file)%nat /\ (0 < d)%nat /\ columns_ok (f_grad s) (f_dd s) d (ncols file) /\ (f_grad s && f_dd s = false)%bool /\ (d_dim s = 0%nat \/ d_dim s = d).

(** ** C33 *)
(** first read: with 0 < ratio < 1, floor(ratio*N) rows are held out, the others are the training set, nothing is lost or duplicated *)
Theorem C33_split_is_partition : forall (s : sdata R) d file perm, can_read s d file -> d_val s = mat_empty -> 0 < d_ratio s < 1 ->
  Permutation perm (seq 0 (nrows file)) ->
  exists s' k tr va, data_read file perm s = (s', Ok tt) /\ INR k <= d_ratio s * INR (nrows file) < INR k + 1 /\
    length va = k /\ length tr = (nrows file - k)%nat /\ Permutation (tr ++ va) (rows file) /\
    va = picked (firstn k perm) (rows file) /\ tr = unpicked (firstn k perm) (rows file) /\
    shows_training s' d tr /\ shows_validation s' d va /\ d_raw s' = file.
Proof.
  intros s d file perm (Ht & Hn & Hd & Hc & Hgd & Hdim) Hv Hr Hp.
  destruct (val_count_R (nrows file) (d_ratio s)) as (k & Ek & Hk & Hb). lra.
  assert (k < nrows file)%nat as Hkn. { apply INR_lt. pose proof (lt_0_INR _ Hn). nra. }
  assert (NoDup (firstn k perm)) as Hnd. { apply NoDup_firstn. apply (Permutation_NoDup (Permutation_sym Hp)), seq_NoDup. }
  assert (length (firstn k perm) = k) as Hl. { rewrite firstn_length, (Permutation_length Hp), seq_length. lia. }
  assert (forall i, In i (firstn k perm) -> (i < length (rows file))%nat) as Hin.
  { intros i Hi. rewrite rows_length. assert (In i perm) as Hi' by (rewrite <- (firstn_skipn k perm); apply in_or_app; auto).
    apply (Permutation_in _ Hp) in Hi'. apply in_seq in Hi'. lia. }
  assert ((d_ratio s >! n0) = true) as Hr0 by (simpl; apply Rltb_true; lra).
  assert (table (d_val s)) as Htv. { rewrite Hv. split. reflexivity. simpl; lia. }
  destruct (data_read_split s file perm k d Ht Hd Hc Hgd Hdim Hr0 Ek Hkn Hp Htv) as (s' & E & A1 & A2 & A3 & A4 & A5 & A6 & A7 & A8 & A9 & A10 & A11 & A12 & A13 & A14). { left. rewrite Hv. reflexivity. }
  assert (rows (d_val s) = []) as E0 by (rewrite Hv; reflexivity). rewrite E0, app_nil_l in A10.
  exists s', k, (unpicked (firstn k perm) (rows file)), (picked (firstn k perm) (rows file)).
  split; auto. split; auto. split. { unfold picked. rewrite map_length. auto. }
  split. { rewrite unpicked_length by auto. rewrite rows_length. lia. }
  split. { apply split_perm; auto. }
  split; auto. split; auto. split; auto. split; auto.
  unfold shows_validation. split. { unfold picked. rewrite map_length. congruence. }
  intros Hne. assert (0 < k)%nat as Hk0. { destruct k; [|lia]. exfalso. apply Hne. reflexivity. }
  destruct (A13 Hk0) as (B1 & B2 & B3 & _). rewrite A10 in *. rewrite B1, B2. 
  assert (firstn k (inputs d (picked (firstn k perm) (rows file))) = inputs d (picked (firstn k perm) (rows file))) as ->; auto.
  apply firstn_all2. unfold inputs, picked. rewrite !map_length. lia.
Qed.
Print Assumptions C33_split_is_partition.
(** ratio 0 (the default): every row is a training row *)
Theorem C33_no_validation : forall (s : sdata R) d file perm, can_read s d file -> d_ratio s = 0 -> d_nv s = 0%nat ->
  exists s', data_read file perm s = (s', Ok tt) /\ shows_training s' d (rows file) /\ d_nv s' = 0%nat.
Proof.
  intros s d file perm (Ht & Hn & Hd & Hc & Hgd & Hdim) Hr Hv.
  destruct (data_read_plain s file perm d (proj1 Ht) Hn Hd Hc Hgd Hdim) as (s' & E & A1 & A2 & A3 & A4 & A5 & A6 & A7 & A8 & A9); auto.
  { rewrite Hr. simpl. apply Rltb_false. lra. }
  exists s'. auto.
Qed.
Print Assumptions C33_no_validation.
(** a second read on the same object: the validation store is not cleared.  The validation inputs are the FIRST k rows of the store, that is rows
    held out by earlier reads, while the training set excludes the newly picked rows; the validation outputs cover the whole store *)
Theorem C33_second_read_uses_old_validation_rows : forall (s : sdata R) d file perm k, can_read s d file -> 0 < d_ratio s < 1 -> val_count (nrows file) (d_ratio s) = Some k -> (0 < k)%nat ->
  Permutation perm (seq 0 (nrows file)) -> table (d_val s) -> ncols (d_val s) = ncols file -> (k <= nrows (d_val s))%nat ->
  exists s', data_read file perm s = (s', Ok tt) /\ shows_training s' d (unpicked (firstn k perm) (rows file)) /\
    rows (d_Xrawval s') = firstn k (inputs d (rows (d_val s))) /\ length (d_yval s') = (nrows (d_val s) + nrows (d_Xval s'))%nat.
Proof.
  intros s d file perm k (Ht & Hn & Hd & Hc & Hgd & Hdim) Hr Ek Hk0 Hp Htv Hcv Hkv.
  assert ((d_ratio s >! n0) = true) as Hr0 by (simpl; apply Rltb_true; lra).
  destruct (val_count_R (nrows file) (d_ratio s)) as (k' & Ek' & _ & Hb). lra. rewrite Ek in Ek'. injection Ek' as <-.
  assert (k < nrows file)%nat as Hkn. { apply INR_lt. pose proof (lt_0_INR _ Hn). nra. }
  destruct (data_read_split s file perm k d Ht Hd Hc Hgd Hdim Hr0 Ek Hkn Hp Htv) as (s' & E & A1 & A2 & A3 & A4 & A5 & A6 & A7 & A8 & A9 & A10 & A11 & A12 & A13 & A14). { auto. }
  destruct (A13 Hk0) as (B1 & B2 & B3 & B4 & B5 & B6). exists s'. split; auto. split; auto. rewrite B2, B3, A10, B5. unfold inputs, outputs. rewrite map_app. split.
  - rewrite firstn_app, map_length, rows_length. replace (k - nrows (d_val s))%nat with 0%nat by lia. rewrite firstn_O, app_nil_r. auto.
  - rewrite map_length, app_length, rows_length. unfold picked. rewrite map_length, firstn_length, (Permutation_length Hp), seq_length. lia.
Qed.
Print Assumptions C33_second_read_uses_old_validation_rows.
(** so after re-reading the same file the partition is lost: a row is in the training set and in the validation set (binary64 model) *)
Definition reread_file : mat F := mkMat 4 2 (map FofZ [1; 2; 3; 4;  10; 20; 30; 40]%Z).
Definition reread_state : sdata F :=
  let s0 := set_ratio (Flit 5 (-1)) sdata_new in
  let s1 := fst (data_read reread_file [0; 1; 2; 3]%nat s0) in fst (data_read reread_file [2; 3; 0; 1]%nat s1).
Theorem C33_partition_after_second_read_refuted :
  snd (data_read reread_file [2; 3; 0; 1]%nat (fst (data_read reread_file [0; 1; 2; 3]%nat (set_ratio (Flit 5 (-1)) sdata_new)))) = Ok tt /\
  exists r, In r (rows (d_Xraw reread_state)) /\ In r (rows (d_Xrawval reread_state)).
Proof. split. vm_compute; reflexivity. exists [FofZ 1]. split; vm_compute; auto. Qed.
Print Assumptions C33_partition_after_second_read_refuted.
(** ratio 1: every row is held out and the call throws *)
Theorem C33_ratio_one_rejected : forall (s : sdata R) d file perm, can_read s d file -> d_val s = mat_empty -> d_ratio s = 1 -> Permutation perm (seq 0 (nrows file)) ->
  exists s', data_read file perm s = (s', Throw RuntimeError).
Proof.
  intros s d file perm (Ht & Hn & Hd & Hc & Hgd & Hdim) Hv Hr Hp.
  destruct (val_count_R (nrows file) (d_ratio s)) as (k & Ek & Hk & Hb). lra.
  assert (k = nrows file) as ->. { apply Nat.le_antisymm; auto. rewrite Hr, Rmult_1_l in Hb. destruct Hb as [_ Hb]. rewrite <- S_INR in Hb. apply INR_lt in Hb. lia. }
  assert (firstn (nrows file) perm = perm) as Ef. { apply firstn_all2. rewrite (Permutation_length Hp), seq_length. lia. }
  assert (forall i, In i perm -> (i < nrows file)%nat) as Hin. { intros i Hi. apply (Permutation_in _ Hp) in Hi. apply in_seq in Hi. lia. }
  assert (0 < ncols file)%nat as Hcf by (destruct (f_grad s), (f_dd s); simpl in *; try discriminate; lia).
  unfold data_read. unfold sbind at 1, sget at 1. rewrite (andb_comm (f_dd s)), Hgd. cbn [negb]. unfold sassert. unfold sbind at 1, sret at 1.
  unfold sbind at 1, smod at 1. unfold sbind at 1, smod at 1.
  assert ((d_ratio s >! n0) = true) as -> by (simpl; apply Rltb_true; lra). unfold swhen at 1.
  set (s1 := set_work file (set_raw file s)).
  unfold val_indices. rewrite Ek, Ef.
  destruct (addVal_loop file perm Ht Hcf (set_idx (map Z.of_nat perm) (set_n (nrows file) s1))) as (v & Ev & _); auto.
  { change (table (d_val s)). rewrite Hv. split. reflexivity. simpl; lia. }
  { left. change (nrows (d_val s) = 0%nat). rewrite Hv. reflexivity. }
  pose proof (deleteRows_step file (map Z.of_nat perm) Ht) as HD. unfold spec_rowop in HD. rewrite rows_length, zforall_in in HD by auto.
  destruct HD as (w & Ew & Tw & Rw & _). rewrite drop_unpicked in Rw.
  assert (nrows w = 0%nat) as Nw. { rewrite <- rows_length, Rw, unpicked_length; rewrite ?rows_length; auto.
    rewrite (Permutation_length Hp), seq_length. lia. apply (Permutation_NoDup (Permutation_sym Hp)), seq_NoDup. }
  set (s2 := set_work w (set_nv (length (map Z.of_nat perm)) (set_val v (set_idx (map Z.of_nat perm) (set_n (nrows file) s1))))).
  match goal with |- context [sbind ?m ?f s1] => assert (m s1 = (s2, Ok tt)) as EA end.
  { unfold sbind at 1, smod at 1. unfold sbind at 1, slift at 1. unfold sbind at 1, smod at 1.
    rewrite (sbind_ok _ _ _ _ _ Ev). unfold sbind, smod. unfold data_deleteWork. change (d_work _) with file. rewrite Ew. reflexivity. }
  rewrite (sbind_ok _ _ _ _ _ EA). unfold sbind at 1, smod at 1. unfold sbind at 1.
  assert (forall z : sdata R, nrows (d_work z) = 0%nat -> data_assignDimension z = (z, Throw RuntimeError)) as HA.
  { intros z Hz. unfold data_assignDimension, sbind, sget, sthrow_if, mat_isEmpty. rewrite Hz. reflexivity. }
  rewrite HA by exact Nw. eexists. reflexivity.
Qed.
Print Assumptions C33_ratio_one_rejected.

(** ** C34 *)
(** column layout after readData (in the object without validation split): see [shows_training] *)
Theorem C34_column_layout : forall (s : sdata R) d file perm, can_read s d file -> d_ratio s = 0 -> d_nv s = 0%nat ->
  exists s', data_read file perm s = (s', Ok tt) /\ d_dim s' = d /\ d_n s' = nrows file /\ f_read s' = true /\
    (forall i, (i < nrows file)%nat -> let r := nth i (rows file) [] in
      nth i (rows (d_X s')) [] = firstn d r /\ nth i (d_y s') 0 = nth d r 0 /\
      (f_grad s = true -> nth i (rows (d_grad s')) [] = firstn d (skipn (d + 1) r)) /\
      (f_dd s = true -> nth i (d_dd s') 0 = nth (d + 1) r 0 /\ nth i (rows (d_dirs s')) [] = firstn d (skipn (d + 2) r))).
Proof.
  intros s d file perm (Ht & Hn & Hd & Hc & Hgd & Hdim) Hr Hv.
  destruct (data_read_plain s file perm d (proj1 Ht) Hn Hd Hc Hgd Hdim) as (s' & E & (S1 & S2 & S3 & S4 & S5 & S6 & S7) & A2 & A3 & A4 & A5 & A6 & A7 & A8 & A9); auto.
  { rewrite Hr. simpl. apply Rltb_false. lra. }
  exists s'. split; auto. rewrite rows_length in S2. split; auto. split; auto. split; auto.
  intros i Hi r.
  assert (forall (B : Type) (f : list R -> B) d0, nth i (map f (rows file)) d0 = f r) as Hm.
  { intros B f d0. rewrite (nth_indep _ d0 (f [])) by (rewrite map_length, rows_length; auto). apply map_nth. }
  rewrite A4, A5 in *. rewrite S3, S5. split; [apply (Hm _ (firstn d))|]. split; [apply (Hm _ (fun r => nth d r 0))|]. split.
  - intros Hg. rewrite S6 by auto. apply (Hm _ (fun r => firstn d (skipn (d + 1) r))).
  - intros Hg. destruct (S7 Hg) as [-> ->]. split; [apply (Hm _ (fun r => nth (d + 1) r 0))|apply (Hm _ (fun r => firstn d (skipn (d + 2) r)))].
Qed.
Print Assumptions C34_column_layout.
(** a file whose number of columns does not fit the configured dimension is rejected and the object is not marked as read *)
Theorem C34_wrong_columns_rejected : forall (s : sdata R) d file perm, wf file -> (0 < nrows file)%nat -> (0 < ncols file)%nat -> (0 < d)%nat -> d_dim s = d ->
  (f_grad s && f_dd s = false)%bool -> d_ratio s = 0 -> ~ columns_ok (f_grad s) (f_dd s) d (ncols file) ->
  exists s', data_read file perm s = (s', Throw RuntimeError) /\ f_read s' = f_read s.
Proof.
  intros s d file perm Hw Hn Hc0 Hd Hdim Hgd Hr Hc. unfold data_read. unfold sbind at 1, sget at 1. rewrite (andb_comm (f_dd s)), Hgd. cbn [negb]. unfold sassert. unfold sbind at 1, sret at 1.
  unfold sbind at 1, smod at 1. unfold sbind at 1, smod at 1.
  assert ((d_ratio s >! n0) = false) as -> by (simpl; apply Rltb_false; lra). unfold swhen at 1. unfold sbind at 1, sret at 1. unfold sbind at 1, smod at 1.
  set (z := set_n _ _). unfold sbind at 1.
  assert (data_assignDimension z = (z, Throw RuntimeError)) as ->.
  2: { eexists. split; reflexivity. }
  unfold data_assignDimension. unfold sbind at 1, sget at 1. unfold sthrow_if, mat_isEmpty. change (d_work z) with file. change (f_grad z) with (f_grad s). change (f_dd z) with (f_dd s). change (d_dim z) with (d_dim s). rewrite Hdim.
  destruct (Nat.eqb_spec (nrows file) 0); [lia|]. destruct (Nat.eqb_spec (ncols file) 0); [lia|]. cbn [orb]. unfold sbind at 1, sret at 1. destruct (Nat.ltb_spec 0 d); [|lia].
  set (dd := if f_grad s then _ else _).
  destruct (negb (f_grad s) && f_dd s && Nat.ltb (ncols file) 2)%bool eqn:E2. reflexivity.
  unfold sbind at 1, sret at 1. destruct (Nat.eqb_spec dd d) as [Ed|]; [|reflexivity]. exfalso. apply Hc. unfold dd in Ed. unfold columns_ok.
  destruct (f_grad s), (f_dd s); cbn [negb andb] in *; try discriminate.
  - pose proof (Nat.div_mod (ncols file - 1) 2 ltac:(lia)). pose proof (Nat.mod_upper_bound (ncols file - 1) 2 ltac:(lia)). lia.
  - apply Nat.ltb_ge in E2. pose proof (Nat.div_mod (ncols file - 2) 2 ltac:(lia)). pose proof (Nat.mod_upper_bound (ncols file - 2) 2 ltac:(lia)). lia.
  - lia.
Qed.
Print Assumptions C34_wrong_columns_rejected.
(** normalisation: inputs become box positions divided by the dimension, gradient column j is multiplied by (ub_j - lb_j)*d *)
Theorem C34_normalization : forall (s : sdata R) d file perm b, can_read s d file -> d_ratio s = 0 -> d_nv s = 0%nat -> d_box s = b -> box_ok (Rlit 1 (-9)) d b ->
  exists s1 s2, data_read file perm s = (s1, Ok tt) /\ data_normalize (Rlit 1 (-9)) s1 = (s2, Ok tt) /\ f_norm s2 = true /\
    d_y s2 = outputs d (rows file) /\ rows (d_Xraw s2) = inputs d (rows file) /\ rows (d_X s2) = map (unit_row b d) (inputs d (rows file)) /\
    (f_grad s = true -> rows (d_gradraw s2) = gradients d (rows file) /\ rows (d_grad s2) = map (stretch_row b d) (gradients d (rows file))) /\
    (f_dd s = true -> d_dd s2 = map (fun v => v * ((nth 0 (b_up b) 0 - nth 0 (b_lo b) 0) * INR d)) (derivatives d (rows file)) /\ rows (d_dirs s2) = directions d (rows file)).
Proof.
  intros s d file perm b (Ht & Hn & Hd & Hc & Hgd & Hdim) Hr Hv Eb Hb.
  destruct (data_read_plain s file perm d (proj1 Ht) Hn Hd Hc Hgd Hdim) as (s1 & E & (S1 & S2 & S3 & S4 & S5 & S6 & S7) & A2 & A3 & A4 & A5 & A6 & A7 & A8 & A9 & A10 & A11 & A12); auto.
  { rewrite Hr. simpl. apply Rltb_false. lra. }
  assert (nrows (d_X s1) = d_n s1) as Hn1. { rewrite <- (rows_length (d_X s1)), S3. unfold inputs. rewrite map_length. auto. }
  destruct (normalize_data_ok (Rlit 1 (-9)) d s1) as (s2 & E2 & N); auto.
  { rewrite A6, Eb. auto. } { lia. } { intros Hg. rewrite A4 in Hg. destruct (A12 Hg) as (G1 & G2 & G3). auto. }
  exists s1, s2. split; auto. split; auto. rewrite A6, Eb in N. destruct N. split; auto. rewrite z_y, z_Xraw, S4, S5. split; auto. split; auto.
  destruct z_X as (_ & _ & _ & ->). rewrite S3. split; auto. rewrite A4, A5 in *. split.
  - intros Hg. destruct (z_grad Hg) as (G1 & _ & _ & _ & G2). rewrite G1, G2, S6 by auto. auto.
  - intros Hg. rewrite (z_dd Hg), z_dirs. destruct (S7 Hg) as [-> ->]. auto.
Qed.
Print Assumptions C34_normalization.
(** the stretched gradient is the gradient with respect to the normalised inputs: chain rule, column by column *)
Theorem C34_gradient_chain_rule : forall (phi : R -> R) (b : bnds R) d x g j, box_ok (Rlit 1 (-9)) d b -> (j < d)%nat ->
  derivable_pt_lim phi (nth j x 0) (nth j g 0) ->
  let scale := (nth j (b_up b) 0 - nth j (b_lo b) 0) * INR d in
  derivable_pt_lim (fun t => phi (nth j (b_lo b) 0 + t * scale)) (nth j (unit_row b d x) 0) (nth j (stretch_row b d g) 0).
Proof.
  intros phi b d x g j (_ & _ & Hl & Hu & Hz & Hb) Hj Hphi scale. unfold unit_row, stretch_row. rewrite !nth_map_seq by auto. rewrite Nat.add_0_l. fold scale.
  specialize (Hb j Hj). pose proof (lt_0_INR d ltac:(lia)) as Hd.
  set (u := (nth j x 0 - nth j (b_lo b) 0) / (nth j (b_up b) 0 - nth j (b_lo b) 0) / INR d).
  assert (nth j (b_lo b) 0 + u * scale = nth j x 0) as Eu by (unfold u, scale; field; lra).
  apply (derivable_pt_lim_comp (fun t => nth j (b_lo b) 0 + t * scale) phi u scale (nth j g 0)).
  - assert (derivable_pt_lim (fun t => nth j (b_lo b) 0 + t * scale) u (0 + (1 * scale + u * 0))) as H.
    { apply (derivable_pt_lim_plus (fun _ => nth j (b_lo b) 0) (fun t => t * scale)). apply derivable_pt_lim_const.
      apply (derivable_pt_lim_mult (fun t => t) (fun _ => scale)). apply derivable_pt_lim_id. apply derivable_pt_lim_const. }
    replace (0 + (1 * scale + u * 0)) with scale in H by ring. exact H.
  - cbv beta. rewrite Eu. exact Hphi.
Qed.
Print Assumptions C34_gradient_chain_rule.

(** the hypotheses are met: 3 rows, two inputs, one output *)
Example data_example_file : mat R := mkMat 3 3 [0; 1; 2;  5; 6; 7;  10; 20; 30].
Example data_example_can_read : can_read (set_ratio (1/2) sdata_new) 2 data_example_file.
Proof. unfold can_read, table, wf, columns_ok. simpl. intuition lia. Qed.
Example C33_example : exists s' k tr va, data_read data_example_file [2; 0; 1]%nat (set_ratio (1/2) sdata_new) = (s', Ok tt) /\
  INR k <= 1/2 * 3 < INR k + 1 /\ tr = [[0; 5; 10]; [1; 6; 20]] /\ va = [[2; 7; 30]] /\ shows_training s' 2 tr /\ shows_validation s' 2 va.
Proof.
  destruct (C33_split_is_partition (set_ratio (1/2) sdata_new) 2 data_example_file [2; 0; 1]%nat data_example_can_read eq_refl) as (s' & k & tr & va & A1 & A2 & A3 & A4 & A5 & A6 & A7 & A8 & A9 & A10).
  simpl; lra. simpl. apply (perm_trans (perm_swap _ _ _)). apply perm_skip. apply perm_swap.
  simpl in A2. assert (k = 1)%nat as ->. { assert (INR k < 2) by lra. assert (0 < INR k) by lra. destruct k; [simpl in *; lra|]. destruct k; auto. exfalso. rewrite !S_INR in *. pose proof (pos_INR k). lra. }
  exists s', 1%nat, tr, va. split; auto. split. simpl. lra. split. rewrite A7. reflexivity. split. rewrite A6. reflexivity. split; auto.
Qed.
Example C34_example : box_ok (Rlit 1 (-9)) 2 (mkB 2 [0; 0] [2; 4] true).
Proof. unfold box_ok. simpl. repeat split; auto. unfold Rlit. simpl. lra. intros [|[|j]] Hj; simpl; try lia; unfold Rlit; simpl; lra. Qed.
