(** Properties C02, C04 (matrices), C05, C11-C16 of properties.jsonl.
    [rows m]/[cols m] (MatSpec.v) are the rows/columns of a matrix as lists. *)
From Coq Require Import Reals Lra List Arith Lia ZArith Bool Permutation.
From Verif Require Import Base Num RealNum NumFloat RSpec VecModel MatModel MatLemmas MatSpec VecProofs VecReal VecProofs2
  MatProofs MatProofs2 MatProofs3 MatReal.
Import ListNotations.
Local Open Scope R_scope.

(** ** C02 *)
Theorem C02_normalizeMatrix_row_by_row : forall (m : mat R) lb ub, length lb = ncols m -> length ub = ncols m ->
  (forall j, (j < ncols m)%nat -> nth j lb 0 < nth j ub 0) ->
  exists m', mat_normalize m lb ub = Ok m' /\ wf m' /\ nrows m' = nrows m /\ ncols m' = ncols m /\
    forall i, (i < nrows m)%nat -> vec_normalize (nth i (rows m) []) lb ub = Ok (nth i (rows m') []).
Proof. exact mat_normalize_ok. Qed.
Print Assumptions C02_normalizeMatrix_row_by_row.
Theorem C02_normalizeMatrix_rejects : forall (m : mat R) lb ub,
  length lb <> ncols m \/ length ub <> ncols m \/ (exists j, (j < ncols m)%nat /\ nth j ub 0 <= nth j lb 0) ->
  mat_normalize m lb ub = Throw InvalidArgument.
Proof. exact mat_normalize_rejects. Qed.
Print Assumptions C02_normalizeMatrix_rejects.
Example C02_example : exists m', mat_normalize (mkMat 2 2 [1; 2; 3; 4]) [0; 2] [2; 6] = Ok m' /\
  vec_normalize [1; 3] [0; 2] [2; 6] = Ok (nth 0 (rows m') []).
Proof.
  destruct (C02_normalizeMatrix_row_by_row (mkMat 2 2 [1; 2; 3; 4]) [0; 2] [2; 6]) as (m' & A & B & C & D & E); auto.
  intros [|[|i]] Hi; simpl in *; try lra; lia. exists m'. split; auto. apply (E 0%nat). simpl; lia.
Qed.

(** ** C04, matrix fills *)
Theorem C04_mat_fillRandom : forall (m : mat R) a b (u : nat -> R), (forall k, 0 <= u k <= 1) ->
  (a < b -> exists m', mat_fillRandom m a b u = Ok m' /\ wf m' /\ nrows m' = nrows m /\ ncols m' = ncols m /\
     forall i j, (i < nrows m)%nat -> (j < ncols m)%nat -> a <= mget m' i j <= b) /\
  (b <= a -> mat_fillRandom m a b u = Throw InvalidArgument).
Proof. exact mat_fillRandom_ok. Qed.
Print Assumptions C04_mat_fillRandom.
Theorem C04_mat_fillRandom_bounds : forall (m : mat R) lb ub (u : nat -> nat -> R), (forall i j, 0 <= u i j <= 1) ->
  (length lb = ncols m -> length ub = ncols m -> (forall j, (j < ncols m)%nat -> nth j lb 0 <= nth j ub 0) ->
   exists m', mat_fillRandomV m lb ub u = Ok m' /\ wf m' /\ nrows m' = nrows m /\ ncols m' = ncols m /\
     forall i j, (i < nrows m)%nat -> (j < ncols m)%nat -> nth j lb 0 <= mget m' i j <= nth j ub 0) /\
  (length lb <> ncols m \/ length ub <> ncols m \/ (exists j, (j < ncols m)%nat /\ nth j ub 0 < nth j lb 0) ->
   mat_fillRandomV m lb ub u = Throw InvalidArgument).
Proof. exact mat_fillRandomV_ok. Qed.
Print Assumptions C04_mat_fillRandom_bounds.
Theorem C04_mat_LHS_rejects : forall (m : mat R) lb ub u perm,
  length lb <> ncols m \/ length ub <> ncols m \/ (exists j, (j < ncols m)%nat /\ nth j ub 0 < nth j lb 0) ->
  mat_fillRandomLHS m lb ub u perm = Throw InvalidArgument.
Proof. exact lhs_rejects. Qed.
Print Assumptions C04_mat_LHS_rejects.
Example C04_mat_example : exists m', mat_fillRandomV (mat_zero 2 2) [0; 5] [1; 5] (fun _ _ => 1/2) = Ok m'.
Proof.
  destruct (C04_mat_fillRandom_bounds (mat_zero 2 2) [0; 5] [1; 5] (fun _ _ => 1/2)) as [H _]. intros; lra.
  destruct H as (m' & A & _); auto. intros [|[|i]] Hi; simpl in *; try lra; lia. eauto.
Qed.

(** ** C05 *)
Theorem C05_latin_hypercube : forall (m : mat R) lb ub u perm,
  (0 < nrows m)%nat ->
  length lb = ncols m -> length ub = ncols m -> (forall j, (j < ncols m)%nat -> nth j lb 0 < nth j ub 0) ->
  (forall i j, 0 <= u i j < 1) -> (forall j, (j < ncols m)%nat -> Permutation (perm j) (seq 0 (nrows m))) ->
  exists m', mat_fillRandomLHS m lb ub u perm = Ok m' /\ wf m' /\ nrows m' = nrows m /\ ncols m' = ncols m /\
    (forall i j, (i < nrows m)%nat -> (j < ncols m)%nat -> nth j lb 0 <= mget m' i j < nth j ub 0) /\
    forall j k, (j < ncols m)%nat -> (k < nrows m)%nat ->
      exists i, ((i < nrows m)%nat /\ in_stratum (nth j lb 0) (nth j ub 0) (nrows m) k (mget m' i j)) /\
        forall i', (i' < nrows m)%nat /\ in_stratum (nth j lb 0) (nth j ub 0) (nrows m) k (mget m' i' j) -> i' = i.
Proof. exact lhs_strata. Qed.
Print Assumptions C05_latin_hypercube.
Example C05_example : exists m', mat_fillRandomLHS (mat_zero 3 2) [0; -1] [3; 1] (fun _ _ => 1/2)
    (fun j => match j with O => [2; 0; 1]%nat | _ => [0; 1; 2]%nat end) = Ok m' /\ nrows m' = 3%nat /\ ncols m' = 2%nat.
Proof.
  destruct (C05_latin_hypercube (mat_zero 3 2) [0; -1] [3; 1] (fun _ _ => 1/2)
    (fun j => match j with O => [2; 0; 1]%nat | _ => [0; 1; 2]%nat end)) as (m' & A & _ & B & C & _); auto; try (simpl; lia).
  - intros [|[|i]] Hi; simpl in *; try lra; lia.
  - intros; lra.
  - intros [|[|j]] Hj; simpl; auto. change [2; 0; 1]%nat with ([2] ++ [0; 1])%nat. symmetry. apply (Permutation_app_comm [0; 1]%nat [2]%nat).
  - exists m'; auto.
Qed.

(** ** C11: any sequence of row edits behaves as on a list of rows. [table m]: consistent storage and, if there are
    rows, at least one column. *)
Theorem C11_row_edits_refine_list : forall (T : Type) (NT : Num T) (ops : list (rowop (T:=T))) (m : mat T),
  table m -> ops_defined (rows m) ops ->
  exists m', run_ops m ops = Some (m', snd (spec_run (rows m) ops)) /\ table m' /\ rows m' = fst (spec_run (rows m) ops).
Proof. exact (@run_ops_refines). Qed.
Print Assumptions C11_row_edits_refine_list.
Theorem C11_add_then_delete_restores : forall (T : Type) (NT : Num T) (m : mat T) r p, table m -> (0 < nrows m)%nat -> (p <= nrows m)%nat ->
  length r = ncols m ->
  exists m1, mat_addRow m r (Z.of_nat p) = (m1, Ok tt) /\ mat_deleteRow m1 (Z.of_nat p) = (m, Ok tt).
Proof.
  intros T NT m r p Ht Hn Hp Hl. destruct (addRow_deleteRow m r p Ht) as (m1 & m2 & A & B & C); auto.
  - destruct r; try discriminate. simpl in Hl. destruct Ht as [_ Ht]. lia.
  - rewrite fits_rows by auto. rewrite Hl, Nat.eqb_refl. apply orb_true_r.
  - exists m1. rewrite B, C; auto.
Qed.
Print Assumptions C11_add_then_delete_restores.
Theorem C11_getRow : forall (T : Type) (NT : Num T) (m : mat T) i iz,
  ((i < nrows m)%nat -> iz = Z.of_nat i \/ (iz = (-1)%Z /\ i = nrows m - 1)%nat -> mat_getRow m iz = Ok (nth i (rows m) [])) /\
  ((Z.of_nat (nrows m) <= iz)%Z -> mat_getRow m iz = Throw OutOfRange) /\
  ((iz < -1)%Z -> mat_getRow m iz = Throw InvalidArgument).
Proof. exact (fun T NT m i iz => conj (getRow_ok m i iz) (getRow_throws m iz)). Qed.
Print Assumptions C11_getRow.
(** A rejected addRow is not always without effect: on a matrix with rows but no columns the column count is
    overwritten before the position check, and the object then claims more entries than it stores. *)
Theorem C11_rejected_addRow_breaks_storage_refuted :
  exists (m : mat F) r p m' e, wf m /\ mat_addRow m r p = (m', Throw e) /\ ~ wf m'.
Proof.
  exists (mat_zero 3 0), [FofZ 1; FofZ 2], 5%Z, (mkMat 3 2 []), InvalidArgument.
  split. apply mat_zero_wf. split. reflexivity. unfold wf; simpl. discriminate.
Qed.
Print Assumptions C11_rejected_addRow_breaks_storage_refuted.
Example C11_example :
  let m := mkMat 2 2 [FofZ 1; FofZ 2; FofZ 3; FofZ 4] in
  let ops := [AddRow [FofZ 5; FofZ 6] 1; DelRows [2; 0; 2]%Z; AddRow [FofZ 7] (-1); AddRow [FofZ 7; FofZ 8] (-1); SetRow [FofZ 9; FofZ 9] 0; DelRow (-1)] in
  table m /\ ops_defined (rows m) ops /\ spec_run (rows m) ops = ([[FofZ 9; FofZ 9]], [true; true; false; true; true; true]).
Proof.
  cbv zeta. split; [|split].
  - split. reflexivity. simpl; lia.
  - vm_compute. repeat split; intros; try discriminate; lia.
  - vm_compute. reflexivity.
Qed.

(** ** C12 *)
Theorem C12_addColumn : forall (T : Type) (NT : Num T) (m : mat T) c p position, wf m -> (nrows m > 0)%nat -> (ncols m > 0)%nat ->
  length c = nrows m -> (p <= ncols m)%nat -> position = Z.of_nat p \/ (position = (-1)%Z /\ p = ncols m) ->
  exists m', mat_addColumn m c position = (m', Ok tt) /\ wf m' /\ nrows m' = nrows m /\ cols m' = insert_at p c (cols m).
Proof. exact (@addColumn_ok). Qed.
Print Assumptions C12_addColumn.
Theorem C12_addColumn_to_empty : forall (T : Type) (NT : Num T) (m : mat T) c, nrows m = 0%nat -> ncols m = 0%nat -> mdata m = [] ->
  exists m', mat_addColumn m c (-1) = (m', Ok tt) /\ wf m' /\ nrows m' = length c /\ cols m' = [c].
Proof. exact (@addColumn_empty). Qed.
Print Assumptions C12_addColumn_to_empty.
Theorem C12_addColumn_throws : forall (T : Type) (NT : Num T) (m : mat T) c position, (nrows m > 0)%nat -> (ncols m > 0)%nat -> (-1 <= position)%Z ->
  (Z.of_nat (ncols m) < position)%Z \/ length c <> nrows m ->
  mat_addColumn m c position = (m, Throw InvalidArgument).
Proof. exact (@addColumn_throws). Qed.
Print Assumptions C12_addColumn_throws.
Theorem C12_getCol : forall (T : Type) (NT : Num T) (m : mat T) j jz,
  ((j < ncols m)%nat -> jz = Z.of_nat j \/ (jz = (-1)%Z /\ j = ncols m - 1)%nat -> mat_getCol m jz = Ok (nth j (cols m) [])) /\
  ((Z.of_nat (ncols m) <= jz)%Z -> mat_getCol m jz = Throw OutOfRange) /\
  ((jz < -1)%Z -> mat_getCol m jz = Throw InvalidArgument).
Proof. exact (fun T NT m i iz => conj (getCol_ok m i iz) (getCol_throws m iz)). Qed.
Print Assumptions C12_getCol.
Theorem C12_setCol : forall (T : Type) (NT : Num T) (m : mat T) v c,
  (wf m -> (c < ncols m)%nat -> length v = nrows m ->
   exists m', mat_setCol m v c = Ok m' /\ wf m' /\ nrows m' = nrows m /\ cols m' = replace_at c v (cols m) /\
              mat_getCol m' (Z.of_nat c) = Ok v) /\
  ((ncols m <= c)%nat -> mat_setCol m v c = Throw OutOfRange) /\
  ((c < ncols m)%nat -> length v <> nrows m -> mat_setCol m v c = Throw InvalidArgument).
Proof.
  intros T NT m v c. split; [|apply setCol_throws]. intros Hw Hc Hl.
  destruct (setCol_ok m v c Hw Hc Hl) as (m' & A & B & C & D). exists m'. repeat split; auto.
  assert (length (cols m') = ncols m) as Hn. { rewrite D, replace_at_length by (rewrite cols_length; auto). apply cols_length. }
  rewrite cols_length in Hn. rewrite (getCol_ok m' c) by (auto; lia). rewrite D, nth_replace_at by (rewrite cols_length; auto).
  rewrite Nat.eqb_refl. auto.
Qed.
Print Assumptions C12_setCol.
Example C12_example : exists m', mat_addColumn (mkMat 2 1 [FofZ 1; FofZ 2]) [FofZ 8; FofZ 9] 0 = (m', Ok tt) /\ cols m' = [[FofZ 8; FofZ 9]; [FofZ 1; FofZ 2]].
Proof.
  destruct (C12_addColumn F FNum (mkMat 2 1 [FofZ 1; FofZ 2]) [FofZ 8; FofZ 9] 0 0) as (m' & A & B & C & D); auto; try (simpl; lia). reflexivity.
  exists m'. split; auto.
Qed.

(** ** C13 *)
Theorem C13_submat : forall (T : Type) (NT : Num T) (m : mat T) r0 r1 c0 c1,
  ((r0 <= r1)%nat -> (r1 < nrows m)%nat -> (c0 <= c1)%nat -> (c1 < ncols m)%nat ->
   exists m', mat_submat m r0 r1 c0 c1 = Ok m' /\ wf m' /\ nrows m' = (r1 - r0 + 1)%nat /\ ncols m' = (c1 - c0 + 1)%nat /\
     forall i j, (i < r1 - r0 + 1)%nat -> (j < c1 - c0 + 1)%nat -> mget m' i j = mget m (r0 + i) (c0 + j)) /\
  ((r1 < r0 \/ nrows m <= r1 \/ c1 < c0 \/ ncols m <= c1)%nat <-> mat_submat m r0 r1 c0 c1 = Throw InvalidArgument).
Proof. exact (fun T NT m r0 r1 c0 c1 => conj (submat_ok m r0 r1 c0 c1) (submat_throws m r0 r1 c0 c1)). Qed.
Print Assumptions C13_submat.
Theorem C13_resize : forall (T : Type) (NT : Num T) (m : mat T) r c,
  wf (mat_resize m r c) /\ nrows (mat_resize m r c) = r /\ ncols (mat_resize m r c) = c /\
  forall i j, (i < r)%nat -> (j < c)%nat ->
    mget (mat_resize m r c) i j = if (Nat.ltb i (nrows m) && Nat.ltb j (ncols m))%bool then mget m i j else n0.
Proof. exact (@mat_resize_ok). Qed.
Print Assumptions C13_resize.
Example C13_example : mat_submat (mkMat 2 2 [FofZ 1; FofZ 2; FofZ 3; FofZ 4]) 1 1 0 1 = Ok (mkMat 1 2 [FofZ 2; FofZ 4]) /\
  mat_resize (mkMat 2 1 [FofZ 1; FofZ 2]) 1 2 = mkMat 1 2 [FofZ 1; FofZ 0].
Proof. split; reflexivity. Qed.

(** ** C14 *)
Theorem C14_transpose : forall (T : Type) (NT : Num T) (m : mat T),
  wf (mat_transpose m) /\ nrows (mat_transpose m) = ncols m /\ ncols (mat_transpose m) = nrows m /\
  forall i j, (i < ncols m)%nat -> (j < nrows m)%nat -> mget (mat_transpose m) i j = mget m j i.
Proof. exact (@transpose_ok). Qed.
Print Assumptions C14_transpose.
Theorem C14_transpose_involutive : forall (T : Type) (NT : Num T) (m : mat T), wf m -> mat_transpose (mat_transpose m) = m.
Proof. exact (@transpose_involutive). Qed.
Print Assumptions C14_transpose_involutive.
Theorem C14_concat_rows : forall (T : Type) (NT : Num T) (m o : mat T),
  (wf m -> wf o -> ncols m = ncols o -> exists r, mat_concatRows m o = Ok r /\ wf r /\ ncols r = ncols m /\ rows r = rows m ++ rows o) /\
  (nrows m <> 0%nat -> nrows o <> 0%nat -> ncols m <> ncols o -> mat_concatRows m o = Throw InvalidArgument).
Proof. exact (fun T NT m o => conj (concatRows_ok m o) (concatRows_throws m o)). Qed.
Print Assumptions C14_concat_rows.
Theorem C14_concat_cols : forall (T : Type) (NT : Num T) (m o : mat T),
  (wf m -> wf o -> nrows m = nrows o -> exists r, mat_concatCols m o = Ok r /\ wf r /\ nrows r = nrows m /\ cols r = cols m ++ cols o) /\
  (ncols m <> 0%nat -> ncols o <> 0%nat -> nrows m <> nrows o -> mat_concatCols m o = Throw InvalidArgument).
Proof. exact (fun T NT m o => conj (concatCols_ok m o) (concatCols_throws m o)). Qed.
Print Assumptions C14_concat_cols.
Theorem C14_concat_associative : forall (T : Type) (NT : Num T) (a b c : mat T), wf a -> wf b -> wf c ->
  (forall ab bc, ncols a = ncols b -> ncols b = ncols c ->
     mat_concatRows a b = Ok ab -> mat_concatRows b c = Ok bc -> mat_concatRows ab c = mat_concatRows a bc) /\
  (forall ab bc, nrows a = nrows b -> nrows b = nrows c ->
     mat_concatCols a b = Ok ab -> mat_concatCols b c = Ok bc -> mat_concatCols ab c = mat_concatCols a bc).
Proof.
  exact (fun T NT a b c Ha Hb Hc => conj (fun ab bc => concatRows_assoc a b c ab bc Ha Hb Hc) (fun ab bc => concatCols_assoc a b c ab bc Ha Hb Hc)).
Qed.
Print Assumptions C14_concat_associative.
Example C14_example : mat_concatRows (mkMat 1 2 [FofZ 1; FofZ 2]) (mkMat 1 2 [FofZ 3; FofZ 4]) = Ok (mkMat 2 2 [FofZ 1; FofZ 3; FofZ 2; FofZ 4])
  /\ mat_transpose (mkMat 1 2 [FofZ 1; FofZ 2]) = mkMat 2 1 [FofZ 1; FofZ 2].
Proof. split; reflexivity. Qed.

(** ** C15 *)
Theorem C15_matVec : forall (A : mat R) x,
  (length x = ncols A -> exists y, mat_vec A x = Ok y /\ length y = nrows A /\
    forall i, (i < nrows A)%nat -> nth i y 0 = rsum (ncols A) (fun j => mget A i j * nth j x 0)) /\
  (length x <> ncols A -> mat_vec A x = Throw InvalidArgument).
Proof. exact (fun A x => conj (mat_vec_ok A x) (mat_vec_throws A x)). Qed.
Print Assumptions C15_matVec.
Theorem C15_matMat : forall (A B : mat R),
  (ncols A = nrows B -> exists C, mat_mul A B = Ok C /\
     is_mat C (nrows A) (ncols B) (fun i j => rsum (ncols A) (fun k => mget A i k * mget B k j))) /\
  (ncols A <> nrows B -> mat_mul A B = Throw InvalidArgument).
Proof. exact (fun A B => conj (mat_mul_ok A B) (mat_mul_throws A B)). Qed.
Print Assumptions C15_matMat.
Theorem C15_product_then_vector : forall (A B C : mat R) x y, mat_mul A B = Ok C -> mat_vec B x = Ok y -> mat_vec C x = mat_vec A y.
Proof. exact mul_vec_assoc. Qed.
Print Assumptions C15_product_then_vector.
Theorem C15_product_associative : forall (A B C AB BC : mat R), mat_mul A B = Ok AB -> mat_mul B C = Ok BC -> mat_mul AB C = mat_mul A BC.
Proof. exact mul_assoc. Qed.
Print Assumptions C15_product_associative.
Theorem C15_transpose_of_product : forall (A B C : mat R), wf A -> wf B -> mat_mul A B = Ok C ->
  mat_mul (mat_transpose B) (mat_transpose A) = Ok (mat_transpose C).
Proof. exact mul_transpose. Qed.
Print Assumptions C15_transpose_of_product.
Example C15_example : exists C y, mat_mul (mkMat 1 2 [1; 2]) (mkMat 2 1 [3; 4]) = Ok C /\ mget C 0 0 = 11 /\
  mat_vec (mkMat 2 1 [3; 4]) [2] = Ok y /\ nth 1 y 0 = 8.
Proof.
  eexists; eexists. split. reflexivity. split. cbn; unfold nsum, mget; cbn; lra.
  split. reflexivity. cbn; unfold nsum, mget, vget; cbn; lra.
Qed.

(** ** C16 *)
Theorem C16_eye : forall (T : Type) (NT : Num T) (m : mat T),
  (wf m -> nrows m = ncols m ->
   exists m', mat_eye m = Ok m' /\ wf m' /\ nrows m' = nrows m /\ ncols m' = ncols m /\
     forall i j, (i < nrows m)%nat -> (j < ncols m)%nat -> mget m' i j = if Nat.eqb i j then n1 else mget m i j) /\
  (nrows m <> ncols m -> mat_eye m = Throw InvalidArgument).
Proof. exact (fun T NT m => conj (eye_ok m) (eye_throws m)). Qed.
Print Assumptions C16_eye.
Theorem C16_eye_of_new_matrix_is_identity : forall n, exists I, mat_eye (mat_zero n n) = Ok I /\ is_mat I n n delta.
Proof.
  intros n. destruct (eye_ok (mat_zero (T:=R) n n) (mat_zero_wf n n) eq_refl) as (I & A & B & C & D & E).
  exists I. split; auto. split; auto. split; auto. split; auto. intros i j Hi Hj. rewrite E by auto. rewrite mget_zero by auto.
  unfold delta. reflexivity.
Qed.
Print Assumptions C16_eye_of_new_matrix_is_identity.
Theorem C16_eye_is_identity_refuted : exists (m I : mat R), wf m /\ nrows m = ncols m /\ mat_eye m = Ok I /\ ~ is_mat I (nrows m) (nrows m) delta.
Proof.
  exists (mkMat 2 2 [0; 5; 5; 0]). eexists. split. reflexivity. split. reflexivity. split. reflexivity.
  intros (_ & _ & _ & H). specialize (H 1%nat 0%nat ltac:(simpl; lia) ltac:(simpl; lia)). unfold mget, delta in H. simpl in H. lra.
Qed.
Print Assumptions C16_eye_is_identity_refuted.
