(** Columns, sub-matrices, resize, transpose, concatenation, eye. *)
From Coq Require Import List Arith Lia ZArith Bool.
From Verif Require Import Base Num VecModel MatModel MatLemmas MatSpec VecProofs VecProofs2 MatProofs.
Import ListNotations.

Section MatProofs2.
  Context {T : Type} {NT : Num T}.
  Implicit Types m o : mat T.

  Lemma cols_length m : length (cols m) = ncols m.
  Proof. unfold cols. rewrite map_length, seq_length; auto. Qed.
  Definition mcol m j : list T := vbuild (nrows m) (fun i => mget m i j).
  Lemma nth_cols m j d : j < ncols m -> nth j (cols m) d = mcol m j.
  Proof. intros. unfold cols. rewrite nth_map_seq; auto. Qed.
  Lemma cols_eq m l d : length l = ncols m -> (forall j, j < ncols m -> nth j l d = mcol m j) -> cols m = l.
  Proof.
    intros Hl H. apply (list_ext _ _ d). rewrite cols_length; auto. intros i Hi. rewrite cols_length in Hi. rewrite nth_cols, H; auto.
  Qed.
  Lemma mcol_mbuild r c f j : j < c -> mcol (mbuild (T:=T) r c f) j = vbuild r (fun i => f i j).
  Proof. intros. unfold mcol; simpl. apply vbuild_ext. intros; apply mget_mbuild; auto. Qed.
  Lemma mcol_length m j : length (mcol m j) = nrows m.
  Proof. apply vbuild_length. Qed.

  (** addColumn on a non-empty matrix, or on one without rows and columns *)
  Lemma addColumn_ok m c p position : wf m -> nrows m > 0 -> ncols m > 0 -> length c = nrows m -> p <= ncols m ->
    position = Z.of_nat p \/ (position = (-1)%Z /\ p = ncols m) ->
    exists m', mat_addColumn m c position = (m', Ok tt) /\ wf m' /\ nrows m' = nrows m /\ cols m' = insert_at p c (cols m).
  Proof.
    intros Hw Hr Hc Hl Hp Hpos. unfold mat_addColumn, mat_isEmpty.
    destruct (Nat.eqb_spec (nrows m) 0), (Nat.eqb_spec (ncols m) 0); try lia. simpl orb. cbv iota.
    set (q := if (position =? -1)%Z then _ else _). assert (q = Z.of_nat p) as -> by (unfold q; destruct (Z.eqb_spec position (-1)); lia).
    destruct (Z.ltb_spec (Z.of_nat (ncols m)) (Z.of_nat p)); try lia. rewrite Hl, Nat.eqb_refl. cbn [negb].
    rewrite Hw, Nat.ltb_irrefl. destruct (Z.ltb_spec (Z.of_nat p) 0); try lia. cbn [orb]. rewrite Nat2Z.id.
    eexists; split; eauto. split. apply mbuild_wf. split; auto.
    apply (cols_eq _ _ []). rewrite insert_at_length; rewrite cols_length; simpl; lia.
    intros j Hj. simpl in Hj. rewrite nth_insert_at by (rewrite cols_length; lia). rewrite mcol_mbuild by auto.
    destruct (Nat.ltb_spec j p). rewrite nth_cols by lia. reflexivity.
    destruct (Nat.eqb_spec j p). rewrite <- Hl. symmetry; apply vbuild_vget. rewrite nth_cols by lia. reflexivity.
  Qed.
  Lemma addColumn_empty m c : nrows m = 0 -> ncols m = 0 -> mdata m = [] ->
    exists m', mat_addColumn m c (-1) = (m', Ok tt) /\ wf m' /\ nrows m' = length c /\ cols m' = [c].
  Proof.
    intros Hr Hc Hd. unfold mat_addColumn, mat_isEmpty. rewrite Hr, Hc, Hd. cbn. rewrite Nat.eqb_refl, Nat.mul_0_r. cbn [negb length Nat.ltb Nat.leb].
    eexists; split; eauto. split. apply mbuild_wf. split; auto.
    unfold cols. cbn [ncols mbuild seq map]. f_equal. cbn [nrows].
    transitivity (vbuild (length c) (vget c)). 2: apply vbuild_vget.
    unfold vbuild. apply map_ext_in. intros i Hi. apply in_seq in Hi.
    change (mget (mbuild (length c) 1 (fun i j => if j <? 0 then mget (mkMat (length c) 0 []) i j else if j =? 0 then vget c i else mget (mkMat (length c) 0 []) i (j - 1))) i 0 = vget c i).
    rewrite mget_mbuild by lia. auto.
  Qed.
  Lemma addColumn_throws m c position : nrows m > 0 -> ncols m > 0 -> (-1 <= position)%Z ->
    (Z.of_nat (ncols m) < position)%Z \/ length c <> nrows m ->
    mat_addColumn m c position = (m, Throw InvalidArgument).
  Proof.
    intros Hr Hc Hp H. unfold mat_addColumn, mat_isEmpty.
    destruct (Nat.eqb_spec (nrows m) 0), (Nat.eqb_spec (ncols m) 0); try lia. simpl orb. cbv iota.
    set (q := if (position =? -1)%Z then _ else _).
    destruct (Z.ltb_spec (Z.of_nat (ncols m)) q); auto.
    destruct (Nat.eqb_spec (length c) (nrows m)); auto. exfalso.
    destruct H as [H|H]; auto. unfold q in *. destruct (Z.eqb_spec position (-1)); lia.
  Qed.

  Lemma getCol_ok m j jz : j < ncols m -> jz = Z.of_nat j \/ (jz = (-1)%Z /\ j = ncols m - 1) ->
    mat_getCol m jz = Ok (nth j (cols m) []).
  Proof.
    intros Hj H. unfold mat_getCol. rewrite nth_cols by auto.
    destruct (Z.leb_spec (Z.of_nat (ncols m)) jz); try lia. destruct (Z.ltb_spec jz (-1)); try lia.
    set (q := if (jz =? -1)%Z then _ else _). assert (q = Z.of_nat j) as -> by (unfold q; destruct (Z.eqb_spec jz (-1)); lia).
    destruct (Z.ltb_spec (Z.of_nat j) 0); try lia. rewrite Nat2Z.id. reflexivity.
  Qed.
  Lemma getCol_throws m jz : ((Z.of_nat (ncols m) <= jz)%Z -> mat_getCol m jz = Throw OutOfRange) /\
    ((jz < -1)%Z -> mat_getCol m jz = Throw InvalidArgument).
  Proof.
    unfold mat_getCol. split; intros; destruct (Z.leb_spec (Z.of_nat (ncols m)) jz); try lia; auto. destruct (Z.ltb_spec jz (-1)); auto; lia.
  Qed.
  Lemma getRow_ok m i iz : i < nrows m -> iz = Z.of_nat i \/ (iz = (-1)%Z /\ i = nrows m - 1) ->
    mat_getRow m iz = Ok (nth i (rows m) []).
  Proof.
    intros Hj H. unfold mat_getRow. rewrite nth_rows by auto.
    destruct (Z.leb_spec (Z.of_nat (nrows m)) iz); try lia. destruct (Z.ltb_spec iz (-1)); try lia.
    set (q := if (iz =? -1)%Z then _ else _). assert (q = Z.of_nat i) as -> by (unfold q; destruct (Z.eqb_spec iz (-1)); lia).
    destruct (Z.ltb_spec (Z.of_nat i) 0); try lia. rewrite Nat2Z.id. reflexivity.
  Qed.
  Lemma getRow_throws m iz : ((Z.of_nat (nrows m) <= iz)%Z -> mat_getRow m iz = Throw OutOfRange) /\
    ((iz < -1)%Z -> mat_getRow m iz = Throw InvalidArgument).
  Proof.
    unfold mat_getRow. split; intros; destruct (Z.leb_spec (Z.of_nat (nrows m)) iz); try lia; auto. destruct (Z.ltb_spec iz (-1)); auto; lia.
  Qed.

  Lemma setCol_loop m v c n : wf m -> c < ncols m -> n <= nrows m ->
    let m' := loop n (fun i a => mset a i c (vget v i)) m in
    wf m' /\ nrows m' = nrows m /\ ncols m' = ncols m /\
    forall a b, a < nrows m -> b < ncols m -> mget m' a b = if (Nat.eqb b c && Nat.ltb a n)%bool then vget v a else mget m a b.
  Proof.
    intros Hw Hi Hn. apply (loop_inv (fun n m' => wf m' /\ nrows m' = nrows m /\ ncols m' = ncols m /\
      forall a b, a < nrows m -> b < ncols m -> mget m' a b = if (Nat.eqb b c && Nat.ltb a n)%bool then vget v a else mget m a b)).
    - repeat split; auto. intros. rewrite andb_false_r; auto.
    - intros k t Hk (A & B & C & D). repeat split; auto. apply mset_wf; auto.
      intros a b Ha Hb. rewrite mget_mset by (auto; lia). rewrite D by auto.
      destruct (Nat.eqb_spec c b), (Nat.eqb_spec k a), (Nat.eqb_spec b c), (Nat.ltb_spec a k), (Nat.ltb_spec a (S k)); simpl; auto; try lia; subst; auto.
  Qed.
  Lemma setCol_ok m v c : wf m -> c < ncols m -> length v = nrows m ->
    exists m', mat_setCol m v c = Ok m' /\ wf m' /\ nrows m' = nrows m /\ cols m' = replace_at c v (cols m).
  Proof.
    intros Hw Hc Hl. unfold mat_setCol. destruct (Nat.leb_spec (ncols m) c); try lia. rewrite Hl, Nat.eqb_refl. cbn [negb].
    destruct (setCol_loop m v c (nrows m) Hw Hc (le_n _)) as (A & B & C & D).
    eexists; split; eauto. split; auto. split; auto.
    apply (cols_eq _ _ []). rewrite replace_at_length; rewrite cols_length; auto.
    intros j Hj. rewrite nth_replace_at by (rewrite cols_length; auto). rewrite C in Hj.
    apply vec_ext.
    - destruct (Nat.eqb_spec j c); rewrite ?nth_cols, ?mcol_length by auto; lia.
    - intros i Hi. assert (i < nrows m) as Hi'. { destruct (Nat.eqb_spec j c). lia. rewrite nth_cols, mcol_length in Hi by auto. lia. }
      unfold mcol. rewrite vget_vbuild by lia. rewrite D by auto.
      destruct (Nat.eqb_spec j c), (Nat.ltb_spec i (nrows m)); simpl; try lia; auto.
      rewrite nth_cols by auto. unfold mcol. rewrite vget_vbuild; auto.
  Qed.
  Lemma setCol_throws m v c : (ncols m <= c -> mat_setCol m v c = Throw OutOfRange) /\
    (c < ncols m -> length v <> nrows m -> mat_setCol m v c = Throw InvalidArgument).
  Proof.
    unfold mat_setCol. split; intros; destruct (Nat.leb_spec (ncols m) c); try lia; auto.
    destruct (Nat.eqb_spec (length v) (nrows m)); auto; lia.
  Qed.

  (** *** submat / resize *)
  Lemma submat_ok m r0 r1 c0 c1 : r0 <= r1 -> r1 < nrows m -> c0 <= c1 -> c1 < ncols m ->
    exists m', mat_submat m r0 r1 c0 c1 = Ok m' /\ wf m' /\ nrows m' = r1 - r0 + 1 /\ ncols m' = c1 - c0 + 1 /\
      forall i j, i < r1 - r0 + 1 -> j < c1 - c0 + 1 -> mget m' i j = mget m (r0 + i) (c0 + j).
  Proof.
    intros. unfold mat_submat.
    destruct (Nat.leb_spec (nrows m) r0), (Nat.leb_spec (nrows m) r1), (Nat.leb_spec (ncols m) c0), (Nat.leb_spec (ncols m) c1),
      (Nat.ltb_spec r1 r0), (Nat.ltb_spec c1 c0); try lia. cbn [orb].
    eexists; split; eauto. split. apply mbuild_wf. repeat split; auto. intros; rewrite mget_mbuild by auto. f_equal; lia.
  Qed.
  Lemma submat_throws m r0 r1 c0 c1 : r1 < r0 \/ nrows m <= r1 \/ c1 < c0 \/ ncols m <= c1 <->
    mat_submat m r0 r1 c0 c1 = Throw InvalidArgument.
  Proof.
    unfold mat_submat.
    destruct (Nat.leb_spec (nrows m) r0), (Nat.leb_spec (nrows m) r1), (Nat.leb_spec (ncols m) c0), (Nat.leb_spec (ncols m) c1),
      (Nat.ltb_spec r1 r0), (Nat.ltb_spec c1 c0); cbn [orb]; split; intros; auto; try lia; discriminate.
  Qed.
  Lemma mat_resize_ok m r c :
    wf (mat_resize m r c) /\ nrows (mat_resize m r c) = r /\ ncols (mat_resize m r c) = c /\
    forall i j, i < r -> j < c -> mget (mat_resize m r c) i j = if (Nat.ltb i (nrows m) && Nat.ltb j (ncols m))%bool then mget m i j else n0.
  Proof.
    unfold mat_resize. split. apply mbuild_wf. repeat split; auto. intros. rewrite mget_mbuild by auto.
    destruct (Nat.ltb_spec i (Nat.min (nrows m) r)), (Nat.ltb_spec j (Nat.min (ncols m) c)), (Nat.ltb_spec i (nrows m)), (Nat.ltb_spec j (ncols m)); simpl; auto; lia.
  Qed.

  (** *** transpose / concatenation *)
  Lemma transpose_ok m : wf (mat_transpose m) /\ nrows (mat_transpose m) = ncols m /\ ncols (mat_transpose m) = nrows m /\
    forall i j, i < ncols m -> j < nrows m -> mget (mat_transpose m) i j = mget m j i.
  Proof. unfold mat_transpose. split. apply mbuild_wf. repeat split; auto. intros; rewrite mget_mbuild; auto. Qed.
  Lemma transpose_involutive m : wf m -> mat_transpose (mat_transpose m) = m.
  Proof.
    intros Hw. destruct (transpose_ok m) as (A & B & C & D). destruct (transpose_ok (mat_transpose m)) as (A' & B' & C' & D').
    apply mat_ext; auto; try lia. intros i j Hi Hj. rewrite D', D by lia. auto.
  Qed.
  Lemma concatRows_ok m o : wf m -> wf o -> ncols m = ncols o ->
    exists r, mat_concatRows m o = Ok r /\ wf r /\ ncols r = ncols m /\ rows r = rows m ++ rows o.
  Proof.
    intros Hm Ho Hc. unfold mat_concatRows.
    destruct (Nat.eqb_spec (nrows m) 0) as [E|E].
    { exists o. repeat split; auto. assert (rows m = []) as ->. { unfold rows. rewrite E; auto. } auto. }
    destruct (Nat.eqb_spec (nrows o) 0) as [E'|E'].
    { exists m. repeat split; auto. assert (rows o = []) as ->. { unfold rows. rewrite E'; auto. } rewrite app_nil_r; auto. }
    rewrite Hc, Nat.eqb_refl. cbn [negb]. eexists; split; eauto. split. apply mbuild_wf. split; auto.
    apply (rows_eq _ _ []). rewrite app_length, !rows_length; auto.
    intros i Hi. simpl in Hi. rewrite mrow_mbuild by auto. destruct (Nat.ltb_spec i (nrows m)).
    - rewrite app_nth1 by (rewrite rows_length; auto). rewrite nth_rows by auto. unfold mrow. rewrite Hc; auto.
    - rewrite app_nth2 by (rewrite rows_length; auto). rewrite rows_length, nth_rows by lia. reflexivity.
  Qed.
  Lemma concatRows_throws m o : nrows m <> 0 -> nrows o <> 0 -> ncols m <> ncols o -> mat_concatRows m o = Throw InvalidArgument.
  Proof.
    intros. unfold mat_concatRows. destruct (Nat.eqb_spec (nrows m) 0), (Nat.eqb_spec (nrows o) 0), (Nat.eqb_spec (ncols m) (ncols o)); auto; lia.
  Qed.
  Lemma concatCols_ok m o : wf m -> wf o -> nrows m = nrows o ->
    exists r, mat_concatCols m o = Ok r /\ wf r /\ nrows r = nrows m /\ cols r = cols m ++ cols o.
  Proof.
    intros Hm Ho Hc. unfold mat_concatCols.
    destruct (Nat.eqb_spec (ncols m) 0) as [E|E].
    { exists o. repeat split; auto. assert (cols m = []) as ->. { unfold cols. rewrite E; auto. } auto. }
    destruct (Nat.eqb_spec (ncols o) 0) as [E'|E'].
    { exists m. repeat split; auto. assert (cols o = []) as ->. { unfold cols. rewrite E'; auto. } rewrite app_nil_r; auto. }
    rewrite Hc, Nat.eqb_refl. cbn [negb]. eexists; split; eauto. split. apply mbuild_wf. split; auto.
    apply (cols_eq _ _ []). rewrite app_length, !cols_length; auto.
    intros i Hi. simpl in Hi. rewrite mcol_mbuild by auto. destruct (Nat.ltb_spec i (ncols m)).
    - rewrite app_nth1 by (rewrite cols_length; auto). rewrite nth_cols by auto. unfold mcol. rewrite Hc; auto.
    - rewrite app_nth2 by (rewrite cols_length; auto). rewrite cols_length, nth_cols by lia. reflexivity.
  Qed.
  Lemma concatCols_throws m o : ncols m <> 0 -> ncols o <> 0 -> nrows m <> nrows o -> mat_concatCols m o = Throw InvalidArgument.
  Proof.
    intros. unfold mat_concatCols. destruct (Nat.eqb_spec (ncols m) 0), (Nat.eqb_spec (ncols o) 0), (Nat.eqb_spec (nrows m) (nrows o)); auto; lia.
  Qed.
  Lemma concatRows_assoc a b c ab bc : wf a -> wf b -> wf c -> ncols a = ncols b -> ncols b = ncols c ->
    mat_concatRows a b = Ok ab -> mat_concatRows b c = Ok bc -> mat_concatRows ab c = mat_concatRows a bc.
  Proof.
    intros Ha Hb Hc E1 E2 H1 H2.
    destruct (concatRows_ok a b Ha Hb E1) as (ab' & X1 & X2 & X3 & X4). rewrite H1 in X1. injection X1 as <-.
    destruct (concatRows_ok b c Hb Hc E2) as (bc' & Y1 & Y2 & Y3 & Y4). rewrite H2 in Y1. injection Y1 as <-.
    destruct (concatRows_ok ab c X2 Hc ltac:(lia)) as (l & L1 & L2 & L3 & L4).
    destruct (concatRows_ok a bc Ha Y2 ltac:(lia)) as (r & R1 & R2 & R3 & R4).
    rewrite L1, R1. f_equal. apply rows_determine; auto. lia. rewrite L4, R4, X4, Y4, app_assoc; auto.
  Qed.
  Lemma cols_determine m o : wf m -> wf o -> nrows m = nrows o -> cols m = cols o -> m = o.
  Proof.
    intros Hm Ho Hc H. assert (ncols m = ncols o) as Hr by (rewrite <- (cols_length m), H, cols_length; auto).
    apply mat_ext; auto. intros i j Hi Hj.
    assert (mcol m j = mcol o j) as E by (rewrite <- (nth_cols m j []), H, nth_cols by lia; auto).
    assert (vget (mcol m j) i = vget (mcol o j) i) as E' by congruence. unfold mcol in E'. rewrite !vget_vbuild in E' by lia. auto.
  Qed.
  Lemma concatCols_assoc a b c ab bc : wf a -> wf b -> wf c -> nrows a = nrows b -> nrows b = nrows c ->
    mat_concatCols a b = Ok ab -> mat_concatCols b c = Ok bc -> mat_concatCols ab c = mat_concatCols a bc.
  Proof.
    intros Ha Hb Hc E1 E2 H1 H2.
    destruct (concatCols_ok a b Ha Hb E1) as (ab' & X1 & X2 & X3 & X4). rewrite H1 in X1. injection X1 as <-.
    destruct (concatCols_ok b c Hb Hc E2) as (bc' & Y1 & Y2 & Y3 & Y4). rewrite H2 in Y1. injection Y1 as <-.
    destruct (concatCols_ok ab c X2 Hc ltac:(lia)) as (l & L1 & L2 & L3 & L4).
    destruct (concatCols_ok a bc Ha Y2 ltac:(lia)) as (r & R1 & R2 & R3 & R4).
    rewrite L1, R1. f_equal. apply cols_determine; auto. lia. rewrite L4, R4, X4, Y4, app_assoc; auto.
  Qed.

  (** *** eye *)
  Lemma eye_ok m : wf m -> nrows m = ncols m ->
    exists m', mat_eye m = Ok m' /\ wf m' /\ nrows m' = nrows m /\ ncols m' = ncols m /\
      forall i j, i < nrows m -> j < ncols m -> mget m' i j = if Nat.eqb i j then n1 else mget m i j.
  Proof.
    intros Hw Hsq. unfold mat_eye. rewrite Hsq, Nat.eqb_refl. cbn [negb]. rewrite <- Hsq.
    eexists; split; eauto.
    assert (forall n, n <= nrows m -> let m' := loop n (fun row a => mset a row row n1) m in
      wf m' /\ nrows m' = nrows m /\ ncols m' = ncols m /\
      forall i j, i < nrows m -> j < ncols m -> mget m' i j = if (Nat.eqb i j && Nat.ltb i n)%bool then n1 else mget m i j) as H.
    { intros n Hn. apply (loop_inv (fun n m' => wf m' /\ nrows m' = nrows m /\ ncols m' = ncols m /\
        forall i j, i < nrows m -> j < ncols m -> mget m' i j = if (Nat.eqb i j && Nat.ltb i n)%bool then n1 else mget m i j)).
      - repeat split; auto. intros. rewrite andb_false_r; auto.
      - intros k t Hk (A & B & C & D). repeat split; auto. apply mset_wf; auto.
        intros a b Ha Hb. rewrite mget_mset by (auto; lia). rewrite D by auto.
        destruct (Nat.eqb_spec k a), (Nat.eqb_spec k b), (Nat.eqb_spec a b), (Nat.ltb_spec a k), (Nat.ltb_spec a (S k)); simpl; auto; try lia. }
    destruct (H (nrows m) (le_n _)) as (A & B & C & D). repeat split; auto; try lia.
    intros i j Hi Hj. rewrite D by lia. destruct (Nat.ltb_spec i (nrows m)); try lia. rewrite andb_true_r; auto.
  Qed.
  Lemma eye_throws m : nrows m <> ncols m -> mat_eye m = Throw InvalidArgument.
  Proof. intros. unfold mat_eye. destruct (Nat.eqb_spec (nrows m) (ncols m)); auto; lia. Qed.
End MatProofs2.
