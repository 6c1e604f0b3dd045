(** Proofs about SurrogateModelData. *)
From Coq Require Import List Arith Lia ZArith Bool Permutation.
From Verif Require Import Base StM Num VecModel MatModel MatLemmas MatSpec VecProofs MatProofs MatProofs2 BoundsModel DataModel DataSpec.
Import ListNotations.

Section DataProofs.
  Context {T : Type} {NT : Num T}.

  Lemma nth_firstn_lt {A} k (l : list A) i d : i < k -> nth i (firstn k l) d = nth i l d.
  Proof. revert k i. induction l; intros [|k] [|i] H; simpl; auto; try lia. apply IHl. lia. Qed.
  Lemma nth_skipn {A} k (l : list A) i d : nth i (skipn k l) d = nth (k + i) l d.
  Proof. revert k. induction l; intros [|k]; simpl; auto. destruct i; auto. Qed.

  Lemma submat_rows (m : mat T) c0 d : 0 < nrows m -> 0 < d -> c0 + d <= ncols m ->
    exists m', mat_submat m 0 (nrows m - 1) c0 (c0 + d - 1) = Ok m' /\ wf m' /\ nrows m' = nrows m /\ ncols m' = d /\
      rows m' = map (fun r => firstn d (skipn c0 r)) (rows m).
  Proof.
    intros Hn Hd Hc. destruct (submat_ok m 0 (nrows m - 1) c0 (c0 + d - 1)) as (m' & E & W & R & C & H); try lia.
    exists m'. split; auto. split; auto. split. lia. split. lia.
    apply (rows_eq _ _ []). rewrite map_length, rows_length. lia.
    intros i Hi. rewrite (nth_indep _ [] (firstn d (skipn c0 [])));[|rewrite map_length, rows_length; lia].
    rewrite (map_nth (fun r => firstn d (skipn c0 r))). rewrite nth_rows by lia.
    symmetry. apply mrow_ext.
    - rewrite firstn_length, skipn_length, mrow_length. lia.
    - intros j Hj. rewrite H by lia. unfold vget. rewrite nth_firstn_lt, nth_skipn by lia. change (nth (c0 + j) (mrow m i) n0) with (vget (mrow m i) (c0 + j)).
      rewrite vget_mrow by lia. reflexivity.
  Qed.
  Lemma getCol_rows (m : mat T) j : j < ncols m ->
    mat_getCol m (Z.of_nat j) = Ok (map (fun r => nth j r n0) (rows m)).
  Proof.
    intros Hj. rewrite (getCol_ok m j) by auto. f_equal. rewrite nth_cols by auto. apply vec_ext.
    - rewrite mcol_length, map_length, rows_length; auto.
    - intros i Hi. rewrite mcol_length in Hi. unfold mcol. rewrite vget_vbuild by auto. unfold vget.
      rewrite (nth_indep _ n0 ((fun r => nth j r n0) []));[|rewrite map_length, rows_length; lia].
      rewrite (map_nth (fun r => nth j r n0)). rewrite nth_rows by auto. change (nth j (mrow m i) n0) with (vget (mrow m i) j). rewrite vget_mrow; auto.
  Qed.

  (** monad steps *)
  Lemma sbind_ok {S A B} (m : SM S A) (f : A -> SM S B) s s1 a : m s = (s1, Ok a) -> sbind m f s = f a s1.
  Proof. intros E. unfold sbind. rewrite E. auto. Qed.

  Definition subm (m : mat T) (c0 d : nat) : mat T := match mat_submat m 0 (nrows m - 1) c0 (c0 + d - 1) with Ok m' => m' | _ => m end.

  (** the state after the assign* calls *)
  Record assigned (s s' : sdata T) : Prop := {
    a_dim : d_dim s' = d_dim s; a_n : d_n s' = d_n s; a_nv : d_nv s' = d_nv s;
    a_raw : d_raw s' = d_raw s; a_work : d_work s' = d_work s; a_val : d_val s' = d_val s;
    a_box : d_box s' = d_box s; a_ratio : d_ratio s' = d_ratio s;
    a_fg : f_grad s' = f_grad s; a_fd : f_dd s' = f_dd s; a_fr : f_read s' = f_read s;
    a_X : wf (d_X s') /\ nrows (d_X s') = d_n s /\ ncols (d_X s') = d_dim s /\ rows (d_X s') = inputs (d_dim s) (rows (d_work s));
    a_Xraw : d_Xraw s' = d_X s';
    a_y : d_y s' = outputs (d_dim s) (rows (d_work s));
    a_g : f_grad s = true -> wf (d_grad s') /\ nrows (d_grad s') = d_n s /\ ncols (d_grad s') = d_dim s /\ rows (d_grad s') = gradients (d_dim s) (rows (d_work s));
    a_dd : f_dd s = true -> d_dd s' = derivatives (d_dim s) (rows (d_work s)) /\ rows (d_dirs s') = directions (d_dim s) (rows (d_work s));
    a_v0 : d_nv s = 0 -> d_Xval s' = d_Xval s /\ d_Xrawval s' = d_Xrawval s /\ d_yval s' = d_yval s;
    a_v1 : 0 < d_nv s -> wf (d_Xval s') /\ nrows (d_Xval s') = d_nv s /\ ncols (d_Xval s') = d_dim s /\ d_Xrawval s' = d_Xval s' /\
      rows (d_Xval s') = firstn (d_nv s) (inputs (d_dim s) (rows (d_val s))) /\
      d_yval s' = outputs (d_dim s) (rows (d_val s)) }.

  Lemma submat_rows_top (m : mat T) k d : 0 < k -> k <= nrows m -> 0 < d -> d <= ncols m ->
    exists m', mat_submat m 0 (k - 1) 0 (d - 1) = Ok m' /\ wf m' /\ nrows m' = k /\ ncols m' = d /\
      rows m' = firstn k (inputs d (rows m)).
  Proof.
    intros Hk Hn Hd Hc. destruct (submat_ok m 0 (k - 1) 0 (d - 1)) as (m' & E & W & R & C & H); try lia.
    exists m'. split; auto. split; auto. split. lia. split. lia.
    apply (rows_eq _ _ []). unfold inputs. rewrite firstn_length, map_length, rows_length. lia.
    intros i Hi. rewrite nth_firstn_lt by lia. unfold inputs. rewrite (nth_indep _ [] (firstn d []));[|rewrite map_length, rows_length; lia].
    rewrite (map_nth (firstn d)). rewrite nth_rows by lia.
    symmetry. apply mrow_ext.
    - rewrite firstn_length, mrow_length. lia.
    - intros j Hj. rewrite H by lia. unfold vget. rewrite nth_firstn_lt by lia. change (nth j (mrow m i) n0) with (vget (mrow m i) j).
      rewrite vget_mrow by lia. reflexivity.
  Qed.

  Ltac dproj := cbn [d_n d_nt d_nv d_dim d_raw d_work d_val d_X d_Xraw d_grad d_gradraw d_y d_dd d_dirs d_Xrawtest d_Xtest d_ytest d_Xrawval d_Xval d_yval d_box d_ratio d_idx f_testf f_grad f_dd f_norm f_read f_testread] in *.
  Ltac dstep := unfold sthrow_if, swhen, sassert, sbind, sget, smod, slift, sret, sthrow, set_n, set_nt, set_nv, set_dim, set_raw, set_work, set_val, set_X, set_Xraw, set_grad, set_gradraw, set_y, set_dd, set_dirs, set_test, set_Xval, set_yval, set_box, set_ratio, set_idx, set_flags, set_norm, set_read;
    dproj; cbn [negb andb orb]; cbn beta iota.
  Ltac nz x := destruct (Nat.eqb_spec x 0); [lia|].
  Lemma assignAll_ok (s : sdata T) : 0 < d_dim s -> 0 < d_n s -> d_n s = nrows (d_work s) ->
    columns_ok (f_grad s) (f_dd s) (d_dim s) (ncols (d_work s)) -> (f_grad s && f_dd s = false)%bool ->
    (0 < d_nv s -> d_nv s <= nrows (d_val s) /\ d_dim s < ncols (d_val s)) ->
    exists s', data_assignAll s = (s', Ok tt) /\ assigned s s'.
  Proof.
    intros Hd Hn HN Hc Hgd Hv. destruct s as [n nt nv dim raw work val X Xraw g gr y dd dirs Xrt Xt yt Xrv Xv yv box ratio idx ft fg fd fn fr ftr].
    cbn [d_dim d_n d_work d_nv d_val f_grad f_dd] in *.
    assert (dim < ncols work) as Hcw by (destruct fg, fd; simpl in Hc; lia).
    destruct (submat_rows work 0 dim) as (X' & EX & WX & RX & CX & HX); try lia. simpl in EX.
    assert (exists Xv' yv', (nv = 0 /\ Xv' = Xv /\ yv' = yv) \/
       (0 < nv /\ mat_submat val 0 (nv - 1) 0 (dim - 1) = Ok Xv' /\ wf Xv' /\ nrows Xv' = nv /\ ncols Xv' = dim /\ rows Xv' = firstn nv (inputs dim (rows val)) /\
        mat_getCol val (Z.of_nat dim) = Ok yv' /\ yv' = outputs dim (rows val))) as (Xv' & yv' & Hval).
    { destruct (Nat.eq_dec nv 0) as [->|H0]. exists Xv, yv; auto.
      destruct (Hv ltac:(lia)) as [Hv1 Hv2]. destruct (submat_rows_top val nv dim) as (m' & E & A1 & A2 & A3 & A4); try lia.
      exists m', (outputs dim (rows val)). right. repeat split; auto. lia. rewrite getCol_rows; auto. }
    unfold data_assignAll.
    set (s0 := mkD n nt nv dim raw work val X Xraw g gr y dd dirs Xrt Xt yt Xrv Xv yv box ratio idx ft fg fd fn fr ftr).
    set (Xrv' := if Nat.ltb 0 nv then Xv' else Xrv).
    assert (data_assignX s0 = (mkD n nt nv dim raw work val X' X' g gr y dd dirs Xrt Xt yt Xrv' Xv' yv box ratio idx ft fg fd fn fr ftr, Ok tt)) as E1.
    { unfold data_assignX, s0. unfold data_check. dstep. nz dim. nz n. dstep. rewrite HN, EX. dstep.
      destruct Hval as [(H1 & H2 & H3)|(H1 & H2 & H3 & H4 & H5 & _)].
      - subst nv Xv' yv'. unfold Xrv'. cbn [Nat.ltb Nat.leb]. dstep. rewrite RX, CX, !Nat.eqb_refl. dstep. auto.
      - unfold Xrv'. destruct (Nat.ltb_spec 0 nv); [|lia]. dstep. rewrite H2. dstep. rewrite H4, H5, !Nat.eqb_refl. dstep. rewrite RX, CX, !Nat.eqb_refl. dstep. auto. }
    rewrite (sbind_ok _ _ _ _ _ E1).
    assert (data_assignY (mkD n nt nv dim raw work val X' X' g gr y dd dirs Xrt Xt yt Xrv' Xv' yv box ratio idx ft fg fd fn fr ftr)
            = (mkD n nt nv dim raw work val X' X' g gr (outputs dim (rows work)) dd dirs Xrt Xt yt Xrv' Xv' yv' box ratio idx ft fg fd fn fr ftr, Ok tt)) as E2.
    { unfold data_assignY, data_check. dstep. nz dim. nz n. dstep. rewrite getCol_rows by auto. dstep.
      destruct Hval as [(H1 & H2 & H3)|(H1 & H2 & H3 & H4 & H5 & _ & H6 & H7)].
      - subst nv Xv' yv'. cbn [Nat.ltb Nat.leb]. dstep. auto.
      - destruct (Nat.ltb_spec 0 nv); [|lia]. dstep. rewrite H6. dstep. auto. }
    rewrite (sbind_ok _ _ _ _ _ E2).
    assert (exists g', data_assignGrad (mkD n nt nv dim raw work val X' X' g gr (outputs dim (rows work)) dd dirs Xrt Xt yt Xrv' Xv' yv' box ratio idx ft fg fd fn fr ftr)
            = (mkD n nt nv dim raw work val X' X' g' gr (outputs dim (rows work)) dd dirs Xrt Xt yt Xrv' Xv' yv' box ratio idx ft fg fd fn fr ftr, Ok tt) /\
            (fg = true -> wf g' /\ nrows g' = n /\ ncols g' = dim /\ rows g' = gradients dim (rows work))) as (g' & E3 & Hg).
    { unfold data_assignGrad, data_check. dstep. nz dim. nz n. dstep. destruct fg; dstep.
      2: { exists g. split; auto. discriminate. }
      destruct (Nat.leb_spec (ncols work) (dim + 1)). simpl in Hc; lia. dstep.
      destruct (submat_rows work (dim + 1) dim) as (g' & Eg & A1 & A2 & A3 & A4); try (simpl in Hc; lia).
      exists g'. rewrite HN. replace (2 * dim) with (dim + 1 + dim - 1) by lia. rewrite Eg. dstep. split; auto. }
    rewrite (sbind_ok _ _ _ _ _ E3).
    assert (exists dd', data_assignDD (mkD n nt nv dim raw work val X' X' g' gr (outputs dim (rows work)) dd dirs Xrt Xt yt Xrv' Xv' yv' box ratio idx ft fg fd fn fr ftr)
            = (mkD n nt nv dim raw work val X' X' g' gr (outputs dim (rows work)) dd' dirs Xrt Xt yt Xrv' Xv' yv' box ratio idx ft fg fd fn fr ftr, Ok tt) /\
            (fd = true -> dd' = derivatives dim (rows work))) as (dd' & E4 & Hdd).
    { unfold data_assignDD. dstep. destruct (Nat.ltb_spec 0 dim); [|lia]. dstep. destruct fd; dstep.
      2: { exists dd; split; auto; discriminate. }
      rewrite getCol_rows by (destruct fg; simpl in Hc, Hgd; [discriminate|lia]). dstep. eexists; split; auto. }
    rewrite (sbind_ok _ _ _ _ _ E4).
    assert (exists dirs', data_assignDirs (mkD n nt nv dim raw work val X' X' g' gr (outputs dim (rows work)) dd' dirs Xrt Xt yt Xrv' Xv' yv' box ratio idx ft fg fd fn fr ftr)
            = (mkD n nt nv dim raw work val X' X' g' gr (outputs dim (rows work)) dd' dirs' Xrt Xt yt Xrv' Xv' yv' box ratio idx ft fg fd fn fr ftr, Ok tt) /\
            (fd = true -> rows dirs' = directions dim (rows work))) as (dirs' & E5 & Hdirs).
    { unfold data_assignDirs, data_check. dstep. nz dim. nz n. dstep. destruct fd; dstep.
      2: { exists dirs; split; auto; discriminate. }
      destruct fg; [discriminate|]. destruct (submat_rows work (dim + 2) dim) as (g'' & Eg & A1 & A2 & A3 & A4); try (simpl in Hc; lia).
      exists g''. rewrite HN. replace (2 * dim + 1) with (dim + 2 + dim - 1) by lia. rewrite Eg. dstep. split; auto. }
    rewrite E5. eexists. split; [reflexivity|].
    constructor; unfold s0; dproj; auto.
    - rewrite RX. split; auto.
    - intros H0. destruct Hval as [(H1 & H2 & H3)|(H1 & _)]; [|lia]. unfold Xrv'. rewrite H1. cbn [Nat.ltb Nat.leb]. auto.
    - intros Hnv. destruct Hval as [(H1 & H2 & H3)|(H1 & H2 & H3 & H4 & H5 & H6 & H7 & H8)]; [lia|]. unfold Xrv'.
      destruct (Nat.ltb_spec 0 nv); [|lia]. repeat split; auto.
  Qed.

  (** *** the split *)
  Lemma existsb_of_nat k ix : existsb (Z.eqb (Z.of_nat k)) (map Z.of_nat ix) = existsb (Nat.eqb k) ix.
  Proof. induction ix; simpl; auto. rewrite IHix. f_equal. destruct (Z.eqb_spec (Z.of_nat k) (Z.of_nat a)), (Nat.eqb_spec k a); auto; lia. Qed.
  Lemma drop_unpicked ix (rs : list (list T)) : drop_indices (map Z.of_nat ix) 0 rs = unpicked ix rs.
  Proof.
    unfold unpicked. generalize 0. induction rs as [|r rs IH]; intros k; simpl; auto.
    rewrite existsb_of_nat. replace (k + 1) with (S k) by lia. destruct (existsb (Nat.eqb k) ix); simpl; rewrite IH; auto.
  Qed.
  Lemma picked_perm (l : list nat) (rs : list (list T)) : picked l rs = map (fun i => nth i rs []) l.
  Proof. auto. Qed.
  Lemma filter_negb_perm {A} (f : A -> bool) l : Permutation l (filter f l ++ filter (fun x => negb (f x)) l).
  Proof.
    induction l as [|a l IH]; simpl; auto. destruct (f a); simpl. apply perm_skip, IH.
    apply Permutation_cons_app, IH.
  Qed.
  Lemma unpicked_map ix (rs : list (list T)) : unpicked ix rs = map (fun i => nth i rs []) (filter (fun i => negb (existsb (Nat.eqb i) ix)) (seq 0 (length rs))).
  Proof.
    rewrite <- drop_unpicked. rewrite (drop_indices_kept _ rs []).
    rewrite (filter_ext (keepIx (map Z.of_nat ix)) (fun i => negb (existsb (Nat.eqb i) ix))).
    2: { intros a. unfold keepIx. rewrite existsb_of_nat. auto. }
    apply map_ext. intros a. rewrite Nat.sub_0_r. auto.
  Qed.
  Lemma existsb_nat_In k ix : existsb (Nat.eqb k) ix = true <-> In k ix.
  Proof. rewrite existsb_exists. split. intros (x & Hx & E). apply Nat.eqb_eq in E; subst; auto. intros H; exists k; split; auto. apply Nat.eqb_refl. Qed.
  Lemma split_perm ix (rs : list (list T)) : NoDup ix -> (forall i, In i ix -> i < length rs) ->
    Permutation (unpicked ix rs ++ picked ix rs) rs.
  Proof.
    intros Hnd Hlt. rewrite unpicked_map. unfold picked. rewrite <- map_app.
    assert (Permutation (filter (fun i => negb (existsb (Nat.eqb i) ix)) (seq 0 (length rs)) ++ ix) (seq 0 (length rs))) as P.
    { rewrite Permutation_app_comm. symmetry. rewrite (filter_negb_perm (fun i => existsb (Nat.eqb i) ix)) at 1.
      apply Permutation_app_tail. apply NoDup_Permutation; auto. apply NoDup_filter, seq_NoDup.
      intros x. rewrite filter_In, existsb_nat_In, in_seq. split. tauto. intros H; split; auto. split. lia. apply Hlt in H. lia. }
    rewrite P. replace rs with (map (fun i => nth i rs []) (seq 0 (length rs))) at 2. auto.
    apply (list_ext _ _ []). rewrite map_length, seq_length; auto.
    intros i Hi. rewrite map_length, seq_length in Hi. rewrite nth_map_seq; auto.
  Qed.
  Lemma unpicked_length ix (rs : list (list T)) : NoDup ix -> (forall i, In i ix -> i < length rs) -> length (unpicked ix rs) = length rs - length ix.
  Proof. intros H1 H2. pose proof (Permutation_length (split_perm ix rs H1 H2)) as E. rewrite app_length in E. unfold picked in E. rewrite map_length in E. lia. Qed.

  (** the validation rows are appended one after the other *)
  Lemma addVal_loop (file : mat T) ix : table file -> 0 < ncols file -> forall s, table (d_val s) ->
    (nrows (d_val s) = 0 \/ ncols (d_val s) = ncols file) -> (forall i, In i ix -> i < nrows file) ->
    exists v, sfor (map Z.of_nat ix) (fun i => get r <-- slift (mat_getRow file i); data_addVal r) s = (set_val v s, Ok tt) /\
      table v /\ rows v = rows (d_val s) ++ picked ix (rows file) /\ (ix <> [] -> ncols v = ncols file) /\ (ix = [] -> v = d_val s).
  Proof.
    intros Ht Hc. induction ix as [|i ix IH]; intros s Hv Hcv Hin.
    - exists (d_val s). simpl. split. unfold sret. destruct s; reflexivity. rewrite app_nil_r. split; auto. split; auto. split; auto. congruence.
    - assert (i < nrows file) as Hi by (apply Hin; simpl; auto).
      set (F := fun i : Z => _) in *. change (sfor (map Z.of_nat (i :: ix)) F s) with (sbind (F (Z.of_nat i)) (fun _ => sfor (map Z.of_nat ix) F) s).
      set (r := nth i (rows file) []).
      assert (length r = ncols file) as Hr by (unfold r; rewrite nth_rows by auto; apply mrow_length).
      assert (r <> []) as Hr0 by (intros E; rewrite E in Hr; simpl in Hr; lia).
      pose proof (addRow_step (d_val s) r (-1) Hv ltac:(lia) Hr0) as HA. unfold spec_rowop in HA. change ((-1 =? -1)%Z) with true in HA. cbv beta iota zeta in HA. rewrite Z.leb_refl in HA. cbn [andb] in HA. rewrite fits_rows in HA by auto.
      assert ((Nat.eqb (nrows (d_val s)) 0 || Nat.eqb (length r) (ncols (d_val s)))%bool = true) as Ef.
      { destruct Hcv as [->| ->]. auto. rewrite Hr, Nat.eqb_refl. apply orb_true_r. }
      rewrite Ef in HA. destruct HA as (m' & E & Tm & Rm & Cm). rewrite Nat2Z.id, rows_length in Rm.
      assert (F (Z.of_nat i) s = (set_val m' s, Ok tt)) as EF.
      { unfold F, sbind, slift. rewrite (getRow_ok file i) by auto. fold r. unfold data_addVal. rewrite E. auto. }
      rewrite (sbind_ok _ _ _ _ _ EF).
      destruct (IH (set_val m' s)) as (v & E1 & A1 & A2 & A3 & A4).
      + destruct s; auto.
      + right. destruct s; simpl. lia.
      + intros; apply Hin; simpl; auto.
      + exists v. rewrite E1. split. destruct s; auto. split; auto. split.
        * rewrite A2. assert (d_val (set_val m' s) = m') as -> by (destruct s; auto). rewrite Rm.
          unfold insert_at. rewrite <- (rows_length (d_val s)), firstn_all, skipn_all. rewrite <- app_assoc. reflexivity.
        * split. intros _. destruct ix. rewrite A4 by auto. destruct s; simpl. lia. apply A3. congruence. intros; congruence.
  Qed.
  Lemma zforall_in n ix : (forall i, In i ix -> i < n) -> forallb (fun i => (0 <=? i) && (i <? Z.of_nat n))%Z (map Z.of_nat ix) = true.
  Proof. intros H. apply forallb_forall. intros z Hz. apply in_map_iff in Hz as (i & <- & Hi). apply H in Hi. apply andb_true_iff. split. apply Z.leb_le; lia. apply Z.ltb_lt; lia. Qed.
  Lemma deleteWork_ok (work : mat T) ix : table work -> (forall i, In i ix -> i < nrows work) -> NoDup ix -> length ix < nrows work ->
    exists m', mat_deleteRows work (map Z.of_nat ix) = (m', Ok tt) /\ table m' /\ rows m' = unpicked ix (rows work) /\ ncols m' = ncols work /\ nrows m' = nrows work - length ix.
  Proof.
    intros Ht Hin Hnd Hl. pose proof (deleteRows_step work (map Z.of_nat ix) Ht) as HD. unfold spec_rowop in HD. rewrite rows_length, zforall_in in HD by auto.
    destruct HD as (m' & E & A & B & C). rewrite drop_unpicked in B. exists m'.
    assert (nrows m' = nrows work - length ix) as En by (rewrite <- rows_length, B, unpicked_length; rewrite ?rows_length; auto).
    repeat split; auto. apply A. apply A. apply C. lia.
  Qed.

  (** dimension found from the number of columns *)
  Lemma dim_of_columns g dd d c : (g && dd = false)%bool -> 0 < d -> columns_ok g dd d c ->
    (if g then (c - 1) / 2 else if dd then (c - 2) / 2 else c - 1) = d.
  Proof.
    intros Hgd Hd H. destruct g, dd; simpl in *; try discriminate; try lia.
    - symmetry. destruct H as [->| ->]; [apply (Nat.div_unique _ 2 d 0); lia|apply (Nat.div_unique _ 2 d 1); lia].
    - symmetry. destruct H as [->| ->]; [apply (Nat.div_unique _ 2 d 0); lia|apply (Nat.div_unique _ 2 d 1); lia].
  Qed.
  Lemma assignDimension_ok (s : sdata T) d : 0 < nrows (d_work s) -> 0 < d -> columns_ok (f_grad s) (f_dd s) d (ncols (d_work s)) -> (f_grad s && f_dd s = false)%bool ->
    d_dim s = 0 \/ d_dim s = d -> data_assignDimension s = (set_dim d s, Ok tt).
  Proof.
    intros Hn Hd Hc Hgd Hdim. unfold data_assignDimension.
    assert (0 < ncols (d_work s)) as H0 by (destruct (f_grad s), (f_dd s); simpl in *; try discriminate; lia).
    unfold sbind, sget, sthrow_if, smod, sret, sthrow, mat_isEmpty. nz (nrows (d_work s)). nz (ncols (d_work s)). cbn [orb].
    assert ((negb (f_grad s) && f_dd s && Nat.ltb (ncols (d_work s)) 2)%bool = false) as ->.
    { destruct (f_grad s), (f_dd s); simpl in *; auto. apply Nat.ltb_ge. lia. }
    rewrite (dim_of_columns _ _ d) by auto.
    assert ((Nat.ltb 0 (d_dim s) && negb (Nat.eqb d (d_dim s)))%bool = false) as ->; auto.
    destruct Hdim as [-> | ->]; auto. rewrite Nat.eqb_refl. apply andb_false_r.
  Qed.

  (** everything after the split: lines 143-169 *)
  Definition read_tail : SM (sdata T) unit :=
    run smod (fun s => set_n (nrows (d_work s)) s); run data_assignDimension; run data_assignAll; smod (set_read true).
  Lemma read_tail_ok (s : sdata T) d : 0 < nrows (d_work s) -> 0 < d -> columns_ok (f_grad s) (f_dd s) d (ncols (d_work s)) -> (f_grad s && f_dd s = false)%bool ->
    d_dim s = 0 \/ d_dim s = d -> (0 < d_nv s -> d_nv s <= nrows (d_val s) /\ d < ncols (d_val s)) ->
    exists s', read_tail s = (s', Ok tt) /\ f_read s' = true /\ assigned (set_dim d (set_n (nrows (d_work s)) s)) (set_read (f_read s) s').
  Proof.
    intros Hn Hd Hc Hgd Hdim Hv. unfold read_tail. unfold sbind at 1, smod at 1.
    rewrite (sbind_ok _ _ _ _ _ (assignDimension_ok (set_n (nrows (d_work s)) s) d Hn Hd Hc Hgd Hdim)).
    destruct (assignAll_ok (set_dim d (set_n (nrows (d_work s)) s))) as (s' & E & A); auto.
    rewrite (sbind_ok _ _ _ _ _ E). eexists. split; [reflexivity|]. split; auto.
    destruct A. constructor; auto.
  Qed.

  Lemma shows_assigned (s s' : sdata T) d : assigned s (set_read (f_read s) s') -> d_dim s = d -> d_n s = nrows (d_work s) -> shows_training s' d (rows (d_work s)).
  Proof.
    intros A <- Hn. destruct A. unfold shows_training. unfold set_read in *; dproj. rewrite rows_length. destruct a_X0 as (_ & _ & _ & HX). 
    rewrite a_Xraw0, a_fg0, a_fd0. repeat split; auto. congruence. apply a_g0. apply a_dd0; auto. apply a_dd0; auto.
  Qed.

  Lemma NoDup_firstn {A} k (l : list A) : NoDup l -> NoDup (firstn k l).
  Proof. intros H. rewrite <- (firstn_skipn k l) in H. revert H. generalize (firstn k l). intros l1. induction l1; simpl; intros H. constructor.
    inversion H; subst. constructor; auto. intros Hi. apply H2. apply in_or_app; auto. Qed.
  (** the whole call, ratio > 0 *)
  Lemma data_read_split (s : sdata T) file perm k d : table file -> 0 < d -> columns_ok (f_grad s) (f_dd s) d (ncols file) -> (f_grad s && f_dd s = false)%bool ->
    d_dim s = 0 \/ d_dim s = d -> (d_ratio s >! n0) = true -> val_count (nrows file) (d_ratio s) = Some k -> k < nrows file -> Permutation perm (seq 0 (nrows file)) ->
    table (d_val s) -> nrows (d_val s) = 0 \/ ncols (d_val s) = ncols file ->
    let ix := firstn k perm in let rs := rows file in
    exists s', data_read file perm s = (s', Ok tt) /\ shows_training s' d (unpicked ix rs) /\ d_raw s' = file /\ f_read s' = true /\
      f_grad s' = f_grad s /\ f_dd s' = f_dd s /\ d_box s' = d_box s /\ d_ratio s' = d_ratio s /\
      d_nv s' = k /\ table (d_val s') /\ rows (d_val s') = rows (d_val s) ++ picked ix rs /\ (0 < k -> ncols (d_val s') = ncols file) /\ (k = 0 -> d_val s' = d_val s) /\
      (0 < k -> rows (d_Xval s') = firstn k (inputs d (rows (d_val s'))) /\ rows (d_Xrawval s') = firstn k (inputs d (rows (d_val s'))) /\
                d_yval s' = outputs d (rows (d_val s')) /\ wf (d_Xval s') /\ nrows (d_Xval s') = k /\ ncols (d_Xval s') = d) /\
      wf (d_X s') /\ ncols (d_X s') = d /\ (f_grad s = true -> wf (d_grad s') /\ nrows (d_grad s') = d_n s' /\ ncols (d_grad s') = d).
  Proof.
    intros Ht Hd Hc Hgd Hdim Hr Hk Hkn Hp Htv Hcv ix rs.
    assert (length ix = k) as Hlix. { unfold ix. rewrite firstn_length, (Permutation_length Hp), seq_length. lia. }
    assert (NoDup ix) as Hnd. { apply (NoDup_firstn k). apply (Permutation_NoDup (Permutation_sym Hp)), seq_NoDup. }
    assert (forall i, In i ix -> i < nrows file) as Hin.
    { intros i Hi. assert (In i perm) as Hi' by (unfold ix in Hi; rewrite <- (firstn_skipn k perm); apply in_or_app; auto).
      apply (Permutation_in _ Hp) in Hi'. apply in_seq in Hi'. lia. }
    assert (0 < ncols file) as Hcf by (destruct (f_grad s), (f_dd s); simpl in *; try discriminate; lia).
    unfold data_read. unfold sbind at 1, sget at 1. rewrite (andb_comm (f_dd s)), Hgd. cbn [negb]. unfold sassert. unfold sbind at 1, sret at 1.
    unfold sbind at 1, smod at 1. unfold sbind at 1, smod at 1. rewrite Hr. unfold swhen at 1.
    set (s1 := set_work file (set_raw file s)).
    unfold val_indices. rewrite Hk. fold ix.
    destruct (addVal_loop file ix Ht Hcf (set_idx (map Z.of_nat ix) (set_n (nrows file) s1))) as (v & Ev & Tv & Rv & Cv & Cv0); auto.
    destruct (deleteWork_ok file ix Ht Hin Hnd ltac:(lia)) as (w & Ew & Tw & Rw & Cw & Nw).
    set (s2 := set_work w (set_nv k (set_val v (set_idx (map Z.of_nat ix) (set_n (nrows file) s1))))).
    match goal with |- context [sbind ?m ?f s1] => assert (m s1 = (s2, Ok tt)) as EA end.
    { unfold sbind at 1, smod at 1. unfold sbind at 1, slift at 1. unfold sbind at 1, smod at 1.
      rewrite (sbind_ok _ _ _ _ _ Ev). unfold sbind, smod. unfold data_deleteWork. rewrite map_length, Hlix.
      change (d_work _) with file. rewrite Ew. reflexivity. }
    rewrite (sbind_ok _ _ _ _ _ EA). clear EA.
    change (exists s' : sdata T, read_tail s2 = (s', Ok tt) /\ _) with (exists s', read_tail s2 = (s', Ok tt) /\ (fun s' => _) s').
    destruct (read_tail_ok s2 d) as (s' & E' & Fr & A); auto.
    - change (0 < nrows w). lia.
    - change (columns_ok (f_grad s) (f_dd s) d (ncols w)). rewrite Cw. auto.
    - change (d_nv s2) with k. change (d_val s2) with v. intros Hk0. rewrite Cv. 2: { intros E. rewrite E in Hlix. simpl in Hlix. lia. }
      split. rewrite <- rows_length, Rv, app_length. unfold picked. rewrite map_length. lia.
      destruct (f_grad s), (f_dd s); simpl in *; try discriminate; lia.
    - exists s'. split; auto. cbv beta.
      pose proof A as A'. change (f_read s2) with (f_read (set_dim d (set_n (nrows (d_work s2)) s2))) in A'. apply shows_assigned with (d := d) in A'; auto.
      change (rows (d_work (set_dim d (set_n (nrows (d_work s2)) s2)))) with (rows w) in A'. rewrite Rw in A'.
      split; [exact A'|]. destruct A. unfold set_read, set_dim, set_n in *; dproj.
      change (d_nv s2) with k in *. change (d_val s2) with v in *. rewrite a_val0, a_nv0.
      split; [exact a_raw0|]. split; auto. split; [exact a_fg0|]. split; [exact a_fd0|]. split; [exact a_box0|]. split; [exact a_ratio0|]. split; auto. split; auto.
      split. { rewrite Rv. reflexivity. }
      split. { intros Hk0. apply Cv. intros E. rewrite E in Hlix. simpl in Hlix. lia. }
      split. { intros ->. apply Cv0. destruct ix; auto. simpl in Hlix; lia. }
      split. { intros Hk0. destruct (a_v3 Hk0) as (B1 & B2 & B3 & B4 & B5 & B6). rewrite B4. auto 10. }
      destruct a_X0 as (B1 & B2 & B3 & B4). split; auto. split; auto.
      intros Hg. destruct (a_g0 Hg) as (G1 & G2 & G3 & G4). rewrite a_n0. auto.
  Qed.

  (** the whole call, no validation *)
  Lemma data_read_plain (s : sdata T) file perm d : wf file -> 0 < nrows file -> 0 < d -> columns_ok (f_grad s) (f_dd s) d (ncols file) -> (f_grad s && f_dd s = false)%bool ->
    d_dim s = 0 \/ d_dim s = d -> (d_ratio s >! n0) = false -> d_nv s = 0 ->
    exists s', data_read file perm s = (s', Ok tt) /\ shows_training s' d (rows file) /\ d_raw s' = file /\ f_read s' = true /\
      f_grad s' = f_grad s /\ f_dd s' = f_dd s /\ d_box s' = d_box s /\ d_ratio s' = d_ratio s /\ d_nv s' = 0 /\ d_val s' = d_val s /\
      wf (d_X s') /\ ncols (d_X s') = d /\ (f_grad s = true -> wf (d_grad s') /\ nrows (d_grad s') = d_n s' /\ ncols (d_grad s') = d).
  Proof.
    intros Hw Hn Hd Hc Hgd Hdim Hr Hnv. unfold data_read. unfold sbind at 1, sget at 1. rewrite (andb_comm (f_dd s)), Hgd. cbn [negb]. unfold sassert. unfold sbind at 1, sret at 1.
    unfold sbind at 1, smod at 1. unfold sbind at 1, smod at 1. rewrite Hr. unfold swhen at 1. unfold sbind at 1, sret at 1.
    set (s2 := set_work file (set_raw file s)).
    change (exists s' : sdata T, read_tail s2 = (s', Ok tt) /\ _) with (exists s', read_tail s2 = (s', Ok tt) /\ (fun s' => _) s').
    destruct (read_tail_ok s2 d) as (s' & E' & Fr & A); auto.
    - change (d_nv s2) with (d_nv s). lia.
    - exists s'. split; auto. cbv beta.
      pose proof A as A'. change (f_read s2) with (f_read (set_dim d (set_n (nrows (d_work s2)) s2))) in A'. apply shows_assigned with (d := d) in A'; auto.
      change (rows (d_work (set_dim d (set_n (nrows (d_work s2)) s2)))) with (rows file) in A'.
      split; [exact A'|]. destruct A. unfold set_read, set_dim, set_n in *; dproj. rewrite a_nv0.
      change (d_nv s2) with (d_nv s). split; [exact a_raw0|]. split; auto. split; [exact a_fg0|]. split; [exact a_fd0|]. split; [exact a_box0|]. split; [exact a_ratio0|]. split; auto. split; [exact a_val0|].
      destruct a_X0 as (B1 & B2 & B3 & B4). split; auto. split; auto.
      intros Hg. destruct (a_g0 Hg) as (G1 & G2 & G3 & G4). rewrite a_n0. auto.
  Qed.
End DataProofs.
