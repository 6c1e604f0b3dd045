(** Normalisation of the data object over the reals. *)
From Coq Require Import Reals Lra List Arith Lia ZArith Bool Permutation.
From Verif Require Import Base StM Num RealNum RSpec VecModel MatModel MatLemmas MatSpec VecProofs VecReal MatProofs MatProofs2 MatReal BoundsModel DataModel DataSpec DataProofs.
Import ListNotations.
Local Open Scope R_scope.

(** box constraints usable for dimension d: set, of the right size, every range wider than the tolerance *)
Definition box_ok (ztol : R) (d : nat) (b : bnds R) : Prop :=
  b_set b = true /\ b_dim b = d /\ length (b_lo b) = d /\ length (b_up b) = d /\ 0 <= ztol /\
  forall j, (j < d)%nat -> ztol < nth j (b_up b) 0 - nth j (b_lo b) 0.
(** the position in the box, divided by the dimension *)
Definition unit_row (b : bnds R) (d : nat) (r : list R) : list R :=
  map (fun j => (nth j r 0 - nth j (b_lo b) 0) / (nth j (b_up b) 0 - nth j (b_lo b) 0) / INR d) (seq 0 d).
Definition stretch_row (b : bnds R) (d : nat) (r : list R) : list R :=
  map (fun j => nth j r 0 * ((nth j (b_up b) 0 - nth j (b_lo b) 0) * INR d)) (seq 0 d).

Lemma normalize_rows (m : mat R) b d ztol : box_ok ztol d b -> ncols m = d -> (0 < d)%nat ->
  exists m', mat_normalize m (b_lo b) (b_up b) = Ok m' /\ wf m' /\ nrows m' = nrows m /\ ncols m' = d /\ rows m' = map (unit_row b d) (rows m).
Proof.
  intros (_ & _ & Hl & Hu & Hz & Hb) Hc Hd.
  destruct (mat_normalize_ok m (b_lo b) (b_up b)) as (m' & E & W & Hr & Hc' & H); try lia.
  { rewrite Hc. intros j Hj. specialize (Hb j Hj). lra. }
  exists m'. split; auto. split; auto. split; auto. split. lia.
  apply (rows_eq _ _ []). rewrite map_length, rows_length; auto.
  intros i Hi. rewrite Hr in Hi. specialize (H i Hi). rewrite (nth_indep _ [] (unit_row b d [])) by (rewrite map_length, rows_length; auto).
  rewrite (map_nth (unit_row b d)). rewrite <- (nth_rows m' i []) by lia.
  rewrite nth_rows in * by lia. rewrite normalize_ok in H by (rewrite mrow_length; lia). injection H as H. rewrite <- H. rewrite mrow_length, Hc.
  unfold unit_row, vbuild. apply map_ext_in. intros j Hj. apply in_seq in Hj. unfold vget; simpl. specialize (Hb j ltac:(lia)).
  unfold nofnat; simpl. rewrite <- INR_IZR_INZ. pose proof (lt_0_INR d Hd). field. split; lra.
Qed.

Ltac dproj := cbn [d_n d_nt d_nv d_dim d_raw d_work d_val d_X d_Xraw d_grad d_gradraw d_y d_dd d_dirs d_Xrawtest d_Xtest d_ytest d_Xrawval d_Xval d_yval d_box d_ratio d_idx f_testf f_grad f_dd f_norm f_read f_testread] in *.
Ltac dstep := unfold sthrow_if, swhen, sassert, sbind, sget, smod, slift, sret, sthrow, set_n, set_nt, set_nv, set_dim, set_raw, set_work, set_val, set_X, set_Xraw, set_grad, set_gradraw, set_y, set_dd, set_dirs, set_test, set_Xval, set_yval, set_box, set_ratio, set_idx, set_flags, set_norm, set_read;
    dproj; cbn [negb andb orb]; cbn beta iota.

Lemma box_no_zeros ztol d b : box_ok ztol d b -> exists dx, vec_sub (b_up b) (b_lo b) = Ok dx /\ vec_has_zeros dx ztol = false.
Proof.
  intros (_ & _ & Hl & Hu & Hz & Hb). unfold vec_sub. rewrite Hl, Hu, Nat.eqb_refl. eexists. split; [reflexivity|].
  unfold vec_has_zeros. rewrite vbuild_length. destruct (existsb _ _) eqn:E; auto. apply existsb_seq in E. destruct E as (j & Hj & E).
  rewrite vget_vbuild in E by auto. specialize (Hb j Hj). unfold vget in E. simpl in E. apply Rleb_true in E.
  rewrite Rabs_right in E; lra.
Qed.

(** the state left by normalize *)
Record normalized (b : bnds R) (d : nat) (s s' : sdata R) : Prop := {
  z_dim : d_dim s' = d_dim s; z_n : d_n s' = d_n s; z_nv : d_nv s' = d_nv s; z_raw : d_raw s' = d_raw s; z_work : d_work s' = d_work s; z_val : d_val s' = d_val s;
  z_y : d_y s' = d_y s; z_yval : d_yval s' = d_yval s; z_box : d_box s' = d_box s; z_ratio : d_ratio s' = d_ratio s; z_Xraw : d_Xraw s' = d_Xraw s; z_Xrawval : d_Xrawval s' = d_Xrawval s;
  z_fg : f_grad s' = f_grad s; z_fd : f_dd s' = f_dd s; z_fr : f_read s' = f_read s; z_fn : f_norm s' = true;
  z_dirs : d_dirs s' = d_dirs s;
  z_X : wf (d_X s') /\ nrows (d_X s') = nrows (d_X s) /\ ncols (d_X s') = d /\ rows (d_X s') = map (unit_row b d) (rows (d_X s));
  z_Xval : (0 < d_nv s)%nat -> rows (d_Xval s') = map (unit_row b d) (rows (d_Xval s));
  z_Xval0 : d_nv s = 0%nat -> d_Xval s' = d_Xval s;
  z_dd : f_dd s = true -> d_dd s' = map (fun x => x * ((nth 0 (b_up b) 0 - nth 0 (b_lo b) 0) * INR d)) (d_dd s);
  z_grad : f_grad s = true -> d_gradraw s' = d_grad s /\ wf (d_grad s') /\ nrows (d_grad s') = nrows (d_grad s) /\ ncols (d_grad s') = d /\ rows (d_grad s') = map (stretch_row b d) (rows (d_grad s)) }.

Lemma vec_scale_map (v : list R) a : vec_scale v a = map (fun x => x * a) v.
Proof.
  unfold vec_scale, vbuild. apply (list_ext _ _ 0). rewrite !map_length, seq_length; auto.
  intros i Hi. rewrite map_length, seq_length in Hi. rewrite nth_map_seq by auto. unfold vget. simpl.
  rewrite (nth_indep (map _ _) 0 (0 * a)) by (rewrite map_length; auto). rewrite (map_nth (fun x => x * a)). reflexivity.
Qed.

Lemma gradloop (s : sdata R) (b : bnds R) d ztol k : box_ok ztol d b -> (0 < d)%nat -> (k <= d)%nat -> d_box s = b -> d_dim s = d -> wf (d_grad s) -> ncols (d_grad s) = d ->
  exists g, sloop k (fun i =>
      get s1 <-- sget (fun s => s);
      get u <-- slift (vec_at (b_up (d_box s1)) i); get l <-- slift (vec_at (b_lo (d_box s1)) i);
      let f := (u -! l) *! nofnat (d_dim s1) in
      run sassert (f >! n0);
      get c <-- slift (mat_getCol (d_grad s1) (Z.of_nat i));
      get g <-- slift (mat_setCol (d_grad s1) (vec_scale c f) i);
      smod (set_grad g)) s = (set_grad g s, Ok tt) /\ wf g /\ nrows g = nrows (d_grad s) /\ ncols g = d /\
    forall i j, (i < nrows (d_grad s))%nat -> (j < d)%nat ->
      mget g i j = if Nat.ltb j k then mget (d_grad s) i j * ((nth j (b_up b) 0 - nth j (b_lo b) 0) * INR d) else mget (d_grad s) i j.
Proof.
  intros (Bs & Bd & Bl & Bu & Bz & Bb) Hd Hk Eb Ed Hw Hc.
  set (F := fun i : nat => _). induction k as [|k IH].
  - exists (d_grad s). split. destruct s; reflexivity. repeat split; auto.
  - destruct IH as (g & E & Wg & Rg & Cg & H). lia.
    set (f := (nth k (b_up b) 0 - nth k (b_lo b) 0) * INR d).
    assert (length (vec_scale (nth k (cols g) []) f) = nrows g) as Hlen.
    { rewrite vec_scale_map, map_length, nth_cols by lia. apply mcol_length. }
    destruct (setCol_loop g (vec_scale (nth k (cols g) []) f) k (nrows g)) as (A1 & A2 & A3 & A4); auto; try lia.
    set (g' := loop _ _ _) in *.
    assert (mat_setCol g (vec_scale (nth k (cols g) []) f) k = Ok g') as Eg'.
    { unfold mat_setCol. destruct (Nat.leb_spec (ncols g) k); [lia|]. rewrite Hlen, Nat.eqb_refl. reflexivity. }
    exists g'. split.
    + change (sloop (S k) F s) with (sbind (sloop k F) (fun _ => F k) s). rewrite (sbind_ok _ _ _ _ _ E).
      unfold F. unfold sbind at 1, sget at 1. change (d_box (set_grad g s)) with (d_box s). rewrite Eb.
      unfold vec_at. rewrite Bu, Bl. destruct (Nat.leb_spec d k); [lia|]. unfold sbind at 1, slift at 1. unfold sbind at 1, slift at 1.
      change (d_dim (set_grad g s)) with (d_dim s). rewrite Ed. cbv zeta.
      replace ((vget (b_up b) k -! vget (b_lo b) k) *! nofnat d) with f.
      2: { unfold f, nofnat, vget; simpl. rewrite <- INR_IZR_INZ. reflexivity. }
      assert ((f >! n0) = true) as ->. { simpl. apply Rltb_true. unfold f. specialize (Bb k ltac:(lia)). pose proof (lt_0_INR d Hd). apply Rmult_lt_0_compat; lra. }
      unfold sassert. unfold sbind at 1, sret at 1. change (d_grad (set_grad g s)) with g. rewrite (getCol_ok g k) by (auto; lia).
      unfold sbind at 1, slift at 1. rewrite Eg'. reflexivity.
    + split; auto. split. lia. split. lia. intros i j Hi Hj. rewrite A4 by lia. rewrite H by auto.
      destruct (Nat.eqb_spec j k) as [->|Hne].
      * destruct (Nat.ltb_spec i (nrows g)); [|lia]. cbn [andb]. destruct (Nat.ltb_spec k (S k)); [|lia].
        rewrite vec_scale_map. unfold vget. change (@n0 R RNum) with 0. rewrite (nth_indep _ 0 (0 * f)) by (rewrite <- vec_scale_map, Hlen; auto). rewrite (map_nth (fun x => x * f)).
        rewrite nth_cols by lia. change (nth i (mcol g k) 0) with (vget (mcol g k) i). unfold mcol. rewrite vget_vbuild by auto. rewrite H by auto.
        destruct (Nat.ltb_spec k k); [lia|]. reflexivity.
      * cbn [andb]. destruct (Nat.ltb_spec j k), (Nat.ltb_spec j (S k)); auto; lia.
Qed.

Lemma normalize_data_ok ztol d (s : sdata R) : let b := d_box s in
  box_ok ztol d b -> (0 < d)%nat -> d_dim s = d -> f_read s = true -> nrows (d_X s) = d_n s -> ncols (d_X s) = d ->
  ((0 < d_nv s)%nat -> ncols (d_Xval s) = d) -> (f_grad s = true -> wf (d_grad s) /\ ncols (d_grad s) = d) ->
  exists s', data_normalize ztol s = (s', Ok tt) /\ normalized b d s s'.
Proof.
  intros b Hb Hd Ed Er Hn Hc Hv Hg. pose proof Hb as (Bs & Bd & Bl & Bu & Bz & Bb).
  destruct (normalize_rows (d_X s) b d ztol Hb Hc Hd) as (X' & EX & WX & RX & CX & HX).
  destruct (box_no_zeros _ _ _ Hb) as (dx & Edx & Hdx).
  assert (exists Xv', ((d_nv s = 0%nat /\ Xv' = d_Xval s) \/ ((0 < d_nv s)%nat /\ mat_normalize (d_Xval s) (b_lo b) (b_up b) = Ok Xv' /\ rows Xv' = map (unit_row b d) (rows (d_Xval s))))) as (Xv' & HXv).
  { destruct (Nat.eq_dec (d_nv s) 0). exists (d_Xval s); auto. destruct (normalize_rows (d_Xval s) b d ztol Hb (Hv ltac:(lia)) Hd) as (m & E1 & _ & _ & _ & E2). exists m. right. split; auto. lia. }
  unfold data_normalize. unfold sbind at 1, sget at 1. rewrite Er. fold b. rewrite Bs. unfold sassert at 1 2. unfold sbind at 1, sret at 1. unfold sbind at 1, sret at 1.
  set (s1 := set_norm true (if Nat.ltb 0 (d_nv s) then set_Xval (d_Xrawval s) Xv' (set_X X' s) else set_X X' s)).
  assert (data_normX ztol s = (s1, Ok tt)) as E1.
  { unfold data_normX. unfold sbind at 1, sget at 1. unfold sthrow_if. fold b. rewrite Hn, Hc, Ed, Bd, Bs, !Nat.eqb_refl. cbn [negb].
    do 4 (unfold sbind at 1, sret at 1). rewrite Edx. unfold sbind at 1, slift at 1. rewrite Hdx. unfold sbind at 1, sret at 1. rewrite EX. unfold sbind at 1, slift at 1. unfold sbind at 1, smod at 1.
    unfold s1. destruct HXv as [(H0 & ->)|(H0 & H1 & H2)].
    - rewrite H0. cbn [Nat.ltb Nat.leb]. reflexivity.
    - destruct (Nat.ltb_spec 0 (d_nv s)); [|lia]. unfold swhen, sbind, slift. rewrite H1. reflexivity. }
  rewrite (sbind_ok _ _ _ _ _ E1).
  assert (d_box s1 = b /\ f_read s1 = true /\ d_dim s1 = d /\ f_dd s1 = f_dd s /\ f_grad s1 = f_grad s /\ d_dd s1 = d_dd s /\ d_grad s1 = d_grad s) as (P1 & P2 & P3 & P4 & P5 & P6 & P7).
  { unfold s1. destruct (Nat.ltb 0 (d_nv s)); auto 10. }
  set (f0 := (nth 0 (b_up b) 0 - nth 0 (b_lo b) 0) * INR d).
  assert (data_normDD s1 = (if f_dd s then set_dd (vec_scale (d_dd s) f0) s1 else s1, Ok tt)) as E2.
  { unfold data_normDD. unfold sbind at 1, sget at 1. rewrite P4. destruct (f_dd s); [|reflexivity]. unfold swhen. rewrite P2, P1, Bs. unfold sassert at 1 2. do 2 (unfold sbind at 1, sret at 1).
    unfold vec_at. rewrite Bl, Bu. destruct (Nat.leb_spec d 0); [lia|]. do 2 (unfold sbind at 1, slift at 1). rewrite P3. cbv zeta.
    replace ((vget (b_up b) 0 -! vget (b_lo b) 0) *! nofnat d) with f0.
    2: { unfold f0, nofnat, vget; simpl. rewrite <- INR_IZR_INZ. reflexivity. }
    assert ((f0 >! n0) = true) as ->. { simpl. apply Rltb_true. unfold f0. specialize (Bb 0%nat ltac:(lia)). pose proof (lt_0_INR d Hd). apply Rmult_lt_0_compat; lra. }
    unfold sassert, sbind, sret, smod. rewrite P6. reflexivity. }
  rewrite (sbind_ok _ _ _ _ _ E2).
  set (s2 := if f_dd s then _ else _).
  assert (exists s3, swhen (f_grad s) data_normGrad s2 = (s3, Ok tt) /\
    (f_grad s = false -> s3 = s2) /\ (f_grad s = true -> exists g, s3 = set_grad g (set_gradraw (d_grad s) s2) /\ wf g /\ nrows g = nrows (d_grad s) /\ ncols g = d /\ rows g = map (stretch_row b d) (rows (d_grad s)))) as (s3 & E3 & H3a & H3b).
  { destruct (f_grad s) eqn:Eg.
    2: { exists s2. unfold swhen, sret. repeat split; auto. discriminate. }
    assert (d_box s2 = b /\ f_read s2 = true /\ d_dim s2 = d /\ d_grad s2 = d_grad s) as (Q1 & Q2 & Q3 & Q4) by (unfold s2; destruct (f_dd s); auto).
    destruct (Hg eq_refl) as [Hgw Hgc].
    unfold swhen, data_normGrad. unfold sbind at 1, sget at 1. rewrite Q1, Q2, Q3, Q4, Bs, Hgc, Nat.eqb_refl. destruct (Nat.ltb_spec 0 d); [|lia].
    unfold sassert at 1 2 3 4. do 4 (unfold sbind at 1, sret at 1). unfold sbind at 1, smod at 1.
    destruct (gradloop (set_gradraw (d_grad s) s2) b d ztol d Hb Hd (le_n _) Q1 Q3) as (g & G1 & G2 & G3 & G4 & G5).
    { change (d_grad (set_gradraw (d_grad s) s2)) with (d_grad s2). rewrite Q4; auto. }
    { change (d_grad (set_gradraw (d_grad s) s2)) with (d_grad s2). rewrite Q4; auto. }
    change (d_grad (set_gradraw (d_grad s) s2)) with (d_grad s2) in G3, G5. rewrite Q4 in G3, G5.
    eexists. split; [exact G1|]. split; [discriminate|]. intros _. exists g. repeat split; auto.
    apply (rows_eq _ _ []). rewrite map_length, rows_length; auto.
    intros i Hi. rewrite G3 in Hi. rewrite (nth_indep _ [] (stretch_row b d [])) by (rewrite map_length, rows_length; auto). rewrite (map_nth (stretch_row b d)), nth_rows by auto.
    unfold mrow, vbuild, stretch_row. rewrite G4, Hgc. apply map_ext_in. intros j Hj. apply in_seq in Hj. rewrite G5 by (auto; lia). destruct (Nat.ltb_spec j d); [|lia].
    f_equal. rewrite nth_map_seq by lia. reflexivity. }
  rewrite (sbind_ok _ _ _ _ _ E3). unfold smod. eexists. split; [reflexivity|].
  assert (forall (A : Type) (p : sdata R -> A), (forall g gr z, p (set_grad g (set_gradraw gr z)) = p z) -> p s3 = p s2) as K3.
  { intros A p Hp. destruct (f_grad s). destruct (H3b eq_refl) as (g & -> & _). apply Hp. rewrite H3a; auto. }
  assert (forall (A : Type) (p : sdata R -> A), (forall v z, p (set_dd v z) = p z) -> p s2 = p s1) as K2.
  { intros A p Hp. unfold s2. destruct (f_dd s); auto. }
  assert (forall (A : Type) (p : sdata R -> A), (forall x xr z, p (set_Xval xr x z) = p z) -> (forall v z, p (set_norm v z) = p z) -> p s1 = p (set_X X' s)) as K1.
  { intros A p Hp Hq. unfold s1. rewrite Hq. destruct (Nat.ltb 0 (d_nv s)); auto. }
  constructor; try (match goal with |- ?p (set_norm true s3) = ?p s => change (p s3 = p s); rewrite (K3 _ p) by reflexivity; rewrite (K2 _ p) by reflexivity; rewrite (K1 _ p) by reflexivity; reflexivity end).
  - change (d_Xrawval s3 = d_Xrawval s). rewrite (K3 _ d_Xrawval), (K2 _ d_Xrawval) by reflexivity. unfold s1. destruct (Nat.ltb 0 (d_nv s)); reflexivity.
  - reflexivity.
  - change (d_X (set_norm true s3)) with (d_X s3). rewrite (K3 _ d_X), (K2 _ d_X), (K1 _ d_X) by reflexivity. auto.
  - intros H0. change (d_Xval (set_norm true s3)) with (d_Xval s3). rewrite (K3 _ d_Xval), (K2 _ d_Xval) by reflexivity. unfold s1. destruct (Nat.ltb_spec 0 (d_nv s)); [|lia].
    destruct HXv as [(H1 & _)|(_ & _ & H2)]; [lia|]. exact H2.
  - intros H0. change (d_Xval (set_norm true s3)) with (d_Xval s3). rewrite (K3 _ d_Xval), (K2 _ d_Xval) by reflexivity. unfold s1. destruct (Nat.ltb_spec 0 (d_nv s)); [lia|]. reflexivity.
  - intros Hdd. change (d_dd (set_norm true s3)) with (d_dd s3). rewrite (K3 _ d_dd) by reflexivity. unfold s2. rewrite Hdd. change (vec_scale (d_dd s) f0 = map (fun x => x * f0) (d_dd s)). apply vec_scale_map.
  - intros Hgg. destruct (H3b Hgg) as (g & -> & G). split; auto.
Qed.
