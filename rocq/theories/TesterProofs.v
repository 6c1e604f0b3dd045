(** The table of results of a test. *)
From Coq Require Import Ascii String ZArith Bool Arith Permutation Reals Lra List Lia.
From Verif Require Import Base StM Num RealNum RSpec VecModel MatModel MatLemmas MatSpec VecProofs VecReal MatProofs MatProofs2 LuProofs StrModel StrSpec StrReal ExtModel ExtProofs BoundsModel CorrModel CorrSpec DataModel DataSpec DataProofs DataReal
  KrigModel KrigSpec KrigMath KrigProofs KrigProofs2 KrigProofs3 KrigProg KrigProofs4 KrigProofs5 PropsStat EaModel TrainModel TrainReal CsvModel CsvSpec CsvProofs RunFileModel RunFileSpec RunFileText TesterModel TesterSpec TesterFrame.
Import ListNotations.
Local Open Scope R_scope.

Lemma nth_repeat_lt {A} (x dd : A) n i : (i < n)%nat -> nth i (repeat x n) dd = x.
Proof. revert i. induction n; intros i Hi; [lia|]. destruct i; cbn; auto. apply IHn. lia. Qed.
Lemma firstn_snoc {A} (l : list A) k dd : (k < length l)%nat -> firstn (S k) l = firstn k l ++ [nth k l dd].
Proof. revert k. induction l; intros k Hk; cbn in Hk; [lia|]. destruct k; cbn; auto. f_equal. apply IHl. lia. Qed.
Lemma scaled_length b d r : length (scaled b d r) = d.
Proof. unfold scaled, unit_row. now rewrite map_length, seq_length. Qed.
(** reading and scaling the test data *)
Record test_ready (d : nat) (b : bnds R) (tfile : mat R) (tf : bool) (t : tdata R) : Prop := {
  tr_nt : o_nt t = nrows tfile; tr_raw : o_xr t = tfile; tr_X : rows (o_x t) = map (scaled b d) (rows tfile); tr_tf : o_tf t = tf; tr_read : o_tr t = true }.
Definition has_values (d : nat) (tfile : mat R) (old : bool) : bool := Nat.eqb (ncols tfile) (S d) || old.
Lemma readTest_ok (s : sdata R) d tfile b : d_dim s = d -> (0 < d)%nat -> table tfile -> (0 < nrows tfile)%nat -> ncols tfile = S d \/ ncols tfile = d -> box_ok ztol d b ->
  exists t0 t1, data_readTest tfile s = (dt t0 s, Ok tt) /\ test_ready d b tfile (has_values d tfile (f_testf s)) t1 /\
    forall s', d_box s' = b -> data_normTest zero_tol (dt t0 s') = (dt t1 s', Ok tt).
Proof.
  intros Hd Hd0 Ht Hn Hc Hb. destruct (box_no_zeros _ _ _ Hb) as (dx & Edx & Hdx). pose proof Hb as (Bs & Bd & Bl & Bu & Bz & Bb).
  assert (exists X y tf, data_readTest tfile s = (dt (mkTv (nrows tfile) tfile X y tf true) s, Ok tt) /\ ncols X = d /\ rows X = inputs d (rows tfile) /\ tf = has_values d tfile (f_testf s)) as (X & y & tf & E & HXc & HX & Htf).
  { unfold data_readTest. unfold sbind at 1, sget at 1. unfold sthrow_if. rewrite Hd. destruct (Nat.eqb_spec d 0); [lia|]. unfold sbind at 1, sret at 1. unfold sbind at 1, smod at 1. unfold has_values.
    destruct (Nat.eqb_spec (ncols tfile) (d + 1)) as [E1|E1].
    - destruct (submat_rows tfile 0 d) as (X & EX & WX & RX & CX & HX); try lia. simpl in EX.
      exists X, (outputs d (rows tfile)), true. rewrite getCol_rows by lia. unfold sbind, slift, smod.
      rewrite EX. split; [reflexivity|]. split; [lia|]. split; auto. destruct (Nat.eqb_spec (ncols tfile) (S d)); auto; lia.
    - destruct (Nat.eqb_spec (ncols tfile) d) as [E2|E2]; [|lia]. exists tfile, (d_ytest s), (f_testf s). unfold smod. split. reflexivity. split; auto. split.
      + unfold inputs. rewrite <- (map_id (rows tfile)) at 1. apply map_ext_in. intros r Hr. rewrite firstn_all2; auto.
        apply (In_nth _ _ []) in Hr. destruct Hr as (i & Hi & <-). rewrite rows_length in Hi. rewrite nth_rows by auto. rewrite mrow_length. lia.
      + destruct (Nat.eqb_spec (ncols tfile) (S d)); auto; lia. }
  destruct (normalize_rows X b d _ Hb HXc Hd0) as (X' & EX' & WX' & RX' & CX' & HX').
  exists (mkTv (nrows tfile) tfile X y tf true), (mkTv (nrows tfile) tfile X' y tf true). split; auto. split.
  { constructor; auto. cbn [o_x]. rewrite HX', HX. unfold inputs. rewrite map_map. reflexivity. }
  intros s' Eb. rewrite zero_tol_eq. unfold data_normTest. unfold sbind at 1, sget at 1. unfold sthrow_if. change (d_box (dt ?t s')) with (d_box s'). rewrite Eb, Bs. cbn [negb].
  unfold sbind at 1, sret at 1. rewrite Edx. unfold sbind at 1, slift at 1. rewrite Hdx. unfold sbind at 1, sret at 1.
  change (d_Xtest (dt (mkTv (nrows tfile) tfile X y tf true) s')) with X. rewrite EX'. reflexivity.
Qed.

(** the loop over the test rows *)
Lemma rows_zero n c : rows (@mat_zero R RNum n c) = repeat (repeat 0 c) n.
Proof.
  unfold rows. cbn [nrows mat_zero]. apply (nth_ext _ _ [] []). now rewrite map_length, seq_length, repeat_length.
  intros i Hi. rewrite map_length, seq_length in Hi. rewrite nth_map_seq by auto. cbn [Nat.add]. rewrite nth_repeat_lt by auto.
  unfold mrow, vbuild. cbn [ncols mat_zero]. apply (nth_ext _ _ 0 0). now rewrite map_length, seq_length, repeat_length.
  intros j Hj. rewrite map_length, seq_length in Hj. rewrite nth_map_seq by auto. cbn [Nat.add]. rewrite mget_zero by auto. symmetry. apply nth_repeat_lt; auto.
Qed.
Lemma result_row_length d tf var b p r : (d <= length r)%nat -> length (result_row d tf var b p r) = (d + (if tf then 3 else 1) + (if var then 1 else 0))%nat.
Proof. intros H. unfold result_row. rewrite app_length, firstn_length, Nat.min_l by auto. destruct tf, var; cbn; lia. Qed.
Definition squared_errors d b (p : list R -> R * R) (rs : list (list R)) : list R := map (fun r => (nth d r 0 - fst (p (scaled b d r))) ^ 2) rs.
Section Table.
  Context (d : nat) (b : bnds R) (tfile : mat R) (tf var : bool) (s : sdata R) (p : list R -> R * R) (pred : vec R -> Res (R * R)).
  Context (D0 : (0 < d)%nat) (Ht : table tfile) (Hn : (0 < nrows tfile)%nat) (Hc : ncols tfile = S d \/ (ncols tfile = d /\ tf = false)) (Hs : d_dim s = d) (TR : test_ready d b tfile tf (test_of s)).
  Context (Hp : forall x, length x = d -> pred x = Ok (fst (p x), if var then snd (p x) else 0)).
  Lemma trow i : (i < nrows tfile)%nat -> length (nth i (rows tfile) []) = ncols tfile.
  Proof. intros H. rewrite nth_rows by auto. apply mrow_length. Qed.
  Lemma test_table_ok : exists m, test_table pred d s true var = Ok (m, if tf then squared_errors d b p (rows tfile) else []) /\
    rows m = map (result_row d tf var b p) (rows tfile) /\ ncols m = (d + (if tf then 3 else 1) + (if var then 1 else 0))%nat.
  Proof.
    destruct TR as [A1 A2 A3 A4 A5]. cbn [test_of o_nt o_xr o_x o_tf o_tr] in *. unfold test_table, test_columns. cbn [negb]. rewrite A4, A5, A2, A1, Hs.
    set (w := (d + (if tf then 3 else 1) + (if var then 1 else 0))%nat).
    assert (nrows (d_Xtest s) = nrows tfile) as Nx by (rewrite <- rows_length, A3, map_length; apply rows_length).
    assert (exists fe, (if tf then mat_getCol tfile (Z.of_nat d) else Ok []) = Ok fe /\ (tf = true -> fe = outputs d (rows tfile))) as (fe & -> & Hfe).
    { destruct tf; [|exists []; split; [reflexivity|discriminate]]. rewrite getCol_rows by (destruct Hc as [|[? ?]]; [lia|discriminate]). eauto. }
    cbn [bind].
    assert (forall k, (k <= nrows tfile)%nat -> exists m, loopR k (test_step pred d s fe var) (mat_zero (nrows tfile) w, []) =
      Ok (m, if tf then squared_errors d b p (firstn k (rows tfile)) else []) /\ table m /\ ncols m = w /\ rows m = map (result_row d tf var b p) (firstn k (rows tfile)) ++ repeat (repeat 0 w) (nrows tfile - k)) as L.
    { induction k; intros Hk.
      - exists (mat_zero (nrows tfile) w). split. { destruct tf; reflexivity. } split. { split. apply mat_zero_wf. cbn. unfold w. lia. } split; auto. cbn [firstn map app]. rewrite Nat.sub_0_r. apply rows_zero.
      - destruct IHk as (m & E & Tm & Cm & Rm). lia. cbn [loopR]. rewrite E. cbn [bind]. unfold test_step. rewrite Nx, A2. destruct (Nat.ltb_spec k (nrows tfile)) as [Lk|]; [|lia].
        rewrite (getRow_ok _ k) by lia. cbn [bind]. rewrite (getRow_ok _ k) by lia. cbn [bind].
        pose proof (trow k Lk) as Lr. set (r := nth k (rows tfile) []) in *.
        assert (nth k (rows (d_Xtest s)) [] = scaled b d r) as ->.
        { rewrite A3. rewrite (nth_indep _ [] (scaled b d [])) by (rewrite map_length, rows_length; auto). rewrite map_nth. reflexivity. }
        assert (d <= length r)%nat as Ld by (destruct Hc as [|[? ?]]; lia).
        unfold vec_head. replace (Nat.ltb (length r) d) with false by (symmetry; apply Nat.ltb_ge; auto). cbn [bind]. rewrite Hp by apply scaled_length. cbn [bind fst snd]. rewrite A4.
        set (f := fst (p (scaled b d r))).
        assert ((if tf then y <- vec_at fe k ;; Ok [y; (y -! f) *! (y -! f)] else Ok []) = Ok (if tf then [nth d r 0; (nth d r 0 - f) ^ 2] else [])) as ->.
        { destruct tf; auto. rewrite (Hfe eq_refl). unfold vec_at. rewrite outputs_length, rows_length. destruct (Nat.leb_spec (nrows tfile) k); [lia|]. cbn [bind]. f_equal. unfold vget, outputs.
          rewrite (nth_indep _ n0 (nth d [] n0)) by (rewrite map_length, rows_length; auto). rewrite (map_nth (fun r => nth d r n0)). fold r. f_equal. f_equal. simpl. ring. }
        cbn [bind].
        pose proof (setRow_step m (firstn d r ++ [f] ++ (if tf then [nth d r 0; (nth d r 0 - f) ^ 2] else []) ++ (if var then [if var then snd (p (scaled b d r)) else 0] else [])) k Tm) as SR.
        assert (firstn d r ++ [f] ++ (if tf then [nth d r 0; (nth d r 0 - f) ^ 2] else []) ++ (if var then [if var then snd (p (scaled b d r)) else 0] else []) = result_row d tf var b p r) as ER.
        { unfold result_row, f. destruct var; reflexivity. }
        rewrite ER in SR |- *. unfold spec_rowop in SR. rewrite fits_rows, rows_length in SR by auto.
        assert (nrows m = nrows tfile) as Nm. { rewrite <- rows_length, Rm, app_length, map_length, firstn_length, repeat_length, rows_length. lia. }
        rewrite Nm, result_row_length, Cm in SR by auto. fold w in SR. rewrite Nat.eqb_refl in SR. destruct (Nat.ltb_spec k (nrows tfile)); [|lia]. rewrite orb_true_r in SR. cbn [andb] in SR.
        destruct SR as (m' & Em & Tm' & Rm' & Cm'). rewrite Em. cbn [bind]. exists m'. 
        assert (firstn (S k) (rows tfile) = firstn k (rows tfile) ++ [r]) as FS. { unfold r. apply firstn_snoc. rewrite rows_length; auto. }
        split. { f_equal. f_equal. destruct tf; auto. rewrite FS. unfold squared_errors. rewrite map_app. reflexivity. }
        split; auto. split. congruence. rewrite Rm', Rm, FS, map_app. unfold replace_at.
        assert (length (map (result_row d tf var b p) (firstn k (rows tfile))) = k) as Lf by (rewrite map_length, firstn_length, rows_length; lia).
        rewrite firstn_app, Lf, Nat.sub_diag, firstn_all2 by lia. cbn [firstn]. rewrite app_nil_r.
        rewrite skipn_app, Lf, skipn_all2 by lia. replace (S k - k)%nat with 1%nat by lia. replace (nrows tfile - k)%nat with (S (nrows tfile - S k)) by lia. cbn [repeat skipn app map]. rewrite <- app_assoc. reflexivity. }
    destruct (L (nrows tfile) (le_n _)) as (m & E & _ & Cm & Rm). exists m. rewrite firstn_all2 in E, Rm by (rewrite rows_length; auto). rewrite Nat.sub_diag in Rm. cbn [repeat] in Rm. rewrite app_nil_r in Rm. auto.
  Qed.
End Table.
