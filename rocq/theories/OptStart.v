From Coq Require Import Reals Lra Lia Psatz List Arith Bool ZArith.
From Verif Require Import Base StM Num RealNum VecModel VecProofs VecProofs2 VecReal MatModel MatLemmas MatSpec MatProofs MatProofs2 BoundsModel DataProofs DesignModel HistModel HistSpec HistProofs KrigModel KrigProofs4 OptModel OptProofs OptRun OptSpec OptReal OptRunReal.
Import ListNotations.
Local Open Scope R_scope.

Lemma loopR_ok {S} (P : nat -> S -> Prop) n f s : P 0%nat s -> (forall k t, (k < n)%nat -> P k t -> exists t', f k t = Ok t' /\ P (Datatypes.S k) t') ->
  exists s', loopR n f s = Ok s' /\ P n s'.
Proof.
  intros H0. induction n as [|n IH]; intros HS; cbn [loopR]. eauto. destruct IH as (t & E & Ht). { intros; apply HS; auto. } rewrite E. cbn [bind]. apply HS; auto.
Qed.
Definition dims (N W : nat) (m : mat R) : Prop := wf m /\ nrows m = N /\ ncols m = W.
Lemma put_ok N W (m : mat R) i j x : dims N W m -> (i < N)%nat -> (j < W)%nat ->
  exists m', mat_put m i j x = Ok m' /\ dims N W m' /\ forall a b, (a < N)%nat -> mget m' a b = if (Nat.eqb i a && Nat.eqb j b)%bool then x else mget m a b.
Proof.
  intros (Wm & Hn & Hw) Hi Hj. unfold mat_put. destruct (Nat.leb_spec (nrows m) i); [lia|]. destruct (Nat.leb_spec (ncols m) j); [lia|]. cbn [orb].
  eexists. split; [reflexivity|]. split. { split; [|auto]. apply mset_wf; auto. } intros a b Ha. apply mget_mset; auto; lia.
Qed.
Lemma head_row N W (m : mat R) d i : dims N W m -> (i < N)%nat -> (d <= W)%nat -> vec_head (mrow m i) d = Ok (vbuild d (fun j => mget m i j)).
Proof.
  intros (Wm & Hn & Hw) Hi Hd. unfold vec_head. rewrite mrow_length. destruct (Nat.ltb_spec (ncols m) d); [lia|]. apply f_equal.
  apply (list_ext _ _ 0). rewrite firstn_length, mrow_length, vbuild_length. lia. intros j Hj. rewrite firstn_length, mrow_length in Hj. rewrite nth_firstn'. destruct (Nat.ltb_spec j d); [|lia].
  change (vget (mrow m i) j = vget (vbuild d (fun j => mget m i j)) j). rewrite vget_vbuild by auto. rewrite vget_mrow; auto; lia.
Qed.
Lemma vget_mcol (m : mat R) i j : (i < nrows m)%nat -> vget (mcol m j) i = mget m i j.
Proof. intros. unfold mcol. rewrite vget_vbuild; auto. Qed.
Lemma mcol_length (m : mat R) j : length (mcol m j) = nrows m.
Proof. unfold mcol. apply vbuild_length. Qed.
(** *** columns of the training data *)
Lemma copy_cols (td : mat R) N W d : wf td -> nrows td = N -> (d < ncols td)%nat -> (d + 1 <= W)%nat ->
  exists m, loopR (d + 1) (fun i m => v <- mat_getCol td (Z.of_nat i) ;; mat_setCol m v i) (mat_zero N W) = Ok m /\ dims N W m /\
    forall i j, (i < N)%nat -> (j < W)%nat -> mget m i j = if Nat.ltb j (d + 1) then mget td i j else 0.
Proof.
  intros Wt Hn Hd HW.
  apply (loopR_ok (fun k m => dims N W m /\ forall i j, (i < N)%nat -> (j < W)%nat -> mget m i j = if Nat.ltb j k then mget td i j else 0)).
  - split. { split. apply mat_zero_wf. auto. } intros i j Hi Hj. cbn [Nat.ltb Nat.leb]. rewrite mget_zero; auto.
  - intros k m Hk ((Wm & Nm & Cm) & G). rewrite (getCol_ok td k) by (auto; lia). cbn [bind].
    destruct (setCol_ok m (nth k (cols td) []) k) as (m' & E & W' & N' & C'); auto. lia. { rewrite nth_cols by lia. rewrite mcol_length. lia. }
    exists m'. split; auto. assert (ncols m' = W) as Cw. { rewrite <- cols_length, C', replace_at_length; rewrite cols_length; auto. lia. }
    split. { split; auto. split; auto; lia. } intros i j Hi Hj.
    assert (mget m' i j = nth i (nth j (cols m') []) 0) as ->. { rewrite nth_cols by lia. change (mget m' i j = vget (mcol m' j) i). rewrite vget_mcol; auto; lia. }
    rewrite C', nth_replace_at by (rewrite cols_length; lia). destruct (Nat.eqb_spec j k) as [->|Nj].
    + destruct (Nat.ltb_spec k (S k)); [|lia]. rewrite nth_cols by lia. change (vget (mcol td k) i = mget td i k). apply vget_mcol; lia.
    + rewrite nth_cols by lia. change (vget (mcol m j) i = if Nat.ltb j (S k) then mget td i j else 0). rewrite vget_mcol by lia. rewrite G by auto.
      destruct (Nat.ltb_spec j k), (Nat.ltb_spec j (S k)); auto; lia.
Qed.

(** *** constraint columns *)
Definition xrow (d : nat) (m : mat R) (i : nat) : list R := vbuild d (fun j => mget m i j).
Lemma xrow_rows N W d (m : mat R) i : dims N W m -> (i < N)%nat -> (d <= W)%nat -> xrow d m i = firstn d (nth i (rows m) []).
Proof.
  intros Hm Hi Hd. pose proof (head_row N W m d i Hm Hi Hd) as H. destruct Hm as (Wm & Hn & Hw). unfold vec_head in H. rewrite mrow_length in H. destruct (Nat.ltb_spec (ncols m) d); [lia|].
  injection H as H. unfold xrow. rewrite <- H, nth_rows by lia. reflexivity.
Qed.
Lemma submat_rows (m : mat R) d : wf m -> (0 < nrows m)%nat -> (0 < d <= ncols m)%nat ->
  exists xs, mat_submat m 0 (nrows m - 1) 0 (d - 1) = Ok xs /\ wf xs /\ nrows xs = nrows m /\ ncols xs = d /\ forall i, (i < nrows m)%nat -> nth i (rows xs) [] = firstn d (nth i (rows m) []).
Proof.
  intros Wm Hn Hd. destruct (submat_ok m 0 (nrows m - 1) 0 (d - 1)) as (xs & E & Wx & Nx & Cx & G); try lia. exists xs. split; auto. split; auto. split; [lia|]. split; [lia|].
  intros i Hi. assert (dims (nrows m) d xs) as Dx by (split; auto; lia). rewrite <- (firstn_all2 (n := d) (nth i (rows xs) [])). 2:{ rewrite nth_rows, mrow_length; lia. }
  rewrite <- (xrow_rows (nrows m) d d xs i Dx Hi ltac:(lia)). rewrite <- (xrow_rows (nrows m) (ncols m) d m i); auto; [|split; auto|lia]. unfold xrow, vbuild. apply map_ext_in. intros j Hj. apply in_seq in Hj. rewrite G by lia. reflexivity.
Qed.
Lemma lit8 : @nlit R RNum 1 (-8) = 1 / 10 ^ 8.
Proof. unfold nlit, RNum, Rlit. simpl. field. Qed.
Lemma lit15 : @nlit R RNum 1 15 = 10 ^ 15.
Proof. unfold nlit, RNum, Rlit. simpl. ring. Qed.
Lemma col_step c oc (W N : nat) (m : mat R) : In oc (c_cons c) -> (oc_id oc < length (c_cons c))%nat -> W = (c_dim c + 1 + length (c_cons c) + 2)%nat -> (0 < c_dim c)%nat -> dims N W m ->
  (if oc_user oc then forall i, (i < N)%nat -> isOk (oc_fun oc (xrow (c_dim c) m i)) = true else wf (oc_data oc) /\ (0 < nrows (oc_data oc))%nat /\ (c_dim c < ncols (oc_data oc))%nat) ->
  exists m', conColumn c oc m = Ok m' /\ dims N W m' /\ (forall i j, (i < N)%nat -> j <> (c_dim c + oc_id oc + 1)%nat -> mget m' i j = mget m i j) /\
    (forall i, (i < N)%nat -> start_value (c_dim c) oc (xrow (c_dim c) m i) (mget m' i (c_dim c + oc_id oc + 1))).
Proof.
  intros Hin Hid HW Hd Hm Hv. set (d := c_dim c) in *. set (J := (d + oc_id oc + 1)%nat).
  assert (forall (val : list R -> Res R) m0, dims N W m0 -> (forall i, (i < N)%nat -> exists v, val (xrow d m0 i) = Ok v /\ start_value d oc (xrow d m0 i) v) ->
    exists m', loopR N (fun i m => x <- vec_head (mrow m i) d ;; y <- val x ;; mat_put m i J y) m0 = Ok m' /\ dims N W m' /\ (forall i j, (i < N)%nat -> j <> J -> mget m' i j = mget m0 i j) /\
      (forall i, (i < N)%nat -> start_value d oc (xrow d m0 i) (mget m' i J))) as K.
  { intros val m0 D0 HV.
    destruct (loopR_ok (fun k m => dims N W m /\ (forall i j, (i < N)%nat -> j <> J -> mget m i j = mget m0 i j) /\ (forall i, (i < k)%nat -> start_value d oc (xrow d m0 i) (mget m i J))) N
      (fun i m => x <- vec_head (mrow m i) d ;; y <- val x ;; mat_put m i J y) m0) as (m' & E & D' & O' & V').
    - split; auto. split; auto. intros i Hi. lia.
    - intros k t Hk (Dt & Ot & Vt). rewrite (head_row N W t d k Dt Hk) by lia. cbn [bind].
      assert (vbuild d (fun j => mget t k j) = xrow d m0 k) as ->. { unfold xrow, vbuild. apply map_ext_in. intros j Hj. apply in_seq in Hj. apply Ot; auto. unfold J. lia. }
      destruct (HV k Hk) as (v & Ev & Sv). rewrite Ev. cbn [bind]. destruct (put_ok N W t k J v Dt Hk ltac:(unfold J; lia)) as (t' & E & D' & G'). exists t'. split; auto. split; auto. split.
      + intros i j Hi Hj. rewrite G' by auto. destruct (Nat.eqb_spec J j); [congruence|]. rewrite andb_false_r. auto.
      + intros i Hi. rewrite G' by lia. destruct (Nat.eqb_spec k i) as [->|]. rewrite Nat.eqb_refl. auto. cbn [andb]. apply Vt. lia.
    - exists m'. auto. }
  unfold conColumn. destruct (Nat.leb_spec (length (c_cons c)) (oc_id oc)); [lia|]. fold d. pose proof Hm as (Wm & Nm & Cm). destruct (oc_user oc) eqn:Eu.
  - rewrite Nm. apply K; auto. intros i Hi. specialize (Hv i Hi). unfold start_value. rewrite Eu. destruct (oc_fun oc (xrow d m i)) eqn:E; try discriminate Hv. eauto.
  - destruct Hv as (Wd & Nd & Cd). destruct (submat_rows (oc_data oc) d Wd Nd ltac:(lia)) as (xs & Es & Wx & Nx & Cx & Rx). rewrite Es. cbn [bind]. rewrite Nm.
    destruct (K (fun x => ix <- mat_findRowIndex xs x (nlit 1 (-8)) ;; (if (0 <=? ix)%Z then mat_at (oc_data oc) (Z.to_nat ix) d else Ok (if oc_gt oc then nopp (nlit 1 15) else nlit 1 15))) m) as (m' & E & Q); auto.
    + intros i Hi. set (x := xrow d m i). assert (length x = d) as Lx by apply vbuild_length. unfold start_value. rewrite Eu.
      destruct (find_row xs x (nlit 1 (-8)) Wx ltac:(lia)) as [(k & Ek & Hk & M)|(Ek & M)]; rewrite Ek; cbn [bind].
      * destruct (Z.leb_spec 0 (Z.of_nat k)); [|lia]. rewrite Nat2Z.id. unfold mat_at. destruct (Nat.leb_spec (nrows (oc_data oc)) k); [lia|]. destruct (Nat.leb_spec (ncols (oc_data oc)) d); [lia|]. cbn [orb].
        eexists. split; [reflexivity|]. left. exists (nth k (rows (oc_data oc)) []). split. { apply nth_In. rewrite rows_length. lia. }
        split. { intros j Hj. specialize (M j Hj). rewrite lit8 in M. rewrite <- Rx by lia. auto. }
        rewrite nth_rows by lia. change (mget (oc_data oc) k d = vget (mrow (oc_data oc) k) d). rewrite vget_mrow; auto; lia.
      * cbn [Z.leb]. eexists. split; [reflexivity|]. right. split. 2:{ rewrite lit15. destruct (oc_gt oc); auto. }
        intros r Hr Hnear. apply (In_nth _ _ []) in Hr as (k & Hk & <-). rewrite rows_length in Hk. apply (M (nth k (rows xs) [])). apply nth_In. rewrite rows_length; lia.
        intros j Hj. rewrite Rx by lia. rewrite lit8. apply Hnear; auto.
    + exists m'. split; auto. rewrite <- E. clear. generalize m. induction N as [|N IH]; intros m0; cbn [loopR]; auto. rewrite IH.
      match goal with |- bind ?a _ = bind ?a _ => destruct a as [t| |]; cbn [bind]; auto end. destruct (vec_head (mrow t N) d); cbn [bind]; auto. destruct (mat_findRowIndex _ _ _); cbn [bind]; auto.
Qed.
Lemma cols_all c N W : W = (c_dim c + 1 + length (c_cons c) + 2)%nat -> (0 < c_dim c)%nat -> map oc_id (c_cons c) = seq 0 (length (c_cons c)) ->
  forall l k m, (forall oc, In oc l -> In oc (c_cons c)) -> map oc_id l = seq k (length l) -> (k + length l = length (c_cons c))%nat -> dims N W m ->
  (forall oc, In oc l -> if oc_user oc then forall i, (i < N)%nat -> isOk (oc_fun oc (xrow (c_dim c) m i)) = true else wf (oc_data oc) /\ (0 < nrows (oc_data oc))%nat /\ (c_dim c < ncols (oc_data oc))%nat) ->
  exists m', conColumns c l m = Ok m' /\ dims N W m' /\
    (forall i j, (i < N)%nat -> (j < c_dim c + k + 1 \/ c_dim c + 1 + length (c_cons c) <= j)%nat -> mget m' i j = mget m i j) /\
    (forall i q, (i < N)%nat -> (q < length l)%nat -> start_value (c_dim c) (nth q l (mkOC 0 true 0 true (fun _ => Ok 0) mat_empty)) (xrow (c_dim c) m i) (mget m' i (c_dim c + 1 + k + q))).
Proof.
  intros HW Hd Hids. induction l as [|oc l IH]; intros k m Hin Hid Hk Hm Hv; cbn [conColumns].
  - exists m. split; auto. split; auto. split; auto. intros i q _ Hq. cbn in Hq. lia.
  - cbn [map length seq] in Hid. injection Hid as Hi1 Hi2. cbn [length] in Hk.
    destruct (col_step c oc W N m) as (m1 & E1 & D1 & O1 & V1); auto. { apply Hin; left; auto. } { lia. } { apply Hv. left; auto. } rewrite E1. cbn [bind].
    assert (forall i, (i < N)%nat -> xrow (c_dim c) m1 i = xrow (c_dim c) m i) as X. { intros i Hi. unfold xrow, vbuild. apply map_ext_in. intros j Hj. apply in_seq in Hj. apply O1; auto. lia. }
    destruct (IH (S k) m1) as (m' & E & D' & O' & V'); auto. { intros; apply Hin; right; auto. } { lia. }
    { intros oc' Ho. specialize (Hv oc' ltac:(right; auto)). destruct (oc_user oc'); auto. intros i Hi. rewrite X by auto. auto. }
    exists m'. split; auto. split; auto. split.
    + intros i j Hi Hj. rewrite O' by (auto; lia). apply O1; auto. lia.
    + intros i [|q] Hi Hq; cbn [nth].
      * rewrite O' by (auto; lia). replace (c_dim c + 1 + k + 0)%nat with (c_dim c + oc_id oc + 1)%nat by lia. auto.
      * cbn [length] in Hq. specialize (V' i q Hi ltac:(lia)). rewrite X in V' by auto. replace (c_dim c + 1 + k + S q)%nat with (c_dim c + 1 + S k + q)%nat by lia. auto.
Qed.
(** *** feasibility column *)
Lemma take_con (r : list R) d n : (d + 1 + n <= length r)%nat ->
  loopR n (fun j acc => y <- vec_at r (j + d + 1) ;; Ok (acc ++ [y])) [] = Ok (vbuild n (fun q => vget r (d + 1 + q))).
Proof.
  intros H. induction n as [|n IH]; cbn [loopR]; auto. rewrite IH by lia. cbn [bind]. unfold vec_at. destruct (Nat.leb_spec (length r) (n + d + 1)); [lia|]. cbn [bind].
  unfold vbuild. rewrite seq_S, map_app. cbn [map plus]. replace (n + d + 1)%nat with (d + 1 + n)%nat by lia. reflexivity.
Qed.
Lemma feas_col c N W (m : mat R) : W = (c_dim c + 1 + length (c_cons c) + 2)%nat -> (0 < c_dim c)%nat -> (0 < N)%nat -> dims N W m -> length (c_lb c) = c_dim c ->
  exists m', feasColumn c m = Ok m' /\ dims N W m' /\ (forall i j, (i < N)%nat -> j <> (W - 1)%nat -> mget m' i j = mget m i j) /\
    (forall i, (i < N)%nat -> exists fl : bool, mget m' i (W - 1) = (if fl then 1 else 0) /\
      (fl = true <-> c_cons c = [] \/ (Forall2 satisfies (c_cons c) (vbuild (length (c_cons c)) (fun q => mget m i (c_dim c + 1 + q))) /\ in_box (c_lb c) (c_ub c) (xrow (c_dim c) m i)))).
Proof.
  intros HW Hd HN Hm Hl. pose proof Hm as (Wm & Nm & Cm). unfold feasColumn. rewrite Nm. destruct (Nat.eqb_spec N 0) as [|Q1]; [lia|]. destruct (Nat.eqb_spec (c_dim c) 0) as [|Q2]; [lia|].
  destruct (loopR_ok (fun k m' => dims N W m' /\ (forall i j, (i < N)%nat -> j <> (W - 1)%nat -> mget m' i j = mget m i j) /\
    (forall i, (i < k)%nat -> exists fl : bool, mget m' i (W - 1) = (if fl then 1 else 0) /\
      (fl = true <-> c_cons c = [] \/ (Forall2 satisfies (c_cons c) (vbuild (length (c_cons c)) (fun q => mget m i (c_dim c + 1 + q))) /\ in_box (c_lb c) (c_ub c) (xrow (c_dim c) m i))))) N
    (fun i m => match c_cons c with
           | [] => mat_put m i (ncols m - 1) n1
           | _ => let r := mrow m i in
                  x <- vec_head r (c_dim c) ;;
                  cv <- loopR (length (c_cons c)) (fun j acc => y <- vec_at r (j + c_dim c + 1) ;; Ok (acc ++ [y])) [] ;;
                  f <- cons_feasible (c_cons c) cv ;;
                  b <- box_satisfied (c_dim c) (c_lb c) (c_ub c) x ;;
                  mat_put m i (ncols m - 1) (if (f && b)%bool then n1 else n0)
           end) m) as (m' & E & P).
  - split; auto. split; auto. intros; lia.
  - intros k t Hk (Dt & Ot & Vt). pose proof Dt as (Wt & Nt & Ct). rewrite Ct.
    assert (forall fl : bool, (fl = true <-> c_cons c = [] \/ (Forall2 satisfies (c_cons c) (vbuild (length (c_cons c)) (fun q => mget m k (c_dim c + 1 + q))) /\ in_box (c_lb c) (c_ub c) (xrow (c_dim c) m k))) ->
      exists t', mat_put t k (W - 1) (if fl then 1 else 0) = Ok t' /\ dims N W t' /\ (forall i j, (i < N)%nat -> j <> (W - 1)%nat -> mget t' i j = mget m i j) /\
        (forall i, (i < S k)%nat -> exists fl : bool, mget t' i (W - 1) = (if fl then 1 else 0) /\
          (fl = true <-> c_cons c = [] \/ (Forall2 satisfies (c_cons c) (vbuild (length (c_cons c)) (fun q => mget m i (c_dim c + 1 + q))) /\ in_box (c_lb c) (c_ub c) (xrow (c_dim c) m i))))) as K.
    { intros fl Hfl. destruct (put_ok N W t k (W - 1) (if fl then 1 else 0) Dt Hk ltac:(lia)) as (t' & E & D' & G'). exists t'. split; auto. split; auto. split.
      - intros i j Hi Hj. rewrite G' by auto. destruct (Nat.eqb_spec (W - 1) j); [congruence|]. rewrite andb_false_r. auto.
      - intros i Hi. rewrite G' by lia. rewrite Nat.eqb_refl, andb_true_r. destruct (Nat.eqb_spec k i) as [<-|]. { exists fl. auto. } apply Vt. lia. }
    destruct (c_cons c) as [|oc0 l0] eqn:Ec. { apply (K true). split; auto. }
    rewrite <- Ec in *. cbv zeta. rewrite (head_row N W t (c_dim c) k Dt Hk) by lia. cbn [bind].
    rewrite take_con by (rewrite mrow_length; lia). cbn [bind].
    assert (vbuild (length (c_cons c)) (fun q => vget (mrow t k) (c_dim c + 1 + q)) = vbuild (length (c_cons c)) (fun q => mget m k (c_dim c + 1 + q))) as ->.
    { unfold vbuild. apply map_ext_in. intros q Hq. apply in_seq in Hq. rewrite vget_mrow by lia. apply Ot; auto. lia. }
    assert (vbuild (c_dim c) (fun j => mget t k j) = xrow (c_dim c) m k) as ->. { unfold xrow, vbuild. apply map_ext_in. intros q Hq. apply in_seq in Hq. apply Ot; auto. lia. }
    destruct (cons_feasible_ok (c_cons c) (vbuild (length (c_cons c)) (fun q => mget m k (c_dim c + 1 + q)))) as (f & -> & Hf). apply vbuild_length. cbn [bind].
    destruct (box_sat (c_dim c) (c_lb c) (c_ub c) (xrow (c_dim c) m k)) as (b & -> & Hb); auto. apply vbuild_length. cbn [bind].
    apply (K (f && b)%bool). rewrite andb_true_iff, Hf, Hb. assert (length (xrow (c_dim c) m k) = c_dim c) as Lx by apply vbuild_length. split.
    + intros [A B]. right. split; auto. split. congruence. rewrite Lx. auto.
    + intros [A|[A [_ B]]]. rewrite A in Ec. discriminate. rewrite Lx in B. auto.
  - exists m'. destruct P as (P1 & P2 & P3). repeat split; auto. 1-3: apply P1.
Qed.

(** *** the start history *)
Lemma start_history_ok c : settings_ok c -> data_ok c ->
  exists m, startHistory c = Ok m /\ history (c_dim c) (length (c_cons c)) m /\ nrows m = nrows (c_data c) /\ Forall2 (start_row c) (rows (c_data c)) (rows m).
Proof.
  intros (Hd & Hl & Hu & Hb & _ & _ & Ids & _) (Wt & Nt & Ct & Hv). set (d := c_dim c) in *. set (N := nrows (c_data c)). set (nc := length (c_cons c)) in *. set (W := (d + 1 + nc + 2)%nat).
  assert (dims N (ncols (c_data c)) (c_data c)) as Dt by (split; auto).
  unfold startHistory. fold d. destruct (Nat.ltb_spec (ncols (c_data c) - 1) d); [lia|]. rewrite andb_false_r.
  destruct (submat_rows (c_data c) d Wt Nt ltac:(lia)) as (xs & -> & _). cbn [bind].
  destruct (copy_cols (c_data c) N W d Wt eq_refl Ct ltac:(unfold W; lia)) as (m1 & E1 & D1 & G1). fold N. fold nc. fold W. rewrite E1. cbn [bind].
  assert (forall i, (i < N)%nat -> xrow d m1 i = firstn d (nth i (rows (c_data c)) [])) as X1.
  { intros i Hi. rewrite <- (xrow_rows N _ d _ i Dt Hi) by lia. unfold xrow, vbuild. apply map_ext_in. intros j Hj. apply in_seq in Hj. rewrite G1 by (unfold W; lia). destruct (Nat.ltb_spec j (d + 1)); [auto|lia]. }
  assert (forall i, (i < N)%nat -> In (nth i (rows (c_data c)) []) (rows (c_data c))) as Inr. { intros i Hi. apply nth_In. rewrite rows_length. auto. }
  destruct (cols_all c N W eq_refl Hd Ids (c_cons c) 0 m1) as (m2 & E2 & D2 & O2 & V2); auto.
  { intros oc Ho. specialize (Hv oc Ho). destruct (oc_user oc); auto. intros i Hi. fold d. rewrite X1 by auto. apply Hv. auto. }
  rewrite E2. cbn [bind]. destruct (feas_col c N W m2 eq_refl Hd Nt D2 Hl) as (m3 & E3 & D3 & O3 & V3). exists m3. split; auto.
  pose proof D3 as (W3 & N3 & C3). split. { split. split; auto. rewrite C3. unfold W. lia. exact C3. } split; auto.
  apply (forall2_nth _ [] []). rewrite !rows_length. auto. intros i Hi. rewrite rows_length in Hi. fold N in Hi.
  destruct (V3 i Hi) as (fl & F1 & F2). exists (vbuild nc (fun q => mget m2 i (d + 1 + q))), fl. fold d.
  assert (forall j, (j < d + 1)%nat -> mget m2 i j = mget (c_data c) i j) as G2. { intros j Hj. rewrite O2 by (auto; fold d; lia). rewrite G1 by (unfold W; lia). destruct (Nat.ltb_spec j (d + 1)); [auto|lia]. }
  assert (xrow d m2 i = firstn d (nth i (rows (c_data c)) [])) as X2. { rewrite <- X1 by auto. unfold xrow, vbuild. apply map_ext_in. intros j Hj. apply in_seq in Hj. apply O2; auto. fold d; lia. }
  split; [|split].
  - rewrite nth_rows by lia. apply (list_ext _ _ 0).
    + rewrite mrow_length, C3. unfold history_row. rewrite !app_length, firstn_length, vbuild_length, nth_rows, mrow_length by auto. cbn [length]. unfold W. lia.
    + intros j Hj. rewrite mrow_length, C3 in Hj. change (nth j (mrow m3 i) 0) with (vget (mrow m3 i) j). rewrite vget_mrow by lia.
      unfold history_row. rewrite nth_app'. rewrite <- X2. unfold xrow at 1 3. rewrite vbuild_length. destruct (Nat.ltb_spec j d) as [J1|J1].
      { change (mget m3 i j = vget (xrow d m2 i) j). unfold xrow. rewrite vget_vbuild by auto. apply O3; auto. unfold W in *. lia. }
      rewrite nth_app'. cbn [length]. destruct (Nat.ltb_spec (j - d) 1) as [J2|J2].
      { assert (j = d) by lia. subst j. rewrite Nat.sub_diag. cbn [nth]. rewrite nth_rows by auto. change (mget m3 i d = vget (mrow (c_data c) i) d). rewrite vget_mrow by auto. rewrite O3 by (auto; unfold W; lia). apply G2; lia. }
      rewrite nth_app', vbuild_length. destruct (Nat.ltb_spec (j - d - 1) nc) as [J3|J3].
      { change (mget m3 i j = vget (vbuild nc (fun q => mget m2 i (d + 1 + q))) (j - d - 1)). rewrite vget_vbuild by auto. replace (d + 1 + (j - d - 1))%nat with j by lia. apply O3; auto. unfold W in *. lia. }
      destruct (Nat.eq_dec j (W - 1)) as [->|J4].
      { replace (W - 1 - d - 1 - nc)%nat with 1%nat by (unfold W; lia). cbn [nth]. rewrite F1. reflexivity. }
      replace (j - d - 1 - nc)%nat with 0%nat by (unfold W in *; lia). cbn [nth]. rewrite O3 by (auto; lia). rewrite O2 by (auto; fold d nc; unfold W in *; lia). rewrite G1 by auto. destruct (Nat.ltb_spec j (d + 1)); [lia|auto].
  - apply (forall2_nth _ (mkOC 0 true 0 true (fun _ => Ok 0) mat_empty) 0). rewrite vbuild_length. auto. intros q Hq. fold nc in Hq.
    specialize (V2 i q Hi Hq). fold d in V2. rewrite X1 in V2 by auto. change (nth q (vbuild nc (fun q => mget m2 i (d + 1 + q))) 0) with (vget (vbuild nc (fun q => mget m2 i (d + 1 + q))) q). rewrite vget_vbuild by auto.
    rewrite Nat.add_0_r in V2. exact V2.
  - fold d in F2. rewrite X2 in F2. exact F2.
Qed.

(** *** reference value of the improvement *)
Lemma scan_best (m : mat R) d : let '(f, b, i) := best_scan m d in if f : bool then b = mget m i d /\ (i < nrows m)%nat else b = ndblmax.
Proof.
  unfold best_scan. match goal with |- context [loop (nrows m) ?f ?s] => pose proof (loop_inv (fun k (st : bool * R * nat) => let '(fo, bo, io) := st in if fo : bool then bo = mget m io d /\ (io < k)%nat else bo = @ndblmax R RNum) (nrows m) f s) as L end.
  apply L. reflexivity. intros k [[f b] i] Hk H. destruct (_ && _)%bool. auto. destruct f; auto. destruct H. auto.
Qed.
Lemma initial_ok (h : hist R) c : history (h_dim h) c (h_data h) -> (0 < nrows (h_data h))%nat -> (0 < h_dim h)%nat ->
  exists b, hist_initialImprovement h = Ok b /\ initial_best (h_dim h) (rows (h_data h)) b.
Proof.
  intros [Ht Hc] Hn Hd. unfold hist_initialImprovement. destruct (Nat.eqb_spec (nrows (h_data h)) 0) as [|Q1]; [lia|]. destruct (Nat.eqb_spec (h_dim h) 0) as [|Q2]; [lia|].
  set (m := h_data h) in *. set (d := h_dim h) in *. rewrite (getCol_ok m d) by (auto; lia). cbn [bind]. destruct (Nat.eqb_spec (ncols m) 0) as [|Q3]; [lia|].
  rewrite (getCol_ok m (ncols m - 1)) by (auto; lia). cbn [bind]. rewrite !nth_cols by lia.
  assert (forall k, (k <= nrows m)%nat -> loop k (fun i st => if (vget (mcol m (ncols m - 1)) i >! n0) && (vget (mcol m d) i <! snd st) then (true, vget (mcol m d) i) else st) (false, @ndblmax R RNum) =
    fst (loop k (fun i st => let '(fnd, best, ix) := st in if (mget m i (ncols m - 1) >! n0) && (mget m i d <! best) then (true, mget m i d, i) else st) (false, @ndblmax R RNum, 0%nat))) as L.
  { induction k as [|k IH]; intros Hk; cbn [loop]; auto. rewrite IH by lia. destruct (loop k _ (false, ndblmax, 0%nat)) as [[f b] i]. cbn [fst snd]. rewrite !vget_mcol by lia. destruct (_ && _)%bool; reflexivity. }
  rewrite L by lia. pose proof (best_scan_ok m d ltac:(lia)) as B. pose proof (scan_best m d) as S. fold (best_scan m d).
  destruct (best_scan m d) as [[f b] i]. cbn [fst]. eexists. split; [reflexivity|]. destruct f.
  - destruct S as [-> Hi]. left. exists i. split; auto. rewrite row_obj_rows; auto; lia.
  - right. split; auto.
Qed.

(** *** start of the run *)
Definition prepared (c : cfg R) (s : ost R) : Prop :=
  gopt_ready (c_dim c) (length (c_cons c)) (s_gopt s) /\ b_lo (go_box (s_gopt s)) = c_lb c /\ b_up (go_box (s_gopt s)) = c_ub c /\
  ds_dim (s_cur s) = c_dim c /\ h_cn (s_hist s) = 0%nat /\ 0 <= s_trLen s.
Lemma vec_resize_length (v : list R) n x : length (vec_resize v n x) = n.
Proof. unfold vec_resize. rewrite app_length, firstn_length. destruct (Nat.ltb_spec (length v) n). rewrite repeat_length. lia. cbn [length]. lia. Qed.
Lemma startRun_ok c s : settings_ok c -> data_ok c -> prepared c s -> c_objset c = true -> c_N c <> 0%nat ->
  exists s', startRun c (Ok tt) s = (s', Ok tt) /\ ready c s' /\ Forall2 (start_row c) (rows (c_data c)) (rows (h_data (s_hist s'))) /\
    initial_best (c_dim c) (rows (h_data (s_hist s'))) (s_best s') /\ s_iter s' = s_iter s /\ s_evals s' = s_evals s /\ s_pts s' = s_pts s /\ s_trained s' = s_trained s /\
    s_trLen s' = s_trLen s /\ s_trMax s' = 1 / INR (c_dim c) /\ s_trMin s' = 1 / 256 * (1 / INR (c_dim c)) /\ s_succ s' = s_succ s /\ s_fail s' = s_fail s /\ h_doe (s_hist s') = nrows (c_data c).
Proof.
  intros Hs Hdat (P1 & P2 & P3 & P4 & P5 & P6) Hobj HN. pose proof Hs as (Hd & Hl & Hu & Hb & Dn & Dd & Ids & How & Box).
  destruct (start_history_ok c Hs Hdat) as (m & Em & Hm & Nm & Fm). destruct Hdat as (Wt & Nt & Ct & _).
  unfold startRun. rewrite Hobj, Box. cbn [negb sthrow_if]. do 2 rewrite (sbind_ok _ _ _ s tt) by reflexivity.
  assert (settingsOk c s = (s, Ok tt)) as E1.
  { unfold settingsOk. destruct (Nat.eqb_spec (c_N c) 0) as [|?]; [lia|]. cbn [sthrow_if]. rewrite (sbind_ok _ _ _ s tt) by reflexivity.
    assert (existsb (fun i => nleb (vget (c_ub c) i) (vget (c_lb c) i)) (seq 0 (c_dim c)) = false) as ->; [|reflexivity].
    destruct (existsb _ _) eqn:E; auto. apply existsb_exists in E as (i & Hi & Q). apply in_seq in Hi. cbn in Q. apply Rleb_true in Q. unfold vget in Q. cbn in Q. specialize (Hb i ltac:(lia)). lra. }
  rewrite (sbind_ok _ _ _ s tt E1).
  set (s1 := set_trlim (1 / INR (c_dim c)) (1 / 256 * (1 / INR (c_dim c))) (set_sig (s_delta s) (s_mult s) 1 (s_coef s) s)).
  assert (initSettings c s = (s1, Ok tt)) as E2.
  { unfold initSettings. destruct (Nat.eqb_spec (c_dim c) 0) as [|?]; [lia|]. cbn [sthrow_if]. rewrite (sbind_ok _ _ _ s tt) by reflexivity. unfold smod, s1. rewrite ofnat_R. cbn [n1 ndiv RNum nmul nlit].
    assert (Rlit 390625 (-8) = 1 / 256) as ->. { unfold Rlit. simpl. field. } reflexivity. }
  rewrite (sbind_ok _ _ _ s1 tt E2). rewrite (sbind_ok _ _ _ s1 tt) by reflexivity. rewrite (sbind_ok _ _ _ (set_init true s1) tt) by reflexivity.
  set (s2 := set_init true s1).
  assert (exists d2, design_setNumberOfConstraints (length (c_cons c)) (s_cur s) = (d2, Ok tt) /\ length (ds_con d2) = length (c_cons c)) as (d2 & E3 & L3).
  { unfold design_setNumberOfConstraints. rewrite P4. destruct (Nat.eqb_spec (c_dim c) 0) as [|?]; [lia|]. eexists. split; [reflexivity|]. cbn. apply vec_resize_length. }
  rewrite (sbind_ok _ _ _ (set_cur d2 s2) tt). 2:{ unfold szoom. change (s_cur s2) with (s_cur s). rewrite E3. reflexivity. }
  set (s3 := set_cur (ds_set_feas true d2) s2). rewrite (sbind_ok _ _ _ s3 tt) by reflexivity.
  unfold initHistory. set (h4 := mkH (c_dim c) (h_cn (s_hist s)) (h_data (s_hist s)) (h_crowd (s_hist s)) (h_doe (s_hist s))). set (s4 := set_hist h4 s3).
  rewrite (sbind_ok _ _ _ s4 tt) by reflexivity.
  set (h5 := mkH (c_dim c) (length (c_cons c)) (h_data (s_hist s)) (h_crowd (s_hist s)) (h_doe (s_hist s))). set (s5 := set_hist h5 s4).
  rewrite (sbind_ok _ _ _ s5 tt).
  2:{ unfold in_hist, szoom. assert (forall n, sloop n (fun _ => @hist_addConstraint R) h4 = (mkH (c_dim c) n (h_data (s_hist s)) (h_crowd (s_hist s)) (h_doe (s_hist s)), Ok tt)) as Q.
      { induction n as [|n IH]; cbn [sloop]. unfold sret, h4. rewrite P5. reflexivity. rewrite (sbind_ok _ _ _ _ tt IH). reflexivity. }
      change (s_hist s4) with h4. rewrite Q. reflexivity. }
  set (s6 := set_hist (hset_data m h5) s5).
  destruct (initial_ok (hset_data m h5) (length (c_cons c))) as (b & Eb & Hbest). { exact Hm. } { cbn; lia. } { cbn; lia. }
  set (h7 := mkH (c_dim c) (length (c_cons c)) m (h_crowd (s_hist s)) (nrows (c_data c))). set (s7 := set_hist h7 (set_best b s6)).
  destruct (gopt_fromHistory_ok (c_dim c) (length (c_cons c)) (s_gopt s) m) as (fb & ib & g' & Eg & Rg & Bg & Dg & Ng & Og); auto. { lia. } { right. intros; exact Logic.I. }
  pose proof Hm as [Htm Hcm].
  assert (setHistory c s5 = (set_gopt g' s7, Ok tt)) as E5.
  { unfold setHistory. rewrite Em. rewrite (sbind_ok _ _ _ s5 m) by reflexivity.
    assert (mat_isEmpty m = false) as Emp. { unfold mat_isEmpty. destruct (Nat.eqb_spec (nrows m) 0) as [|?]; [lia|]. destruct (Nat.eqb_spec (ncols m) 0) as [|?]; [lia|]. reflexivity. }
    rewrite (sbind_ok _ _ _ s6 tt).
    2:{ unfold in_hist, szoom. change (s_hist s5) with h5. unfold hist_setData. rewrite (sbind_ok _ _ _ h5 h5) by reflexivity. change (h_dim h5) with (c_dim c). destruct (Nat.eqb_spec (c_dim c) 0) as [|?]; [lia|]. cbn [sthrow_if].
        rewrite (sbind_ok _ _ _ h5 tt) by reflexivity. rewrite Emp. cbn [sthrow_if]. rewrite (sbind_ok _ _ _ h5 tt) by reflexivity. unfold hist_width. change (h_dim h5) with (c_dim c). change (h_cn h5) with (length (c_cons c)). rewrite Hcm, Nat.eqb_refl. cbn [negb sthrow_if].
        rewrite (sbind_ok _ _ _ h5 tt) by reflexivity. reflexivity. }
    rewrite (sbind_ok _ _ _ s6 (hset_data m h5)) by reflexivity. rewrite Eb. rewrite (sbind_ok _ _ _ s6 b) by reflexivity. rewrite (sbind_ok _ _ _ (set_best b s6) tt) by reflexivity.
    rewrite (sbind_ok _ _ _ (set_best b s6) tt). 2:{ unfold in_hist, szoom, hist_save. change (s_hist (set_best b s6)) with (hset_data m h5). rewrite (sbind_ok _ _ _ (hset_data m h5) (hset_data m h5)) by reflexivity. cbn [h_data hset_data]. rewrite Emp. reflexivity. }
    rewrite (sbind_ok _ _ _ s7 tt) by reflexivity.
    unfold findOptimum. rewrite Box. cbn [negb sthrow_if]. rewrite (sbind_ok _ _ _ s7 tt) by reflexivity. rewrite (sbind_ok _ _ _ s7 h7) by reflexivity. cbn [h_data h7].
    destruct (Nat.eqb_spec (nrows m) 0) as [|?]; [lia|]. destruct (Nat.eqb_spec (ncols m) 0) as [|?]; [lia|]. cbn [orb sthrow_if]. rewrite (sbind_ok _ _ _ s7 tt) by reflexivity.
    unfold in_gopt, szoom. change (s_gopt s7) with (s_gopt s). rewrite Eg. reflexivity. }
  rewrite (sbind_ok _ _ _ _ tt E5). set (s8 := set_gopt g' s7).
  assert (exists s9 k co sg, swhen (c_var c) (run in_hist hist_crowding; smod (fun s => set_sig (s_delta s) (s_mult s) (s_sigma s) (h_crowd (s_hist s) *! s_sigma s) s)) s8 = (s9, Ok tt) /\
    s9 = set_sig (s_delta s8) (s_mult s8) sg co (set_hist (mkH (c_dim c) (length (c_cons c)) m k (nrows (c_data c))) s8)) as (s9 & k & co & sg & E9 & ->).
  { destruct (c_var c); cbn [swhen].
    - destruct (crowding_ok h7) as (k & Ek). { cbn. lia. } { cbn. lia. } do 4 eexists. split.
      + rewrite (sbind_ok _ _ _ (set_hist (mkH (h_dim h7) (h_cn h7) (h_data h7) k (h_doe h7)) s8) tt). 2:{ unfold in_hist, szoom. change (s_hist s8) with h7. rewrite Ek. reflexivity. } reflexivity.
      + reflexivity.
    - exists s8, (h_crowd (s_hist s)), (s_coef s8), (s_sigma s8). split; reflexivity. }
  rewrite E9. eexists. split; [reflexivity|].
  assert (0 < 1 / INR (c_dim c)) as Pd by (apply Rdiv_lt_0_compat; [lra|apply lt_0_INR; lia]).
  split.
  - unfold ready. cbn [s_gopt set_sig set_hist s8 set_gopt s_hist s_cur s_init s_trLen s_trMin s_trMax h_data h_dim h_cn h_doe]. rewrite Bg.
    split. { destruct P1 as (? & ? & ? & ? & ? & ?). unfold gopt_ready. rewrite Bg. repeat (split; auto). }
    split; auto. split; auto. split. { exists fb, ib. rewrite Bg. split; auto. }
    split; auto. split; [lia|]. split; auto. split; auto. split; [lia|]. split. { exact L3. } split. { reflexivity. }
    split. { reflexivity. } split. { exact P6. } split. { change (0 <= 1 / 256 * (1 / INR (c_dim c))). lra. } change (0 <= 1 / INR (c_dim c)). lra.
  - split. { exact Fm. } split. { exact Hbest. } repeat (split; [reflexivity|]). reflexivity.
Qed.
Lemma setup_ok c : (0 < c_dim c)%nat -> length (c_lb c) = c_dim c -> length (c_ub c) = c_dim c -> (forall i, (i < c_dim c)%nat -> nth i (c_lb c) 0 <= nth i (c_ub c) 0) -> c_objset c = true ->
  exists s, optSetup c (@ost_new R RNum) = (s, Ok tt) /\ prepared c s /\ s_iter s = 0%nat /\ s_evals s = 0%nat /\ s_pts s = [] /\ s_trained s = [] /\ s_trLen s = 4 / 5 /\ s_succ s = 0%nat /\ s_fail s = 0%nat.
Proof.
  intros Hd Hl Hu Hb Ho. unfold optSetup. destruct (Nat.eqb_spec (c_dim c) 0) as [|?]; [lia|]. cbn [sthrow_if]. rewrite (sbind_ok _ _ _ ost_new tt) by reflexivity.
  set (d1 := fst (design_setDimension (c_dim c) (@design_new R RNum))).
  assert (design_setDimension (c_dim c) (@design_new R RNum) = (d1, Ok tt)) as E1. { unfold d1, design_setDimension. destruct (Nat.eqb_spec (c_dim c) 0) as [|?]; [lia|]. reflexivity. }
  set (s1 := set_gopt (mkGO d1 bnds_new) (@ost_new R RNum)). rewrite (sbind_ok _ _ _ s1 tt). 2:{ unfold on_god, in_gopt, szoom. cbn [s_gopt ost_new go_d gopt_new go_box]. rewrite E1. reflexivity. }
  set (s2 := set_cur d1 s1). rewrite (sbind_ok _ _ _ s2 tt). 2:{ unfold szoom. change (s_cur s1) with (@design_new R RNum). rewrite E1. reflexivity. }
  set (s3 := set_hist (mkH (c_dim c) 0 mat_empty 0 0) s2). rewrite (sbind_ok _ _ _ s3 tt) by reflexivity.
  assert (ds_dim d1 = c_dim c /\ ds_nc d1 = 0%nat) as [D1 D0]. { unfold d1, design_setDimension. destruct (Nat.eqb_spec (c_dim c) 0) as [|?]; [lia|]. split; reflexivity. }
  assert (forall k, exists d', sloop k (fun i => on_god (design_setNumberOfConstraints (S i))) s3 = (set_gopt (mkGO d' bnds_new) s3, Ok tt) /\ ds_dim d' = c_dim c /\ ds_nc d' = k) as Lp.
  { induction k as [|k (d' & E & A & B)]; cbn [sloop]. exists d1. split; [reflexivity|auto]. rewrite (sbind_ok _ _ _ _ tt E).
    unfold on_god, in_gopt, szoom. cbn [s_gopt set_gopt go_d go_box]. unfold design_setNumberOfConstraints. rewrite A. destruct (Nat.eqb_spec (c_dim c) 0) as [|?]; [lia|]. eexists. split; [reflexivity|]. auto. }
  destruct (Lp (length (c_cons c))) as (d' & E & A & B). rewrite (sbind_ok _ _ _ _ tt E). set (s4 := set_gopt (mkGO d' bnds_new) s3).
  rewrite Hl, Hu, Nat.eqb_refl. cbn [negb sthrow_if]. rewrite (sbind_ok _ _ _ s4 tt) by reflexivity.
  assert (existsb (fun i => nltb (vget (c_ub c) i) (vget (c_lb c) i)) (seq 0 (c_dim c)) = false) as ->.
  { destruct (existsb _ _) eqn:Q; auto. apply existsb_exists in Q as (i & Hi & Q). apply in_seq in Hi. cbn in Q. apply Rltb_true in Q. unfold vget in Q. cbn in Q. specialize (Hb i ltac:(lia)). lra. }
  cbn [sthrow_if]. rewrite (sbind_ok _ _ _ s4 tt) by reflexivity. rewrite Ho. cbn [sassert]. rewrite (sbind_ok _ _ _ s4 tt) by reflexivity.
  exists (set_gopt (mkGO d' (mkB (c_dim c) (c_lb c) (c_ub c) true)) s4). split.
  - unfold in_gopt, szoom. change (s_gopt s4) with (mkGO d' (@bnds_new R)). unfold gopt_setBox. rewrite (sbind_ok _ _ _ (mkGO d' bnds_new) (mkGO d' bnds_new)) by reflexivity. cbn [b_set negb sthrow_if]. rewrite (sbind_ok _ _ _ (mkGO d' bnds_new) tt) by reflexivity.
    cbn [go_d b_dim]. rewrite A, Nat.eqb_refl. cbn [negb sthrow_if]. rewrite (sbind_ok _ _ _ (mkGO d' bnds_new) tt) by reflexivity. reflexivity.
  - split. { unfold prepared, gopt_ready. cbn [s_gopt set_gopt go_d go_box b_set b_lo b_up s_cur s_hist h_cn s_trLen]. repeat (split; auto). cbn. unfold Rlit. simpl. lra. }
    repeat (split; [reflexivity|]). split; [|split; reflexivity]. change (Rlit 8 (-1) = 4 / 5). unfold Rlit. simpl. field.
Qed.
