From Coq Require Import List Arith Bool ZArith Lia.
From Verif Require Import Base StM Num VecModel MatModel MatLemmas MatSpec VecProofs VecProofs2 MatProofs MatProofs2 BoundsModel DataProofs DesignModel HistModel HistSpec.
Import ListNotations.

Section Samples.
  Context {T : Type} {NT : Num T}.
  Lemma sample_vec_ok (w : vec T) off n : forall k v, k + n <= length w -> off + k + n <= length v ->
    exists r, sample_vec w off (seq k n) v = Ok r /\ length r = length v /\
      forall i d, nth i r d = if (Nat.leb (off + k) i && Nat.ltb i (off + k + n))%bool then nth (i - off) w n0 else nth i v d.
  Proof.
    induction n; intros k v H1 H2; cbn [seq sample_vec].
    - exists v. split; auto. split; auto. intros i d. destruct (Nat.leb_spec (off + k) i), (Nat.ltb_spec i (off + k + 0)); simpl; auto; lia.
    - unfold vec_at. destruct (Nat.leb_spec (length w) k); [lia|]. cbn [bind]. unfold vec_set.
      destruct (Nat.leb_spec (length v) (off + k)); [lia|]. cbn [bind].
      destruct (IHn (S k) (upd v (off + k) (vget w k))) as (r & E & L & N). lia. rewrite upd_length; lia.
      exists r. split; auto. rewrite upd_length in L. split; auto. intros i d. rewrite N.
      destruct (Nat.eq_dec i (off + k)) as [->|Hi].
      + destruct (Nat.leb_spec (off + S k) (off + k)); [lia|]. cbn [andb]. rewrite nth_upd_same by lia.
        destruct (Nat.leb_spec (off + k) (off + k)); [|lia]. destruct (Nat.ltb_spec (off + k) (off + k + S n)); [|lia]. cbn [andb]. unfold vget. f_equal; lia.
      + rewrite nth_upd_other by lia. destruct (Nat.leb_spec (off + S k) i), (Nat.leb_spec (off + k) i); try lia; cbn [andb]; auto.
        destruct (Nat.ltb_spec i (off + S k + n)), (Nat.ltb_spec i (off + k + S n)); auto; lia.
  Qed.
  Lemma sample_vec_throws (w : vec T) off n : forall k v, k <= length w -> length w < k + n -> off + k + n <= length v ->
    sample_vec w off (seq k n) v = Throw OutOfRange.
  Proof.
    induction n; intros k v H0 H1 H2; cbn [seq sample_vec]; [lia|].
    unfold vec_at. destruct (Nat.leb_spec (length w) k); cbn [bind]; auto. unfold vec_set.
    destruct (Nat.leb_spec (length v) (off + k)); [lia|]. cbn [bind]. apply IHn; rewrite ?upd_length; lia.
  Qed.
  Lemma vec_set_ok (v : vec T) i x : i < length v -> vec_set v i x = Ok (upd v i x).
  Proof. intros. unfold vec_set. destruct (Nat.leb_spec (length v) i); auto; lia. Qed.
  Lemma nth_app' {A} (l1 l2 : list A) i d : nth i (l1 ++ l2) d = if Nat.ltb i (length l1) then nth i l1 d else nth (i - length l1) l2 d.
  Proof. destruct (Nat.ltb_spec i (length l1)). apply app_nth1; auto. apply app_nth2; auto. Qed.
  Lemma nth_firstn' {A} n (l : list A) i d : nth i (firstn n l) d = if Nat.ltb i n then nth i l d else d.
  Proof.
    destruct (Nat.ltb_spec i n). apply nth_firstn; auto. apply nth_overflow. rewrite firstn_length. lia.
  Qed.

  (** constructSample*: a sample made of consecutive pieces *)
  Lemma sample_make_ok len (x : vec T) l : length x + length l <= len -> 0 < len ->
    map fst l = seq (length x) (length l) ->
    exists r, sample_make len x l = Ok r /\ length r = len /\
      forall i, i < len -> nth i r n0 = nth i (x ++ map snd l) n0.
  Proof.
    intros Hl H0 Hs. unfold sample_make.
    destruct (copy_spec (repeat n0 len) x 0 n0) as (v & E & L & N). rewrite repeat_length; lia.
    change (Z.of_nat 0) with 0%Z in E. rewrite E. cbn [bind]. rewrite repeat_length in *.
    assert (forall l k v, length v = len -> k + length l <= len -> map fst l = seq k (length l) ->
      exists r, sample_fill v l = Ok r /\ length r = len /\ forall i, i < len ->
        nth i r n0 = if (Nat.leb k i && Nat.ltb i (k + length l))%bool then nth (i - k) (map snd l) n0 else nth i v n0) as G.
    { clear. induction l as [|[j y] l IH]; intros k v L Hk Hs.
      - exists v. split; [reflexivity|]. split; auto. intros i Hi. destruct (Nat.leb_spec k i), (Nat.ltb_spec i (k + length (@nil (nat*T)))); simpl in *; auto; lia.
      - cbn in Hs. injection Hs as -> Hs. cbn in Hk. cbn [sample_fill]. rewrite vec_set_ok by lia. cbn [bind].
        destruct (IH (S k) (upd v k y)) as (r & E & Lr & N); auto. rewrite upd_length; auto. lia.
        exists r. split; auto. split; auto. intros i Hi. rewrite N by auto. cbn [length map].
        destruct (Nat.eq_dec i k) as [->|D].
        + destruct (Nat.leb_spec (S k) k); [lia|]. cbn [andb]. rewrite nth_upd_same by lia.
          destruct (Nat.leb_spec k k); [|lia]. destruct (Nat.ltb_spec k (k + S (length l))); [|lia]. cbn [andb]. rewrite Nat.sub_diag. reflexivity.
        + rewrite nth_upd_other by lia. destruct (Nat.leb_spec (S k) i), (Nat.leb_spec k i); try lia; cbn [andb]; auto.
          destruct (Nat.ltb_spec i (S k + length l)), (Nat.ltb_spec i (k + S (length l))); auto; try lia.
          replace (i - k) with (S (i - S k)) by lia. reflexivity. }
    destruct (G l (length x) v) as (r & Er & Lr & Nr); auto.
    exists r. split; auto. split; auto. intros i Hi. rewrite Nr by auto. rewrite nth_app'. rewrite N by auto. simpl Nat.leb. cbn [andb].
    rewrite Nat.sub_0_r, Nat.add_0_l.
    destruct (Nat.leb_spec (length x) i), (Nat.ltb_spec i (length x)); try lia; cbn [andb]; auto.
    destruct (Nat.ltb_spec i (length x + length l)); auto. rewrite (nth_overflow (map snd l)) by (rewrite map_length; lia).
    destruct (nth_in_or_default i (repeat n0 len) n0) as [Hin|Hd]; auto. apply repeat_spec in Hin. auto.
  Qed.
  Lemma sample_plain x y d : length x = d -> sample_make (d + 1) x [(d, y)] = Ok (x ++ [y]).
  Proof.
    intros <-. destruct (sample_make_ok (length x + 1) x [(length x, y)]) as (r & E & L & N); simpl; auto; try lia.
    rewrite E. f_equal. apply (list_ext _ _ n0). rewrite app_length; simpl; lia. intros i Hi. apply N. lia.
  Qed.
  Lemma sample_tail (l w : list T) v off d : length l = off -> length w = d -> length v = off + d ->
    (forall i, i < off + d -> nth i v n0 = nth i l n0) -> sample_vec w off (seq 0 d) v = Ok (l ++ w).
  Proof.
    intros Hl Hw Hv N. destruct (sample_vec_ok w off d 0 v) as (r & E & L & Nr); try lia. rewrite E. f_equal.
    apply (list_ext _ _ n0). rewrite app_length; lia. intros i Hi. rewrite Nr, nth_app'.
    destruct (Nat.leb_spec (off + 0) i), (Nat.ltb_spec i (length l)); try lia; cbn [andb].
    - destruct (Nat.ltb_spec i (off + 0 + d)); [|lia]. f_equal. lia.
    - apply N. lia.
  Qed.
  Lemma sample_with x y w d : length x = d -> length w = d -> 
    bind (sample_make (2 * d + 1) x [(d, y)]) (fun v => sample_vec w (d + 1) (seq 0 d) v) = Ok (x ++ [y] ++ w).
  Proof.
    intros <- Hw. destruct (sample_make_ok (2 * length x + 1) x [(length x, y)]) as (r & E & L & N); simpl length; auto; try lia.
    rewrite E. cbn [bind]. rewrite app_assoc. apply sample_tail; auto. rewrite app_length; auto. lia.
    intros i Hi. apply N. lia.
  Qed.
  Lemma sample_with2 x y t w d : length x = d -> length w = d ->
    bind (sample_make (2 * d + 2) x [(d, y); (d + 1, t)]) (fun v => sample_vec w (d + 2) (seq 0 d) v) = Ok (x ++ [y; t] ++ w).
  Proof.
    intros <- Hw. destruct (sample_make_ok (2 * length x + 2) x [(length x, y); (length x + 1, t)]) as (r & E & L & N); simpl length; auto; try lia.
    { simpl. repeat f_equal; lia. }
    rewrite E. cbn [bind]. rewrite app_assoc. apply sample_tail; auto. rewrite app_length; auto. lia.
    intros i Hi. apply N. lia.
  Qed.
End Samples.

Section Hist.
  Context {T : Type} {NT : Num T}.
  Lemma hist_row_ok (h : hist T) s : fits_history h s -> hist_row h s = Ok (row_of h s).
  Proof.
    intros [H1 H2]. unfold hist_row. rewrite H1, Nat.eqb_refl. cbn [negb]. unfold hist_width.
    destruct (sample_vec_ok (ds_x s) 0 (h_dim h) 0 (repeat n0 (h_dim h + 1 + h_cn h + 2))) as (v1 & -> & L1 & N1); rewrite ?repeat_length; try lia.
    rewrite repeat_length in L1. cbn [bind]. rewrite vec_set_ok by lia. cbn [bind].
    destruct (sample_vec_ok (ds_con s) (h_dim h + 1) (h_cn h) 0 (upd v1 (h_dim h) (ds_f s))) as (v2 & -> & L2 & N2); rewrite ?upd_length; try lia.
    rewrite upd_length in L2. cbn [bind]. rewrite vec_set_ok by lia. cbn [bind]. rewrite vec_set_ok by (rewrite upd_length; lia).
    f_equal. unfold row_of, history_row. apply (list_ext _ _ n0).
    - rewrite !upd_length, !app_length, firstn_length. simpl. lia.
    - intros i Hi. rewrite !upd_length in Hi. rewrite !nth_app'. rewrite H1, firstn_length. simpl length.
      replace (Nat.min (h_cn h) (length (ds_con s))) with (h_cn h) by lia.
      destruct (Nat.eq_dec i (h_dim h + h_cn h + 2)) as [->|D1].
      { rewrite nth_upd_same by (rewrite upd_length; lia).
        repeat match goal with |- context [Nat.ltb ?a ?b] => destruct (Nat.ltb_spec a b); [lia|] end.
        replace (_ - _) with 1 by lia. reflexivity. }
      rewrite nth_upd_other by lia.
      destruct (Nat.eq_dec i (h_dim h + h_cn h + 1)) as [->|D2].
      { rewrite nth_upd_same by lia.
        repeat match goal with |- context [Nat.ltb ?a ?b] => destruct (Nat.ltb_spec a b); [lia|] end.
        replace (_ - _) with 0 by lia. reflexivity. }
      rewrite nth_upd_other by lia. rewrite N2.
      destruct (Nat.leb_spec (h_dim h + 1 + 0) i), (Nat.ltb_spec i (h_dim h + 1 + 0 + h_cn h)); try lia; cbn [andb].
      { destruct (Nat.ltb_spec i (h_dim h)); [lia|]. destruct (Nat.ltb_spec (i - h_dim h) 1); [lia|].
        destruct (Nat.ltb_spec (i - h_dim h - 1) (h_cn h)); [|lia]. rewrite nth_firstn by lia. f_equal; lia. }
      destruct (Nat.eq_dec i (h_dim h)) as [->|D3].
      { rewrite nth_upd_same by lia. destruct (Nat.ltb_spec (h_dim h) (h_dim h)); [lia|].
        rewrite Nat.sub_diag. reflexivity. }
      rewrite nth_upd_other by lia. rewrite N1.
      destruct (Nat.leb_spec (0 + 0) i), (Nat.ltb_spec i (0 + 0 + h_dim h)); try lia; cbn [andb].
      destruct (Nat.ltb_spec i (h_dim h)); try lia. f_equal; lia.
  Qed.
  Lemma hist_row_throws (h : hist T) s : ~ fits_history h s ->
    hist_row h s = Throw (if Nat.eqb (length (ds_x s)) (h_dim h) then OutOfRange else InvalidArgument).
  Proof.
    intros H. unfold hist_row, fits_history in *. destruct (Nat.eqb_spec (length (ds_x s)) (h_dim h)) as [E|]; cbn [negb]; auto.
    unfold hist_width.
    destruct (sample_vec_ok (ds_x s) 0 (h_dim h) 0 (repeat n0 (h_dim h + 1 + h_cn h + 2))) as (v1 & -> & L1 & N1); rewrite ?repeat_length; try lia.
    rewrite repeat_length in L1. cbn [bind]. rewrite vec_set_ok by lia. cbn [bind].
    rewrite sample_vec_throws; auto; rewrite ?upd_length; lia.
  Qed.
  Definition hist_ok (h : hist T) : Prop :=
    table (h_data h) /\ (nrows (h_data h) <> 0 -> ncols (h_data h) = hist_width h).
  Lemma row_of_length h s : fits_history h s -> length (row_of h s) = hist_width h.
  Proof. intros [H1 H2]. unfold row_of, history_row, hist_width. rewrite !app_length, firstn_length. simpl. lia. Qed.
  Lemma hist_update_ok (h : hist T) s : hist_ok h -> fits_history h s ->
    exists m, hist_update s h = (hset_data m h, Ok tt) /\ table m /\ rows m = rows (h_data h) ++ [row_of h s] /\ ncols m = hist_width h.
  Proof.
    intros [Ht Hc] Hf. pose proof (row_of_length h s Hf) as Lr.
    pose proof (addRow_step (h_data h) (row_of h s) (-1) Ht ltac:(lia)) as A.
    assert (row_of h s <> []) as Hne. { intros E. rewrite E in Lr. unfold hist_width in Lr. simpl in Lr. lia. }
    specialize (A Hne). cbn [spec_rowop] in A. change ((-1 =? -1)%Z) with true in A. cbv beta iota zeta in A.
    assert (fits (row_of h s) (rows (h_data h)) = true) as F.
    { unfold fits. destruct (rows (h_data h)) as [|r0 t] eqn:E; auto. apply Nat.eqb_eq.
      assert (nrows (h_data h) <> 0) as Hn. { rewrite <- rows_length, E. discriminate. }
      assert (r0 = mrow (h_data h) 0) as ->. { rewrite <- (nth_rows (h_data h) 0 []), E; auto. lia. }
      rewrite mrow_length, Hc; auto. }
    rewrite F in A. destruct (Z.leb_spec (Z.of_nat (length (rows (h_data h)))) (Z.of_nat (length (rows (h_data h))))); [|lia]. cbn [andb] in A.
    destruct A as (m & E & Tm & Rm & Cm). exists m.
    assert (rows m = rows (h_data h) ++ [row_of h s]) as Rm'.
    { rewrite Rm. unfold insert_at. rewrite Nat2Z.id, firstn_all, skipn_all. auto. }
    split; [|split; auto; split; auto; congruence].
    unfold hist_update. unfold sbind at 1, sget at 1. cbv beta iota zeta. rewrite hist_row_ok by auto.
    unfold slift. unfold sbind at 1. cbv beta iota zeta. unfold sbind at 1. rewrite E. cbv beta iota zeta.
    unfold hist_save, sbind, sget. cbv beta iota zeta. cbn [h_data hset_data].
    assert (nrows m <> 0) as Hn. { rewrite <- rows_length, Rm', app_length. simpl. lia. }
    assert (mat_isEmpty m = false) as ->. { unfold mat_isEmpty. assert (ncols m <> 0) by (rewrite Cm, Lr; unfold hist_width; lia).
      destruct (Nat.eqb_spec (nrows m) 0), (Nat.eqb_spec (ncols m) 0); auto; congruence. }
    reflexivity.
  Qed.
  Lemma hist_update_throws (h : hist T) s : ~ fits_history h s ->
    hist_update s h = (h, Throw (if Nat.eqb (length (ds_x s)) (h_dim h) then OutOfRange else InvalidArgument)).
  Proof.
    intros Hf. unfold hist_update. unfold sbind at 1, sget at 1. cbv beta iota zeta. rewrite hist_row_throws by auto. reflexivity.
  Qed.
  Lemma append_ok ds : forall (h : hist T), hist_ok h -> Forall (fits_history h) ds ->
    exists m, append_designs ds h = (hset_data m h, Ok tt) /\ table m /\ rows m = rows (h_data h) ++ map (row_of h) ds /\
      (nrows m <> 0 -> ncols m = hist_width h).
  Proof.
    induction ds as [|s ds IH]; intros h Hh Hf; cbn [append_designs].
    - exists (h_data h). destruct Hh. split; [|split; auto; split; auto; rewrite app_nil_r; auto]. destruct h; reflexivity.
    - inversion_clear Hf. destruct (hist_update_ok h s Hh) as (m & E & Tm & Rm & Cm); auto.
      rewrite (sbind_ok _ _ _ (hset_data m h) tt E).
      destruct (IH (hset_data m h)) as (m' & E' & Tm' & Rm' & Cm').
      { split; auto. } { eapply Forall_impl; [|exact H0]. intros a. auto. }
      exists m'. rewrite E'. split; [reflexivity|]. split; auto. split; auto. rewrite Rm'. cbn [h_data hset_data]. rewrite Rm, <- app_assoc. reflexivity.
  Qed.
End Hist.

Section Best.
  Context {T : Type} {NT : Num T} {OL : OrdLaws T}.
  Lemma last_nth (l : list T) d : last l d = nth (length l - 1) l d.
  Proof.
    induction l as [|a l IH]; auto. destruct l; auto. change (last (a :: t :: l) d) with (last (t :: l) d). rewrite IH.
    simpl length. replace (S (S (length l)) - 1) with (S (S (length l) - 1)) by lia. reflexivity.
  Qed.
  Lemma row_feas_rows (m : mat T) i : i < nrows m -> 0 < ncols m -> row_feas (rowi (rows m) i) <-> nltb n0 (mget m i (ncols m - 1)) = true.
  Proof.
    intros Hi Hc. unfold row_feas, rowi. rewrite nth_rows by auto. rewrite last_nth, mrow_length.
    change (nth ?k ?l n0) with (vget l k). rewrite vget_mrow by lia. tauto.
  Qed.
  Lemma row_obj_rows (m : mat T) d i : i < nrows m -> d < ncols m -> row_obj d (rowi (rows m) i) = mget m i d.
  Proof.
    intros Hi Hc. unfold row_obj, rowi. rewrite nth_rows by auto. change (nth ?k ?l n0) with (vget l k). rewrite vget_mrow by lia. auto.
  Qed.
  Lemma best_scan_ok (m : mat T) d : d < ncols m ->
    let '(fnd, best, ix) := best_scan m d in
    if fnd then best_feasible d (rows m) ix else forall i, ~ candidate d (rows m) i.
  Proof.
    intros Hd. unfold best_scan.
    set (cand := fun k i => i < k /\ i < nrows m /\ nltb n0 (mget m i (ncols m - 1)) = true /\ nltb (mget m i d) ndblmax = true).
    set (P := fun k (st : bool * T * nat) => let '(fnd, best, ix) := st in
       if fnd then cand k ix /\ best = mget m ix d /\ (forall j, cand k j -> nltb (mget m j d) best = false) /\ (forall j, cand k j -> j < ix -> nltb best (mget m j d) = true)
       else best = ndblmax /\ forall j, ~ cand k j).
    set (step := fun i (st : bool * T * nat) => _).
    assert (P (nrows m) (loop (nrows m) step (false, ndblmax, 0))) as H.
    { apply loop_inv.
      - simpl. split; auto. intros j [Hj _]. lia.
      - intros k [[fnd best] ix] Hk HP. unfold step. unfold P in HP.
        assert (forall j, cand (S k) j -> cand k j \/ j = k) as HS. { intros j (A1 & A2 & A3). destruct (Nat.eq_dec j k); auto. left. split; auto. lia. }
        assert (forall j, cand k j -> cand (S k) j) as HI. { intros j (A1 & A2 & A3). split; auto. }
        destruct (nltb n0 (mget m k (ncols m - 1)) && nltb (mget m k d) best)%bool eqn:E.
        + apply andb_prop in E as [E1 E2]. destruct fnd.
          * destruct HP as (Hc & -> & H1 & H2). destruct Hc as (C1 & C2 & C3 & C4).
            destruct (ltb_good _ _ E2), (ltb_good _ _ C4).
            assert (cand (S k) k). { split; auto. split; auto. split; auto. eapply ltb_trans with (b := mget m ix d); auto using good_max. }
            split; auto. split; auto. split.
            -- intros j Hj. destruct (HS _ Hj) as [Hj'| ->]. 2:{ apply ltb_irrefl; auto. }
               destruct (nltb (mget m j d) (mget m k d)) eqn:Q; auto. destruct (ltb_good _ _ Q). rewrite <- (H1 j Hj'). symmetry. eapply ltb_trans with (b := mget m k d); auto.
            -- intros j Hj Hlt. destruct (HS _ Hj) as [Hj'| ->]; [|lia]. destruct Hj' as (J1 & J2 & J3 & J4). destruct (ltb_good _ _ J4).
               assert (cand k j) as Hcj by (split; auto). specialize (H1 j Hcj).
               destruct (ltb_negtrans (mget m k d) (mget m j d) (mget m ix d)); auto. congruence.
          * destruct HP as (-> & H1). assert (cand (S k) k) by (split; auto). split; auto. split; auto. destruct (ltb_good _ _ E2). split.
            -- intros j Hj. destruct (HS _ Hj) as [Hj'| ->]. exfalso; eapply H1; eauto. apply ltb_irrefl; auto.
            -- intros j Hj Hlt. destruct (HS _ Hj) as [Hj'| ->]. exfalso; eapply H1; eauto. lia.
        + destruct fnd.
          * destruct HP as (Hc & -> & H1 & H2). split; auto. split; auto. split.
            -- intros j Hj. destruct (HS _ Hj) as [Hj'| ->]; auto. destruct Hj as (J1 & J2 & J3 & J4). rewrite J3 in E. exact E.
            -- intros j Hj Hlt. destruct (HS _ Hj) as [Hj'| ->]; auto. destruct Hc. lia.
          * destruct HP as (-> & H1). split; auto. intros j Hj. destruct (HS _ Hj) as [Hj'| ->]. eapply H1; eauto.
            destruct Hj as (J1 & J2 & J3 & J4). rewrite J3, J4 in E. discriminate. }
    assert (forall i, candidate d (rows m) i <-> cand (nrows m) i) as Hcand.
    { intros i. unfold candidate, cand. rewrite rows_length. split.
      - intros (A & B & C). rewrite row_feas_rows in B by lia. rewrite row_obj_rows in C by lia. auto.
      - intros (_ & A & B & C). rewrite row_feas_rows by lia. rewrite row_obj_rows by lia. auto. }
    destruct (loop _ _ _) as [[fnd best] ix]. unfold P in H. destruct fnd.
    - destruct H as (Hc & -> & H1 & H2). split. apply Hcand; auto.
      assert (forall j, cand (nrows m) j -> row_obj d (rowi (rows m) j) = mget m j d) as RO. { intros j (A & B & _). apply row_obj_rows; auto. }
      split; intros j Hj; apply Hcand in Hj; [|intros Hlt]; rewrite !RO by auto.
      + specialize (H1 j Hj). destruct Hj as (_ & _ & _ & J). destruct Hc as (_ & _ & _ & K). destruct (ltb_good _ _ J), (ltb_good _ _ K). rewrite leb_ltb, H1; auto.
      + auto.
    - destruct H as (_ & H). intros i Hi. apply (H i). apply Hcand; auto.
  Qed.
  Lemma best_index_ok (m : mat T) d : d < ncols m -> 0 < nrows m ->
    (exists i, candidate d (rows m) i) \/ (forall i, i < nrows m -> good (row_obj d (rowi (rows m) i))) ->
    exists fe i, best_index m d = Ok (fe, i) /\ i < nrows m /\
      if fe : bool then best_feasible d (rows m) i else (forall j, ~ candidate d (rows m) j) /\ best_any d (rows m) i.
  Proof.
    intros Hd Hn Hg. unfold best_index. destruct (Nat.leb_spec (ncols m) d); [lia|].
    pose proof (best_scan_ok m d Hd) as H0. destruct (best_scan m d) as [[fnd best] ix]. destruct fnd.
    - exists true, ix. split; auto. split; auto. destruct H0 as [(Hi & _) _]. rewrite rows_length in Hi. auto.
    - destruct Hg as [[j Hj]|Hg]; [exfalso; eapply H0; eauto|]. rewrite getCol_rows by auto. cbn [bind]. set (o := map _ (rows m)).
      assert (length o = nrows m) as Lo. { unfold o. rewrite map_length, rows_length. auto. }
      assert (forall i, i < nrows m -> nth i o n0 = row_obj d (rowi (rows m) i)) as No.
      { intros i Hi. unfold o. rewrite (nth_indep _ n0 (nth d [] n0)) by (fold o; lia). rewrite (map_nth (fun r => nth d r n0)). reflexivity. }
      destruct (findMin_ok o) as (i & E & _ & Hi & M1 & M2).
      { intros E. rewrite E in Lo. simpl in Lo. lia. }
      { intros x Hx. apply (In_nth _ _ n0) in Hx as (k & Hk & <-). rewrite No by lia. apply Hg. lia. }
      rewrite E. cbn [bind]. exists false, i. split; auto. split. lia. split; auto. split. rewrite rows_length; lia.
      rewrite rows_length. rewrite Lo in *. split; intros j Hj; rewrite <- !No by lia; auto.
  Qed.
  Lemma loopR_take (r : vec T) off n : off + n <= length r ->
    loopR n (fun i acc => y <- vec_at r (i + off) ;; Ok (acc ++ [y])) [] = Ok (firstn n (skipn off r)).
  Proof.
    induction n; intros H; cbn [loopR]. reflexivity. rewrite IHn by lia. cbn [bind]. unfold vec_at.
    destruct (Nat.leb_spec (length r) (n + off)); [lia|]. cbn [bind]. f_equal.
    apply (list_ext _ _ n0). rewrite app_length, !firstn_length, skipn_length. cbn [length]. lia.
    intros i Hi. rewrite app_length, firstn_length, skipn_length in Hi. cbn [length] in Hi.
    rewrite nth_app', !nth_firstn', firstn_length, skipn_length. destruct (Nat.ltb_spec i (Nat.min n (length r - off))).
    - destruct (Nat.ltb_spec i n); [|lia]. destruct (Nat.ltb_spec i (S n)); [auto|lia].
    - assert (i = n) as -> by lia. destruct (Nat.ltb_spec n (S n)); [|lia]. replace (n - _) with 0 by lia. simpl. rewrite nth_skipn. unfold vget. f_equal. lia.
  Qed.
  Lemma extract_ok d c (g : gopt T) r : gopt_ready d c g -> length r = d + 1 + c + 2 ->
    exists xn, extract r g = (mkGO (ds_set_point (row_x d r) xn (ds_set_con (row_con d c r) (ds_set_imp (row_imp r) (ds_set_f (row_obj d r) (go_d g))))) (go_box g), Ok tt) /\
      vec_normalize (row_x d r) (b_lo (go_box g)) (b_up (go_box g)) = Ok xn.
  Proof.
    intros (Hd & <- & <- & Hb & Hl & Hu) Lr. set (d := ds_dim (go_d g)) in *. set (c := ds_nc (go_d g)) in *.
    assert (length (row_x d r) = d) as Lx. { unfold row_x. rewrite firstn_length. lia. }
    assert (exists xn, vec_normalize (row_x d r) (b_lo (go_box g)) (b_up (go_box g)) = Ok xn) as [xn Ex].
    { unfold vec_normalize. rewrite Lx, Hl, Hu. rewrite Nat.ltb_irrefl. simpl. eauto. }
    exists xn. split; auto.
    unfold extract. unfold sbind at 1, sget at 1. cbv beta iota zeta. fold d c.
    unfold vec_head. destruct (Nat.ltb_spec (length r) d); [lia|]. unfold sbind at 1, slift at 1. cbv beta iota zeta.
    unfold sbind at 1, in_god at 1, smod at 1. cbv beta iota zeta. cbn [go_d go_box].
    unfold vec_at at 1. destruct (Nat.leb_spec (length r) d); [lia|]. unfold sbind at 1, slift at 1. cbv beta iota zeta.
    unfold sbind at 1, in_god at 1, smod at 1. cbv beta iota zeta. cbn [go_d go_box].
    destruct (Nat.ltb_spec (length r) 2); [lia|].
    unfold vec_at at 1. destruct (Nat.leb_spec (length r) (length r - 2)); [lia|]. unfold sbind at 1, slift at 1. cbv beta iota zeta.
    unfold sbind at 1, in_god at 1, smod at 1. cbv beta iota zeta. cbn [go_d go_box].
    assert (loopR c (fun i acc => y <- vec_at r (i + d + 1) ;; Ok (acc ++ [y])) [] = Ok (row_con d c r)) as ->.
    { unfold row_con. rewrite <- (loopR_take r (d + 1) c) by lia. clear. generalize c. clear c. intros c. induction c; cbn [loopR]; auto. rewrite IHc. rewrite Nat.add_assoc. auto. }
    unfold sbind at 1, slift at 1. cbv beta iota zeta.
    unfold sbind at 1, in_god at 1, smod at 1. cbv beta iota zeta. cbn [go_d go_box].
    change (firstn d r) with (row_x d r). rewrite Ex. unfold sbind at 1, slift at 1. cbv beta iota zeta.
    unfold in_god, smod. reflexivity.
  Qed.
  Lemma gopt_fromHistory_ok d c (g : gopt T) m : gopt_ready d c g -> history d c m -> 0 < nrows m ->
    (exists i, candidate d (rows m) i) \/ (forall i, i < nrows m -> good (row_obj d (rowi (rows m) i))) ->
    exists fe i g', gopt_fromHistory m g = (g', Ok tt) /\ reports d c (go_box g) (rows m) i fe (go_d g') /\ go_box g' = go_box g /\
      ds_dim (go_d g') = d /\ ds_nc (go_d g') = c /\
      if fe : bool then best_feasible d (rows m) i else (forall j, ~ candidate d (rows m) j) /\ best_any d (rows m) i.
  Proof.
    intros Hr [Ht Hc] Hn Hg. destruct (best_index_ok m d) as (fe & i & E & Hi & B); auto; try lia.
    pose proof Hr as (Hd & D1 & D2 & Hb & Hl & Hu).
    set (g1 := mkGO (ds_set_ID (Z.of_nat i) (ds_set_feas fe (go_d g))) (go_box g)).
    destruct (extract_ok d c g1 (nth i (rows m) [])) as (xn & Ee & Ex).
    { split; auto.  } { rewrite nth_rows, mrow_length by auto. auto. }
    exists fe, i. eexists. split.
    - unfold gopt_fromHistory. rewrite (sbind_ok _ _ _ g g) by reflexivity. rewrite D1, Hb, E.
      destruct (Nat.eqb_spec (nrows m) 0); [lia|]. destruct (Nat.eqb_spec d 0); [lia|]. cbn [negb].
      do 3 rewrite (sbind_ok _ _ _ g tt) by reflexivity. rewrite (sbind_ok _ _ _ g (fe, i)) by reflexivity. cbn [fst snd].
      rewrite (getRow_ok m i) by auto. rewrite (sbind_ok _ _ _ g (nth i (rows m) [])) by reflexivity.
      rewrite (sbind_ok _ _ _ g1 tt) by reflexivity. exact Ee.
    - cbn [go_d go_box]. split; [|auto]. unfold reports. cbn. repeat (split; auto).
  Qed.
End Best.
