(** C92-C95: the text of data files. *)
From Coq Require Import Ascii String ZArith Bool Arith Reals Lra List Lia.
From Verif Require Import Base StM Num RealNum VecModel MatModel MatSpec MatLemmas MatProofs StrModel StrSpec StrProofs StrNum StrReal DriverSpec DriverText ExtModel ExtSpec ExtProofs
  DataModel CorrModel KrigModel DriverDemo CsvModel CsvSpec CsvProofs.
Import ListNotations.

Lemma put_all f t fs : put f t fs f = Some t /\ forall g, g <> f -> put f t fs g = fs g.
Proof. split; [apply put_same|intros g; apply put_other]. Qed.
Lemma put_put f t u fs g : put f t (put f u fs) g = put f t fs g.
Proof. unfold put. destruct (str_eqb g f); reflexivity. Qed.

Section Files.
  (** [writable]: the files that can be opened for writing; [fixed p]: the text printed for a number with p decimals *)
  Context (writable : str -> bool) (fixed : nat -> R -> str) (F : forall p x, fixed_text_of p x (fixed p x)).
  Local Notation save := (mat_saveAsCSV writable fixed).
  Local Notation append := (vec_appendToCSV writable fixed).

  Lemma row_line p v : ~ In nl (joined (lit ",") (map (fixed p) v)).
  Proof.
    intros I. apply in_joined in I. destruct I as [[I|[]]|(a & I & J)]; [discriminate|]. apply in_map_iff in I. destruct I as (x & <- & _). destruct (fixed_separators _ _ _ (F p x)) as (_ & _ & N). auto.
  Qed.
  Lemma row_read p v : (p <= 300)%nat -> (forall x, In x v -> in_range x) -> exists r, readRow (pieces ","%char (joined (lit ",") (map (fixed p) v))) = Ok r /\ Forall2 (rounds p) v r.
  Proof.
    intros P B. rewrite (pieces_joined ","%char).
    2:{ intros a I. apply in_map_iff in I. destruct I as (x & <- & _). destruct (fixed_separators _ _ _ (F p x)) as (NE & N & _). auto. }
    induction v as [|x v IH]; cbn [map readRow]; [exists []; split; [reflexivity|constructor]|].
    destruct (fixed_reads p x _ P (F p x)) as (y & E & RR); [apply B; now left|]. rewrite E. cbn [bind]. destruct IH as (r & -> & FR); [intros z I; apply B; now right|].
    cbn [bind]. exists (y :: r). split; [reflexivity|now constructor].
  Qed.
  Lemma rows_text p m : concat (map (fun i => rowText fixed p (vbuild (ncols m) (fun j => mget m i j))) (seq 0 (nrows m))) =
    concat (map (fun a => a ++ [nl]) (map (fun r => joined (lit ",") (map (fixed p) r)) (rows m))).
  Proof. unfold rows. rewrite !map_map. reflexivity. Qed.
  Lemma rows_read p rs : (p <= 300)%nat -> (forall r x, In r rs -> In x r -> in_range x) ->
    exists qs, readRows (map (fun r => joined (lit ",") (map (fixed p) r)) rs) = Ok qs /\ Forall2 (Forall2 (rounds p)) rs qs.
  Proof.
    intros P. induction rs as [|r rs IH]; intros B; cbn [map readRows]; [exists []; split; [reflexivity|constructor]|].
    destruct (row_read p r P) as (q & E & RR); [intros x I; apply (B r); [now left|exact I]|]. rewrite E. cbn [bind]. destruct IH as (qs & -> & FR); [intros r' x I; apply B; now right|].
    cbn [bind]. exists (q :: qs). split; [reflexivity|now constructor].
  Qed.
  Lemma Forall2_len {A B} (Q : A -> B -> Prop) l l' : Forall2 Q l l' -> length l = length l'.
  Proof. induction 1; cbn; congruence. Qed.
  Lemma Forall2_at {A B} (Q : A -> B -> Prop) l l' da db : Forall2 Q l l' -> forall i, i < length l -> Q (nth i l da) (nth i l' db).
  Proof. induction 1 as [|a b l l' H _ IH]; intros [|i] L; cbn in *; try lia; auto. apply IH. lia. Qed.
  Lemma in_mget (m : mat R) i j : length (mdata m) = nrows m * ncols m -> i < nrows m -> j < ncols m -> In (mget m i j) (mdata m).
  Proof. intros W Hi Hj. unfold mget. apply nth_In. rewrite W. nia. Qed.

  (** ** C92: a matrix is written to a file and read back *)
  Theorem C92_saved_and_read name p header m fs :
    writable name = true -> p <= 300 -> length (mdata m) = nrows m * ncols m -> 0 < nrows m -> (forall x, In x (mdata m) -> in_range x) ->
    (header = [] \/ length header = ncols m) -> (forall h, In h header -> ~ In newline_char h) ->
    exists fs' m', save name p header m fs = (fs', Ok tt) /\ (forall g, g <> name -> fs' g = fs g) /\
      mat_readFromCSV name (match header with [] => false | _ => true end) fs' = (fs', Ok m') /\
      nrows m' = nrows m /\ ncols m' = ncols m /\ length (mdata m') = nrows m * ncols m /\
      forall i j, i < nrows m -> j < ncols m -> rounds p (mget m i j) (mget m' i j).
  Proof.
    intros W P S NZ B HL HN. set (body := map (fun r => joined (lit ",") (map (fixed p) r)) (rows m)).
    set (t := (if is_empty header then [] else joined (lit ",") header ++ newline) ++ concat (map (fun a => a ++ [nl]) body)).
    pose proof (has_rows_rows m S) as HR.
    destruct (rows_read p (rows m) P) as (qs & E & FQ).
    { intros r x Ir Ix. unfold rows in Ir. apply in_map_iff in Ir. destruct Ir as (i & <- & Ii). apply in_map_iff in Ix. destruct Ix as (j & <- & Ij). apply in_seq in Ii, Ij. apply B, in_mget; auto; lia. }
    assert (LQ : length qs = nrows m) by (transitivity (length (rows m)); [symmetry; exact (Forall2_len _ _ _ FQ)|symmetry; apply HR]).
    assert (WQ : forall q, In q qs -> length q = ncols m).
    { intros q I. apply (In_nth _ _ []) in I. destruct I as (i & Hi & <-). pose proof (Forall2_len _ _ _ FQ) as LF. assert (Hi' : i < length (rows m)) by lia.
      transitivity (length (nth i (rows m) [])); [symmetry; exact (Forall2_len _ _ _ (Forall2_at _ _ _ [] [] FQ i Hi'))|]. apply HR, nth_In. exact Hi'. }
    assert (HB : forall a, In a body -> ~ In nl a) by (intros a I; apply in_map_iff in I; destruct I as (r & <- & _); apply row_line).
    assert (PB : readRows (match header with [] => pieces nl t | _ => tl (pieces nl t) end) = Ok qs).
    { rewrite <- E. fold body. f_equal. unfold t. destruct header as [|h hs].
      - cbn [is_empty app]. pose proof (pieces_concat nl body [] HB) as Q. rewrite !app_nil_r in Q. exact Q.
      - cbn [is_empty]. change newline with [nl]. rewrite <- app_assoc. cbn [app]. rewrite pieces_app.
        + cbn [tl]. pose proof (pieces_concat nl body [] HB) as Q. rewrite !app_nil_r in Q. exact Q.
        + intros I. apply in_joined in I. destruct I as [[I|[]]|(a & I & J)]; [discriminate|]. exact (HN a I J). }
    assert (NQ : qs <> []) by (intros ->; cbn in LQ; lia).
    assert (FM : exists m', fillMatrix qs = Ok m').
    { unfold fillMatrix. destruct qs as [|q0 qs']; [congruence|]. replace (forallb _ _) with true; [eauto|]. symmetry. apply forallb_forall. intros q I. apply Nat.eqb_eq. rewrite (WQ q I), (WQ q0); [reflexivity|now left]. }
    destruct FM as (m' & FM). exists (put name t (put name [] fs)), m'.
    pose proof (proj1 (fillMatrix_iff qs m') FM) as (_ & HM). destruct HM as (M1 & M2 & M3 & M4).
    assert (C' : ncols m' = ncols m). { destruct qs as [|q0 qs']; [congruence|]. rewrite <- (M2 q0), (WQ q0); [reflexivity|now left|now left]. }
    assert (N' : nrows m' = nrows m) by (rewrite M1; exact LQ).
    assert (FIN : forall i j, i < nrows m -> j < ncols m -> rounds p (mget m i j) (mget m' i j)).
    { intros i j Hi Hj. pose proof (has_rows_rows m S) as (R1 & R2 & R3 & R4). assert (Hi' : i < length (rows m)) by lia.
      pose proof (Forall2_at _ _ _ [] [] FQ i Hi') as FR. rewrite M4 by lia. rewrite R4 by assumption.
      apply (Forall2_at _ _ _ 0%R 0%R FR j). rewrite (R2 _ (nth_In _ _ Hi')). assumption. }
    repeat split.
    - unfold mat_saveAsCSV, sbind, sthrow_if, smod. rewrite W. cbn [negb].
      match goal with |- context [if ?b then sthrow InvalidArgument else _] => assert (HB0 : b = false) end.
      { destruct HL as [->|HL]; [reflexivity|]. apply andb_false_intro2. apply negb_false_iff, Nat.eqb_eq. exact HL. }
      rewrite HB0. unfold sret. rewrite rows_text. reflexivity.
    - intros g NE. now rewrite !put_other by exact NE.
    - unfold mat_readFromCSV, sbind, sget. rewrite put_same. unfold slift, csvMatrix. cbv zeta.
      replace (if match header with [] => false | _ => true end then tl (pieces nl t) else pieces nl t) with (match header with [] => pieces nl t | _ => tl (pieces nl t) end) by (destruct header; reflexivity).
      rewrite PB. cbn [bind]. now rewrite FM.
    - exact N'.
    - exact C'.
    - congruence.
    - apply FIN; assumption.
    - apply FIN; assumption.
  Qed.
  (** what was read from a file is written and read again without any further change: multiples of 10^-p are kept exactly *)
  Theorem C92_kept_exactly name p header m fs fs' m' :
    writable name = true -> p <= 300 -> length (mdata m) = nrows m * ncols m -> 0 < nrows m -> (forall x, In x (mdata m) -> in_range x) ->
    (header = [] \/ length header = ncols m) -> (forall h, In h header -> ~ In newline_char h) -> (forall x, In x (mdata m) -> decimals p x) ->
    save name p header m fs = (fs', Ok tt) -> mat_readFromCSV name (match header with [] => false | _ => true end) fs' = (fs', Ok m') -> m' = m.
  Proof.
    intros W P S NZ B HL HN D E1 E2. destruct (C92_saved_and_read name p header m fs W P S NZ B HL HN) as (fs2 & m2 & Q1 & _ & Q2 & A1 & A2 & A3 & A4).
    assert (fs2 = fs') by congruence. subst fs2. assert (m2 = m') by congruence. subst m2.
    assert (H : mdata m' = mdata m).
    { apply (nth_ext _ _ 0%R 0%R); [congruence|]. intros k Hk. rewrite A3 in Hk. assert (Hm : k mod nrows m < nrows m) by (apply Nat.mod_upper_bound; lia).
      assert (Hd : k / nrows m < ncols m) by (apply Nat.div_lt_upper_bound; lia). pose proof (A4 _ _ Hm Hd) as RR. unfold mget in RR. rewrite A1 in RR.
      assert (K : k / nrows m * nrows m + k mod nrows m = k) by (rewrite (Nat.div_mod k (nrows m)) at 3 by lia; lia). rewrite K in RR.
      apply (rounds_decimals p); [|exact RR]. apply D, nth_In. cbn [n0 RNum]. rewrite S. exact Hk. }
    destruct m as [a b c], m' as [a' b' c']. cbn [nrows ncols mdata] in *. congruence.
  Qed.
  (** a header of the wrong length is refused, but the old contents of the file are gone by then *)
  Theorem C92_header_refused name p header m fs : writable name = true -> header <> [] -> length header <> ncols m ->
    exists fs', save name p header m fs = (fs', Throw InvalidArgument) /\ fs' name = Some [] /\ forall g, g <> name -> fs' g = fs g.
  Proof.
    intros W NE L. exists (put name [] fs). split; [|split; [apply put_same|intros g; apply put_other]].
    unfold mat_saveAsCSV, sbind, sthrow_if, smod. rewrite W. cbn [negb]. destruct header as [|h hs]; [congruence|]. cbn [is_empty negb andb]. apply Nat.eqb_neq in L. now rewrite L.
  Qed.
  Theorem C92_not_writable name p header m fs : writable name = false -> save name p header m fs = (fs, Throw RuntimeError).
  Proof. intros W. unfold mat_saveAsCSV, sbind, sthrow_if. now rewrite W. Qed.
  (** a matrix without rows is written but cannot be read back *)
  Theorem C92_no_rows name p m fs : writable name = true -> nrows m = 0 ->
    exists fs', save name p [] m fs = (fs', Ok tt) /\ mat_readFromCSV (T := R) name false fs' = (fs', Throw RuntimeError).
  Proof.
    intros W Z. eexists. split. { unfold mat_saveAsCSV, sbind, sthrow_if, smod. rewrite W. cbn. rewrite Z. cbn. reflexivity. }
    unfold mat_readFromCSV, sbind, sget. rewrite put_same. reflexivity.
  Qed.
  (** small numbers are lost: a sample between its bounds is read back outside of them *)
  Theorem C92_box_refuted : exists m : mat R, forall name fs, writable name = true -> nrows m = 1 /\ ncols m = 1 /\ (/ 10 ^ 7 <= mget m 0 0 <= 3 / 10 ^ 7)%R /\
    exists fs' m', save name 6 [] m fs = (fs', Ok tt) /\ mat_readFromCSV name false fs' = (fs', Ok m') /\ mget m' 0 0 = 0%R.
  Proof.
    exists (mkMat 1 1 [(2 / 10 ^ 7)%R]). intros name fs W. split; [reflexivity|]. split; [reflexivity|]. split; [unfold mget; cbn [nth mdata nrows Nat.mul Nat.add]; lra|].
    destruct (C92_saved_and_read name 6 [] (mkMat 1 1 [(2 / 10 ^ 7)%R]) fs W ltac:(lia) eq_refl ltac:(cbn; lia)) as (fs' & m' & E1 & _ & E2 & A1 & A2 & A3 & A4).
    - intros x [<-|[]]. unfold in_range. rewrite Rabs_pos_eq by lra. pose proof (range_max 1000000 ltac:(rewrite Rabs_pos_eq; lra)) as RM. rewrite Rabs_pos_eq in RM; lra.
    - now left.
    - intros h [].
    - exists fs', m'. split; [exact E1|]. split; [exact E2|]. destruct (A4 0 0) as [(k & Ek) RR]; [cbn; lia|cbn; lia|]. cbn [mget nth mdata nrows Nat.mul Nat.add] in RR.
      change (mget (mkMat 1 1 [(2 / 10 ^ 7)%R]) 0 0) with (2 / 10 ^ 7)%R in RR. rewrite Ek in RR |- *. apply Rabs_le_between in RR.
      assert (IZR k < 1)%R by lra. assert (-1 < IZR k)%R by lra. assert (k = 0)%Z. { assert (k < 1)%Z by (now apply lt_IZR). assert (-1 < k)%Z by (now apply lt_IZR). lia. } subst k. lra.
  Qed.

  (** ** C93: what a file means *)
  Theorem C93_matrix name b fs fs' m : mat_readFromCSV name b fs = (fs', Ok m) <->
    fs' = fs /\ exists t lines rs, fs name = Some t /\ cut newline_char t lines /\ text_numbers (if b : bool then tl lines else lines) rs /\ rs <> [] /\ has_rows m rs.
  Proof.
    unfold mat_readFromCSV, sbind, sget. destruct (fs name) as [t|]; [|split; [discriminate|intros (_ & t & ? & ? & H & _); discriminate]]. unfold slift, csvMatrix. cbv zeta. split.
    - intros H. assert (fs' = fs) by congruence. subst fs'. split; [reflexivity|]. assert (Q : (rs <- readRows (if b then tl (pieces nl t) else pieces nl t);; fillMatrix rs) = Ok m) by congruence. clear H.
      destruct (readRows _) as [rs|e|] eqn:E; cbn [bind] in Q; try discriminate. apply fillMatrix_iff in Q. exists t, (pieces nl t), rs. split; [reflexivity|]. split; [now apply cut_pieces|]. split; [now apply text_numbers_iff|exact Q].
    - intros (-> & t' & lines & rs & [= <-] & C & TN & NE & HR). apply cut_pieces in C. change newline_char with nl in C. rewrite C. apply text_numbers_iff in TN. rewrite TN. cbn [bind].
      rewrite (proj2 (fillMatrix_iff rs m) (conj NE HR)). reflexivity.
  Qed.
  Theorem C93_failures name b fs fs' r : mat_readFromCSV (T := R) name b fs = (fs', r) ->
    fs' = fs /\
    (fs name = None -> r = Throw RuntimeError) /\
    (forall t lines, fs name = Some t -> cut newline_char t lines -> (forall rs, ~ text_numbers (if b : bool then tl lines else lines) rs) -> r = Throw InvalidArgument \/ r = Throw OutOfRange) /\
    (forall t lines rs, fs name = Some t -> cut newline_char t lines -> text_numbers (if b : bool then tl lines else lines) rs ->
       rs = [] \/ (exists q q', In q rs /\ In q' rs /\ length q <> length q') -> r = Throw RuntimeError).
  Proof.
    unfold mat_readFromCSV, sbind, sget. intros H. destruct (fs name) as [t|] eqn:E; unfold slift, sthrow in H.
    - assert (fs' = fs) by congruence. subst fs'. assert (Q : csvMatrix b t = r) by congruence. clear H. subst r. split; [reflexivity|]. split; [discriminate|]. unfold csvMatrix. cbv zeta. split.
      + intros t' lines [= <-] C N. apply cut_pieces in C. change newline_char with nl in C. rewrite C.
        destruct (readRows_outcomes (T := R) (if b then tl lines else lines)) as [(rs & Hr)|[-> | ->]]; cbn [bind]; auto. apply text_numbers_iff in Hr. destruct (N rs Hr).
      + intros t' lines rs [= <-] C TN X. apply cut_pieces in C. change newline_char with nl in C. rewrite C. apply text_numbers_iff in TN. rewrite TN. cbn [bind]. destruct X as [->|(q & q' & I & I' & L)]; [reflexivity|].
        destruct (fillMatrix rs) as [m|e|] eqn:FM; [|unfold fillMatrix in FM; destruct rs; [congruence|]; destruct (forallb _ _); congruence|unfold fillMatrix in FM; destruct rs; [congruence|]; destruct (forallb _ _); congruence].
        apply fillMatrix_iff in FM. destruct FM as (_ & _ & HW & _). destruct L. now rewrite (HW q I), (HW q' I').
    - assert (fs' = fs) by congruence. subst fs'. split; [reflexivity|]. split; [intros _; congruence|]. split; discriminate.
  Qed.

  (** ** C94: a sample is appended to a file *)
  Lemma append_eq name p v fs : writable name = true -> (forall t l ls, fs name = Some t -> pieces nl t = l :: ls -> length (pieces ","%char l) = length v) ->
    append name p v fs = (put name (match fs name with None => [] | Some t => t end ++ rowText fixed p v) fs, Ok tt).
  Proof.
    intros W C. unfold vec_appendToCSV, sbind, sget, smod. destruct (fs name) as [t|] eqn:E; cbn [sret].
    - destruct (pieces nl t) as [|l ls] eqn:PC; cbn [sret].
      + unfold sthrow_if. rewrite W. cbn [negb]. reflexivity.
      + unfold sthrow_if at 1. rewrite (C t l ls eq_refl PC), Nat.eqb_refl. cbn [negb]. unfold sret, sthrow_if. rewrite W. cbn [negb]. reflexivity.
    - unfold sret, sthrow_if. rewrite W. cbn [negb]. reflexivity.
  Qed.
  (** [holds t rs]: the text consists of complete lines, and they hold the rows rs *)
  Definition holds (t : str) (rs : list (list R)) : Prop := (t = [] \/ exists u, t = u ++ [newline_char]) /\ exists lines, cut newline_char t lines /\ text_numbers lines rs.
  Lemma holds_append t rs p v : p <= 300 -> (forall x, In x v -> in_range x) -> holds t rs -> exists r, Forall2 (rounds p) v r /\ holds (t ++ rowText fixed p v) (rs ++ [r]).
  Proof.
    intros P B (ET & lines & C & TN). destruct (row_read p v P B) as (r & E & RR). exists r. split; [exact RR|]. split.
    - right. exists (t ++ joined (lit ",") (map (fixed p) v)). unfold rowText. change newline with [nl]. now rewrite app_assoc.
    - exists (lines ++ [joined (lit ",") (map (fixed p) v)]). apply cut_pieces in C. change newline_char with nl in *. split.
      + apply cut_pieces. rewrite pieces_ends by exact ET. rewrite C. f_equal. unfold rowText. change newline with [nl]. rewrite pieces_app by apply row_line. reflexivity.
      + apply Forall2_app; [exact TN|]. constructor; [|constructor]. now apply row_numbers_iff.
  Qed.
  Lemma first_cells t rs l ls : holds t rs -> pieces nl t = l :: ls -> forall v, (forall r, In r rs -> length r = length v) -> length (pieces ","%char l) = length (v : vec R).
  Proof.
    intros (_ & lines & C & TN) PC v W. apply cut_pieces in C. change newline_char with nl in C. rewrite PC in C. subst lines. inversion TN as [|? r ? rs' H _]; subst. apply row_numbers_iff in H. apply readRow_iff in H.
    rewrite (Forall2_len _ _ _ H). apply W. now left.
  Qed.
  (** a file of complete lines and rows as long as the sample gets one more row, the sample rounded to p decimals *)
  Theorem C94_append name p v fs t rs : writable name = true -> p <= 300 -> (forall x, In x v -> in_range x) ->
    fs name = Some t -> holds t rs -> (forall r, In r rs -> length r = length v) ->
    exists fs' t' r, append name p v fs = (fs', Ok tt) /\ (forall g, g <> name -> fs' g = fs g) /\ fs' name = Some t' /\ holds t' (rs ++ [r]) /\ Forall2 (rounds p) v r.
  Proof.
    intros W P B E H L. destruct (holds_append t rs p v P B H) as (r & RR & H'). eexists _, _, r. split.
    - apply append_eq; [exact W|]. intros t0 l ls E0 PC. assert (t0 = t) by congruence. subst t0. exact (first_cells t rs l ls H PC v L).
    - rewrite E. split; [intros g; apply put_other|]. split; [apply put_same|]. auto.
  Qed.
  Theorem C94_created name p v fs : writable name = true -> p <= 300 -> (forall x, In x v -> in_range x) -> fs name = None ->
    exists fs' t' r, append name p v fs = (fs', Ok tt) /\ (forall g, g <> name -> fs' g = fs g) /\ fs' name = Some t' /\ holds t' [r] /\ Forall2 (rounds p) v r.
  Proof.
    intros W P B E. destruct (holds_append [] [] p v P B) as (r & RR & H'). { split; [now left|]. exists []. split; constructor. } eexists _, _, r. split.
    - apply append_eq; [exact W|]. intros t0 l ls E0. congruence.
    - rewrite E. split; [intros g; apply put_other|]. split; [apply put_same|]. auto.
  Qed.
  (** any number of samples *)
  Theorem C94_many name p : writable name = true -> p <= 300 -> forall vs fs t rs d, fs name = Some t -> holds t rs -> (forall r, In r rs -> length r = d) ->
    (forall v, In v vs -> length v = d /\ forall x, In x v -> in_range x) ->
    exists fs' t' qs, sfor vs (append name p) fs = (fs', Ok tt) /\ (forall g, g <> name -> fs' g = fs g) /\ fs' name = Some t' /\ holds t' (rs ++ qs) /\ Forall2 (Forall2 (rounds p)) vs qs.
  Proof.
    intros W P. induction vs as [|v vs IH]; intros fs t rs d E H L V.
    - exists fs, t, []. rewrite app_nil_r. split; [reflexivity|]. split; [reflexivity|]. split; [exact E|]. split; [exact H|constructor].
    - destruct (V v (or_introl eq_refl)) as [LV BV]. destruct (C94_append name p v fs t rs W P BV E H) as (fs1 & t1 & r & E1 & O1 & N1 & H1 & R1). { intros r I. rewrite LV. auto. }
      destruct (IH fs1 t1 (rs ++ [r]) d N1 H1) as (fs2 & t2 & qs & E2 & O2 & N2 & H2 & R2).
      + intros q I. apply in_app_or in I. destruct I as [I|[<-|[]]]; [auto|]. rewrite <- (Forall2_len _ _ _ R1). exact LV.
      + intros w I. apply V. now right.
      + exists fs2, t2, (r :: qs). cbn [sfor]. unfold sbind. rewrite E1. split; [exact E2|]. split; [intros g NE; now rewrite O2, O1|]. split; [exact N2|]. rewrite <- app_assoc in H2. split; [exact H2|now constructor].
  Qed.
  (** a sample of another length is refused, and nothing is written *)
  Theorem C94_refused name p v fs t l ls : fs name = Some t -> cut newline_char t (l :: ls) -> (forall cells, cut ","%char l cells -> length cells <> length v) ->
    append name p v fs = (fs, Throw RuntimeError).
  Proof.
    intros E C N. apply cut_pieces in C. change newline_char with nl in C. unfold vec_appendToCSV, sbind, sget. rewrite E, C. assert (X : length (pieces ","%char l) <> length v) by (apply N; now apply cut_pieces).
    apply Nat.eqb_neq in X. unfold sthrow_if at 1. now rewrite X.
  Qed.
  (** the rows a file holds are the rows of the matrix read from it *)
  Theorem C94_read name t rs fs : fs name = Some t -> holds t rs -> rs <> [] -> (exists d, forall r, In r rs -> length r = d) ->
    exists m, mat_readFromCSV name false fs = (fs, Ok m) /\ has_rows m rs.
  Proof.
    intros E (_ & lines & C & TN) NE (d & L). assert (FM : exists m, fillMatrix rs = Ok m).
    { unfold fillMatrix. destruct rs as [|q0 qs']; [congruence|]. replace (forallb _ _) with true; [eauto|]. symmetry. apply forallb_forall. intros q I. apply Nat.eqb_eq. rewrite (L q I), (L q0); [reflexivity|now left]. }
    destruct FM as (m & FM). apply fillMatrix_iff in FM. exists m. split; [|apply FM]. apply C93_matrix. split; [reflexivity|]. exists t, lines, rs. tauto.
  Qed.
  (** the step of the model of addNewSampleToData: the matrix of the file gets the sample, every number replaced by what is read back for it *)
  Definition reread (p : nat) (x : R) : R := match stod (fixed p x) with Ok y => y | _ => 0%R end.
  Theorem C94_sample_rounding p x : p <= 300 -> in_range x -> rounds p x (reread p x).
  Proof. intros P B. unfold reread. destruct (fixed_reads p x _ P (F p x) B) as (y & -> & RR). exact RR. Qed.
  Theorem C94_matrix_step name p v fs t m : writable name = true -> p <= 300 -> (forall x, In x v -> in_range x) -> fs name = Some t -> (t = [] \/ exists u, t = u ++ [newline_char]) ->
    mat_readFromCSV name false fs = (fs, Ok m) -> 0 < ncols m -> length v = ncols m ->
    exists fs' m', append name p v fs = (fs', Ok tt) /\ mat_readFromCSV name false fs' = (fs', Ok m') /\ rows m' = rows m ++ [map (reread p) v] /\
      mat_addRow m (map (reread p) v) (-1) = (m', Ok tt).
  Proof.
    intros W P B E ET RD C0 L. apply C93_matrix in RD. destruct RD as (_ & t' & lines & rs & E' & C & TN & NE & HR). assert (t' = t) by congruence. subst t'.
    assert (H : holds t rs) by (split; [exact ET|eauto]). assert (LV : forall r, In r rs -> length r = length v) by (intros r I; rewrite L; now apply HR).
    destruct (C94_append name p v fs t rs W P B E H LV) as (fs' & t' & r & A1 & A2 & A3 & A4 & A5). exists fs'.
    assert (R1 : r = map (reread p) v).
    { destruct A4 as (_ & ls & C4 & T4). pose proof (append_eq name p v fs W) as AE. rewrite AE in A1; [|intros t0 l0 ls0 E0 PC; assert (t0 = t) by congruence; subst t0; exact (first_cells t rs l0 ls0 H PC v LV)]. rewrite E in A1.
      assert (FS : put name (t ++ rowText fixed p v) fs = fs') by congruence. rewrite <- FS, put_same in A3. assert (TT : t ++ rowText fixed p v = t') by congruence. rewrite <- TT in C4. clear - C4 T4 ET F P B.
      apply cut_pieces in C4. change newline_char with nl in *. rewrite pieces_ends in C4 by exact ET. unfold rowText in C4. change newline with [nl] in C4. rewrite pieces_app in C4 by apply row_line. cbn [pieces] in C4. subst ls.
      apply Forall2_app_inv_l in T4. destruct T4 as (l1 & l2 & _ & T2 & EQ). inversion T2 as [|? q ? ? RN T3]; subst. inversion T3; subst. apply app_inj_tail in EQ. destruct EQ as [_ ->].
      apply row_numbers_iff in RN. rewrite (pieces_joined ","%char) in RN. 2:{ intros a I. apply in_map_iff in I. destruct I as (x & <- & _). destruct (fixed_separators _ _ _ (F p x)) as (NE & N & _). auto. }
      apply readRow_iff in RN. clear - RN. revert q RN. induction v as [|x v IH]; intros q RN; inversion RN as [|? y ? w E EW]; subst; [reflexivity|]. cbn [map]. f_equal; [|apply IH; exact EW]. unfold reread. now rewrite E. }
    assert (WR : forall q, In q (rs ++ [r]) -> length q = length v). { intros q I. apply in_app_or in I. destruct I as [I|[<-|[]]]; [auto|]. symmetry. exact (Forall2_len _ _ _ A5). }
    destruct (C94_read name t' (rs ++ [r]) fs' A3 A4) as (m' & RD' & HR'); [destruct rs; discriminate|eauto|]. exists m'. split; [exact A1|]. split; [exact RD'|].
    assert (RM : rows m = rs) by (apply (has_rows_eq m); [apply has_rows_rows; apply HR|exact HR]). assert (RM' : rows m' = rs ++ [r]) by (apply (has_rows_eq m'); [apply has_rows_rows; apply HR'|exact HR']).
    split; [congruence|].
    assert (TB : table m) by (split; [apply HR|intros _; exact C0]).
    assert (NV : map (reread p) v <> []) by (destruct v; [cbn in L; lia|discriminate]).
    pose proof (addRow_step m (map (reread p) v) (-1) TB ltac:(lia) NV) as AR. unfold spec_rowop in AR. cbn [Z.eqb] in AR. rewrite RM in AR.
    replace (fits (map (reread p) v) rs) with true in AR. 2:{ symmetry. unfold fits. destruct rs as [|r0 rs']; [reflexivity|]. apply Nat.eqb_eq. rewrite map_length. symmetry. apply LV. now left. }
    rewrite Z.leb_refl in AR. cbn [andb] in AR. destruct AR as (m2 & A6 & A7 & A8 & A9). rewrite A6. f_equal.
    assert (F1 : fillMatrix (rs ++ [r]) = Ok m'). { apply fillMatrix_iff. split; [destruct rs; discriminate|exact HR']. }
    assert (F2 : fillMatrix (rs ++ [r]) = Ok m2).
    { apply fillMatrix_iff. split; [destruct rs; discriminate|]. replace (rs ++ [r]) with (rows m2); [apply has_rows_rows; apply A7|]. rewrite A8, R1. unfold insert_at. cbn [Pos.eqb]. rewrite Nat2Z.id, firstn_all, skipn_all. reflexivity. }
    congruence.
  Qed.
End Files.

(** ** C95: vectors and hyper-parameters in files *)
Lemma first_of_printed x t : prints x t -> (2 * Rabs x <= ndblmax)%R -> exists v, first_number t v /\ six_digits_of x v.
Proof.
  intros (v & (m & e & ST & E) & S) B. exists v. split; [|exact S]. exists m, e, []. split; [exact ST|]. split; [exact E|].
  pose proof (six_digits_close x v S) as C. pose proof (Rabs_triang_inv v x) as TI. rewrite (Rabs_minus_sym x v) in C. pose proof (Rabs_pos v). pose proof (Rabs_pos x). lra.
Qed.
Lemma denotes_nonempty t v : denotes t v -> t <> [].
Proof. intros (m & e & ST & _) ->. apply stream_number_iff in ST. vm_compute in ST. discriminate. Qed.
Lemma readColumn_iff lines (vs : vec R) : readColumn lines = Ok vs <-> Forall2 first_number lines vs.
Proof.
  revert vs. induction lines as [|l lines IH]; intros vs; cbn [readColumn].
  - split; [intros [= <-]; constructor|intros H; inversion H; reflexivity].
  - split.
    + destruct (readValues 1 l) as [w|e|] eqn:E; cbn [bind]; try discriminate. apply read_one in E. destruct E as (v & -> & FN).
      destruct (readColumn lines) as [r|e|] eqn:E; cbn [bind]; try discriminate. intros [= <-]. constructor; [exact FN|]. now apply IH.
    + intros H. inversion H as [|? v ? r FN FR]; subst. assert (E : readValues 1 l = Ok [v]) by (apply read_one; eauto). rewrite E. cbn [bind]. apply IH in FR. rewrite FR. reflexivity.
Qed.
Lemma readColumn_outcomes lines : (exists vs : vec R, readColumn lines = Ok vs) \/ readColumn (T := R) lines = Throw RuntimeError.
Proof.
  induction lines as [|l lines IH]; cbn [readColumn]; [eauto|]. destruct (read_none 1 l) as [(w & ->)| ->]; cbn [bind]; [|auto]. destruct IH as [(r & ->)| ->]; cbn [bind]; eauto.
Qed.
(** the numbers of a file of one column: the first number of every line; a file without them cannot be read, and no file is changed *)
Theorem C95_column name fs fs' vs : vec_readFromCSV (T := R) name fs = (fs', Ok vs) <->
  fs' = fs /\ exists t lines, fs name = Some t /\ cut newline_char t lines /\ Forall2 first_number lines vs.
Proof.
  unfold vec_readFromCSV, sbind, sget. destruct (fs name) as [t|]; [|split; [discriminate|intros (_ & t & ? & H & _); discriminate]]. unfold slift. split.
  - intros H. assert (fs' = fs) by congruence. split; [assumption|]. exists t, (pieces nl t). split; [reflexivity|]. split; [now apply cut_pieces|]. apply readColumn_iff. congruence.
  - intros (-> & t' & lines & [= <-] & C & H). apply cut_pieces in C. change newline_char with nl in C. rewrite C. apply readColumn_iff in H. now rewrite H.
Qed.
Theorem C95_column_fails name fs fs' r : vec_readFromCSV (T := R) name fs = (fs', r) -> fs' = fs /\ ((exists vs, r = Ok vs) \/ r = Throw RuntimeError).
Proof.
  unfold vec_readFromCSV, sbind, sget, slift, sthrow. destruct (fs name) as [t|]; intros H; (split; [congruence|]); [|right; congruence].
  destruct (readColumn_outcomes (pieces nl t)) as [(vs & E)|E]; rewrite E in H; [left|right]; [exists vs|]; congruence.
Qed.

Section General.
  Context (writable : str -> bool) (general : R -> str).
  (** the text printed for a number is on one line *)
  Definition printed_well (x : R) : Prop := prints x (general x) /\ ~ In newline_char (general x) /\ (2 * Rabs x <= ndblmax)%R.

  Theorem C95_saved_and_read name v fs : writable name = true -> (forall x, In x v -> printed_well x) ->
    exists fs' vs, vec_saveToCSV writable general name v fs = (fs', Ok tt) /\ (forall g, g <> name -> fs' g = fs g) /\
      vec_readFromCSV name fs' = (fs', Ok vs) /\ Forall2 six_digits_of v vs.
  Proof.
    intros W B. exists (put name (joined newline (map general v)) fs).
    assert (V : exists vs, Forall2 first_number (map general v) vs /\ Forall2 six_digits_of v vs).
    { clear W. induction v as [|x v IH]; [exists []; split; constructor|]. destruct (B x) as (P & _ & L); [now left|]. destruct (first_of_printed x _ P L) as (y & FY & SY).
      destruct IH as (vs & A & C); [intros z I; apply B; now right|]. exists (y :: vs). split; constructor; auto. }
    destruct V as (vs & A & C). exists vs. split; [|split; [intros g; apply put_other|split; [|exact C]]].
    - unfold vec_saveToCSV, sbind, sthrow_if, smod. rewrite W. reflexivity.
    - apply C95_column. split; [reflexivity|]. eexists _, _. split; [apply put_same|]. split; [|exact A]. apply cut_pieces. change newline with [nl]. apply pieces_joined.
      intros a I. apply in_map_iff in I. destruct I as (x & <- & Ix). destruct (B x Ix) as ((y & D & _) & N & _). split; [exact N|]. now apply denotes_nonempty in D.
  Qed.
  Lemma Forall2_firstn {A B} (Q : A -> B -> Prop) l l' n : Forall2 Q l l' -> Forall2 Q (firstn n l) (firstn n l').
  Proof. intros H. revert n. induction H; intros [|n]; cbn; constructor; auto. Qed.
  Lemma Forall2_skipn {A B} (Q : A -> B -> Prop) l l' n : Forall2 Q l l' -> Forall2 Q (skipn n l) (skipn n l').
  Proof. intros H. revert n. induction H; intros [|n]; cbn; auto. Qed.
  Lemma hyper_two d (th ga : vec R) : length th = d -> length ga = d -> vbuild (2 * d) (fun i => if Nat.ltb i d then vget th i else vget ga (i - d)) = th ++ ga.
  Proof.
    intros A B. apply (nth_ext _ _ 0%R 0%R); [rewrite vbuild_length, app_length; lia|]. intros i Hi. rewrite vbuild_length in Hi. unfold vbuild. rewrite (nth_indep _ 0%R (if Nat.ltb (2 * d) d then vget th (2 * d) else vget ga (2 * d - d))) by (rewrite map_length, seq_length; exact Hi).
    rewrite (map_nth (fun i => if Nat.ltb i d then vget th i else vget ga (i - d))), seq_nth by exact Hi. cbn [Nat.add]. destruct (Nat.ltb_spec i d) as [L|L].
    - rewrite app_nth1 by lia. reflexivity.
    - rewrite app_nth2 by lia. rewrite A. reflexivity.
  Qed.
  (** the hyper-parameters of a model saved to a file and loaded into an initialised model of the same dimension *)
  Theorem C95_hyper_parameters name (k k2 : krig R) fs d : writable name = true -> name <> [] -> 0 < d ->
    cb_dim (ec_b (k_cf k)) = d -> length (ec_theta (k_cf k)) = d -> length (ec_gamma (k_cf k)) = d -> (forall x, In x (ec_theta (k_cf k) ++ ec_gamma (k_cf k)) -> printed_well x) ->
    k_dim k2 = d -> k_nhyp k2 = 2 * d -> d_dim (k_data k2) = d -> cb_dim (ec_b (k_cf k2)) = d ->
    exists fs' th ga, krig_saveHyper writable general name k fs = (fs', Ok tt) /\ (forall g, g <> name -> fs' g = fs g) /\
      krig_loadHyperFile name fs' k2 = (kset_cf (mkE (ec_b (k_cf k2)) th ga) k2, Ok tt) /\
      Forall2 six_digits_of (ec_theta (k_cf k)) th /\ Forall2 six_digits_of (ec_gamma (k_cf k)) ga.
  Proof.
    intros W NE D0 CD LT LG B KD KN DD CD2. destruct (C95_saved_and_read name (ec_theta (k_cf k) ++ ec_gamma (k_cf k)) fs W B) as (fs' & vs & E1 & E2 & E3 & E4).
    assert (LV : length vs = 2 * d). { transitivity (length (ec_theta (k_cf k) ++ ec_gamma (k_cf k))); [symmetry; exact (Forall2_len _ _ _ E4)|rewrite app_length; lia]. }
    assert (NN : is_empty name = false) by (destruct name; [congruence|reflexivity]).
    exists fs', (firstn d vs), (skipn d vs). split; [|split; [exact E2|split; [|split]]].
    - unfold krig_saveHyper, krig_getHyper, ecf_getHyper, sbind, sthrow_if, slift. rewrite NN. unfold sret. rewrite CD. destruct (Nat.eqb_spec d 0) as [Z|_]; [lia|].
      replace (Nat.ltb (length (ec_theta (k_cf k))) d || Nat.ltb (length (ec_gamma (k_cf k))) d)%bool with false by (rewrite LT, LG, Nat.ltb_irrefl; reflexivity). rewrite (hyper_two d) by assumption. exact E1.
    - assert (LF : length (firstn d vs) = d) by (rewrite firstn_length; lia). assert (LS : length (skipn d vs) = d) by (rewrite skipn_length; lia).
      unfold krig_loadHyperFile, krig_loadHyper, sbind, sget, sthrow_if, slift, swhen. rewrite KD, NN. destruct (Nat.eqb_spec d 0) as [Z|_]; [lia|]. unfold sret. rewrite E3. cbn [snd]. rewrite KD. destruct (Nat.eqb_spec d 0) as [Z|_]; [lia|].
      rewrite LV, KN, Nat.eqb_refl. unfold vec_head, vec_tail. rewrite DD, LV. destruct (Nat.ltb_spec (2 * d) d) as [Z|_]; [lia|]. replace (2 * d - d) with d by lia.
      unfold in_kcf, szoom, ecf_setTheta. rewrite CD2, LF. destruct (Nat.eqb_spec d 0) as [Z|_]; [lia|]. rewrite Nat.eqb_refl. cbn [orb negb].
      unfold ecf_setGamma. cbn [k_cf kset_cf ec_b ec_theta]. rewrite CD2, LS. destruct (Nat.eqb_spec d 0) as [Z|_]; [lia|]. rewrite Nat.eqb_refl. cbn [orb negb]. reflexivity.
    - pose proof (Forall2_firstn _ _ _ d E4) as Q. rewrite firstn_app, LT, Nat.sub_diag, <- LT, firstn_all in Q. cbn [firstn] in Q. rewrite app_nil_r in Q. now rewrite LT in Q.
    - pose proof (Forall2_skipn _ _ _ d E4) as Q. rewrite skipn_app, LT, Nat.sub_diag, <- LT, skipn_all in Q. cbn [skipn app] in Q. now rewrite LT in Q.
  Qed.
End General.
(** a file with another number of numbers is ignored without an error: the model keeps its hyper-parameters *)
Theorem C95_other_size_ignored name (k : krig R) fs t lines vs : name <> [] -> k_dim k <> 0 -> fs name = Some t -> cut newline_char t lines -> Forall2 first_number lines vs -> length vs <> k_nhyp k ->
  krig_loadHyperFile name fs k = (k, Ok tt).
Proof.
  intros NE KD E C FV L. assert (NN : is_empty name = false) by (destruct name; [congruence|reflexivity]). apply Nat.eqb_neq in KD, L.
  assert (RD : vec_readFromCSV name fs = (fs, Ok vs)) by (apply C95_column; eauto 6).
  unfold krig_loadHyperFile, krig_loadHyper, sbind, sget, sthrow_if, slift, swhen. rewrite KD, NN. unfold sret. rewrite RD. cbn [snd]. rewrite KD, L. reflexivity.
Qed.
(** a file that is missing or has a line without a number: an error, and the model is as before *)
Theorem C95_unreadable name (k : krig R) fs : name <> [] -> k_dim k <> 0 -> (forall t lines vs, fs name = Some t -> cut newline_char t lines -> ~ Forall2 first_number lines vs) ->
  krig_loadHyperFile name fs k = (k, Throw RuntimeError).
Proof.
  intros NE KD N. assert (NN : is_empty name = false) by (destruct name; [congruence|reflexivity]). apply Nat.eqb_neq in KD.
  destruct (vec_readFromCSV (T := R) name fs) as [fs' r] eqn:E. destruct (C95_column_fails _ _ _ _ E) as [-> [(vs & ->)| ->]].
  - apply C95_column in E. destruct E as (_ & t & lines & A & B & C). destruct (N t lines vs A B C).
  - unfold krig_loadHyperFile, sbind, sget, sthrow_if, slift. rewrite KD, NN. unfold sret. rewrite E. reflexivity.
Qed.

(** what follows the number in a cell is ignored; an empty line in the file makes it unreadable; a comma at the end of a line does not matter *)
Theorem C93_garbage_refuted : exists fs m, mat_readFromCSV (T := R) (lit "f.csv") false fs = (fs, Ok m) /\ fs (lit "f.csv") = Some (lit "1.5abc,2;7" ++ [newline_char]) /\ has_rows m [[3 / 2; 2]%R].
Proof.
  exists (put (lit "f.csv") (lit "1.5abc,2;7" ++ [newline_char]) (fun _ => None)), (mkMat 1 2 [(3 / 2)%R; 2%R]).
  assert (HR : has_rows (mkMat 1 2 [(3 / 2)%R; 2%R]) [[3 / 2; 2]%R]).
  { split; [reflexivity|]. split; [intros r [<-|[]]; reflexivity|]. split; [reflexivity|]. intros i j Hi Hj. cbn in Hi, Hj. destruct i as [|i]; [|lia]. destruct j as [|[|j]]; [reflexivity|reflexivity|lia]. }
  split; [|split; [apply put_same|exact HR]]. apply C93_matrix. split; [reflexivity|]. exists (lit "1.5abc,2;7" ++ [newline_char]), [lit "1.5abc,2;7"], [[3 / 2; 2]%R].
  split; [apply put_same|]. split; [apply cut_pieces; reflexivity|]. split; [|split; [discriminate|exact HR]]. constructor; [|constructor]. exists [lit "1.5abc"; lit "2;7"]. split; [apply cut_pieces; reflexivity|].
  constructor; [|constructor; [|constructor]].
  - eapply number_simple; [vm_compute; reflexivity| |right; left; lra]. unfold powerRZ. change (Pos.to_nat 1) with 1. cbn. lra.
  - eapply number_simple; [vm_compute; reflexivity| |right; left; lra]. cbn. lra.
Qed.
Theorem C93_blank_line name fs t lines : fs name = Some t -> cut newline_char t lines -> In [] lines ->
  (exists l, In l lines /\ exists c, cut ","%char l c /\ c <> []) -> forall m, mat_readFromCSV (T := R) name false fs <> (fs, Ok m).
Proof.
  intros E C I (l & Il & c & Cc & Nc) m H. apply C93_matrix in H. destruct H as (_ & t' & lines' & rs & E' & C' & TN & _ & HR). assert (t' = t) by congruence. subst t'. assert (lines' = lines) by (eapply cut_fun; eauto). subst lines'.
  assert (A : forall l0, In l0 lines -> forall c0, cut ","%char l0 c0 -> length c0 = ncols m).
  { intros l0 I0 c0 C0. destruct HR as (_ & HW & _). clear - TN HW I0 C0. induction TN as [|x r lines rs (cs & CC & FN) _ IH]; [destruct I0|]. destruct I0 as [<-|I0]; [|apply IH; [intros q Q; apply HW; now right|exact I0]].
    assert (c0 = cs) by (eapply cut_fun; eauto). subst c0. rewrite (Forall2_len _ _ _ FN). apply HW. now left. }
  pose proof (A [] I [] (cut_end _)) as Z. pose proof (A l Il c Cc) as Y. destruct c; [congruence|]. cbn in Z, Y. lia.
Qed.
Theorem C93_final_comma line r : line <> [] -> last line ","%char <> ","%char -> (row_numbers (line ++ lit ",") r <-> row_numbers line r).
Proof.
  intros NE L. rewrite !row_numbers_iff. assert (P : pieces ","%char (line ++ lit ",") = pieces ","%char line); [|now rewrite P]. revert NE L. induction line as [|c line IH]; [congruence|]. intros _ L. cbn [app pieces]. destruct (Ascii.eqb_spec c ","%char) as [->|NC].
  - destruct line as [|d line]; [cbn in L; congruence|]. f_equal. apply IH; [discriminate|exact L].
  - destruct line as [|d line]; [reflexivity|]. now rewrite IH by (auto; discriminate).
Qed.
(** a sample appended to a file whose last line is not complete does not become a row of its own *)
Theorem C94_incomplete_line_refuted fixed (F : forall p x, fixed_text_of p x (fixed p x)) : exists fs m, mat_readFromCSV (T := R) (lit "f.csv") false fs = (fs, Ok m) /\ has_rows m [[1%R]] /\
  exists fs', vec_appendToCSV (fun _ => true) fixed (lit "f.csv") 12 [2%R] fs = (fs', Ok tt) /\ forall m', mat_readFromCSV (lit "f.csv") false fs' = (fs', Ok m') -> nrows m' = 1.
Proof.
  exists (put (lit "f.csv") (lit "1") (fun _ => None)), (mkMat 1 1 [1%R]).
  assert (HR : has_rows (mkMat 1 1 [1%R]) [[1%R]]).
  { split; [reflexivity|]. split; [intros r [<-|[]]; reflexivity|]. split; [reflexivity|]. intros i j Hi Hj. cbn in Hi, Hj. destruct i as [|i]; [|lia]. destruct j as [|j]; [reflexivity|lia]. }
  split; [|split; [exact HR|]].
  { apply C93_matrix. split; [reflexivity|]. exists (lit "1"), [lit "1"], [[1%R]]. split; [apply put_same|]. split; [apply cut_pieces; reflexivity|]. split; [|split; [discriminate|exact HR]]. constructor; [|constructor]. exists [lit "1"].
    split; [apply cut_pieces; reflexivity|]. constructor; [|constructor]. eapply number_simple; [vm_compute; reflexivity| |right; left; lra]. cbn. lra. }
  eexists. split.
  { apply append_eq; [reflexivity|]. intros t l ls E PC. rewrite put_same in E. injection E as <-. vm_compute in PC. injection PC as <- _. reflexivity. }
  intros m' H. apply C93_matrix in H. destruct H as (_ & t & lines & rs & E & C & TN & _ & HR'). rewrite put_same in E. assert (T : lit "1" ++ rowText fixed 12 [2%R] = t). { rewrite put_same in E. congruence. }
  apply cut_pieces in C. change newline_char with nl in C. rewrite <- T in C. unfold rowText in C. cbn [map joined] in C. change newline with [nl] in C. rewrite app_assoc, pieces_app in C.
  - subst lines. destruct HR' as (-> & _). symmetry. exact (Forall2_len _ _ _ TN).
  - destruct (fixed_separators _ _ _ (F 12 2%R)) as (_ & _ & N). intros I. apply in_app_or in I. destruct I as [[I|[]]|I]; [discriminate I|auto].
Qed.

(** concrete cases *)
Example C92_example : exists fs' m', mat_saveAsCSV (fun _ => true) show_fixed (lit "f.csv") 6 [lit "x"; lit "f"] (mkMat 1 2 [(1 / 3)%R; (- 7 / 2)%R]) (fun _ => None) = (fs', Ok tt) /\
  mat_readFromCSV (lit "f.csv") true fs' = (fs', Ok m') /\ mget m' 0 0 = (333333 / 10 ^ 6)%R /\ mget m' 0 1 = (- 7 / 2)%R.
Proof.
  destruct (C92_saved_and_read (fun _ => true) show_fixed show_fixed_ok (lit "f.csv") 6 [lit "x"; lit "f"] (mkMat 1 2 [(1 / 3)%R; (- 7 / 2)%R]) (fun _ => None)) as (fs' & m' & A & _ & B & _ & _ & _ & D); try reflexivity.
  - lia.
  - cbn. lia.
  - intros x I. unfold in_range. assert (Rabs x <= 10)%R. { destruct I as [<-|[<-|[]]]; apply Rabs_le; lra. } pose proof (range_max 1000000 ltac:(rewrite Rabs_pos_eq; lra)) as RM. rewrite Rabs_pos_eq in RM; lra.
  - now right.
  - intros h [<-|[<-|[]]] [I|[]]; discriminate I.
  - exists fs', m'. split; [exact A|]. split; [exact B|]. split.
    + destruct (D 0 0) as [(k & Ek) RR]; [cbn; lia|cbn; lia|]. change (mget (mkMat 1 2 [(1 / 3)%R; (- 7 / 2)%R]) 0 0) with (1 / 3)%R in RR. rewrite Ek in RR |- *. apply Rabs_le_between in RR. f_equal.
      assert (IZR k < 333334)%R by lra. assert (333332 < IZR k)%R by lra. f_equal. assert (k < 333334)%Z by (now apply lt_IZR). assert (333332 < k)%Z by (now apply lt_IZR). lia.
    + apply (rounds_decimals 6); [|apply D; cbn; lia]. exists (-3500000)%Z. change (mget (mkMat 1 2 [(1 / 3)%R; (- 7 / 2)%R]) 0 1) with (- 7 / 2)%R. lra.
Qed.
Example C93_example : cut newline_char (lit "1,2" ++ newline_char :: lit "3,4" ++ [newline_char]) [lit "1,2"; lit "3,4"] /\ row_numbers (lit "3,4") [3%R; 4%R].
Proof.
  split; [apply cut_pieces; reflexivity|]. exists [lit "3"; lit "4"]. split; [apply cut_pieces; reflexivity|]. constructor; [|constructor; [|constructor]]; (eapply number_simple; [vm_compute; reflexivity| |right; left; lra]); cbn; lra.
Qed.
Example C94_example : holds (lit "1,2" ++ [newline_char]) [[1%R; 2%R]] /\ (forall x, In x [(1 / 3)%R; 5%R] -> in_range x) /\
  exists fs' t' r, vec_appendToCSV (fun _ => true) show_fixed (lit "f.csv") 12 [(1 / 3)%R; 5%R] (put (lit "f.csv") (lit "1,2" ++ [newline_char]) (fun _ => None)) = (fs', Ok tt) /\
    fs' (lit "f.csv") = Some t' /\ holds t' [[1%R; 2%R]; r] /\ Forall2 (rounds 12) [(1 / 3)%R; 5%R] r.
Proof.
  assert (H : holds (lit "1,2" ++ [newline_char]) [[1%R; 2%R]]).
  { split; [right; exists (lit "1,2"); reflexivity|]. exists [lit "1,2"]. split; [apply cut_pieces; reflexivity|]. constructor; [|constructor]. exists [lit "1"; lit "2"]. split; [apply cut_pieces; reflexivity|].
    constructor; [|constructor; [|constructor]]; (eapply number_simple; [vm_compute; reflexivity| |right; left; lra]); cbn; lra. }
  assert (B : forall x, In x [(1 / 3)%R; 5%R] -> in_range x).
  { intros x I. unfold in_range. assert (Rabs x <= 10)%R. { destruct I as [<-|[<-|[]]]; apply Rabs_le; lra. } pose proof (range_max 1000000 ltac:(rewrite Rabs_pos_eq; lra)) as RM. rewrite Rabs_pos_eq in RM; lra. }
  split; [exact H|]. split; [exact B|].
  destruct (C94_append (fun _ => true) show_fixed show_fixed_ok (lit "f.csv") 12 [(1 / 3)%R; 5%R] (put (lit "f.csv") (lit "1,2" ++ [newline_char]) (fun _ => None)) _ _ eq_refl ltac:(lia) B (put_same _ _ _) H) as (fs' & t' & r & A1 & _ & A3 & A4 & A5).
  { intros q [<-|[]]. reflexivity. }
  exists fs', t', r. auto.
Qed.
Example C95_example : printed_well (fun _ => lit "0.666667") (2 / 3).
Proof.
  split; [|split].
  - exists (666667 / 1000000)%R. split.
    + exists 666667%Z, (-6)%Z. split; [apply stream_number_iff; vm_compute; reflexivity|]. unfold powerRZ. change (Pos.to_nat 6) with 6. cbn. lra.
    + right. exists 666667%Z, (-6)%Z. split; [lia|]. unfold powerRZ. change (Pos.to_nat 6) with 6. split; [cbn; lra|]. apply Rabs_le. cbn. lra.
  - intros I. cbn in I. repeat (destruct I as [I|I]; [discriminate I|]). exact I.
  - pose proof (range_max 1000000 ltac:(rewrite Rabs_pos_eq; lra)) as RM. rewrite Rabs_pos_eq in RM by lra. rewrite Rabs_pos_eq by lra. lra.
Qed.
Print Assumptions C92_saved_and_read.
Print Assumptions C92_kept_exactly.
Print Assumptions C92_header_refused.
Print Assumptions C92_not_writable.
Print Assumptions C92_no_rows.
Print Assumptions C92_box_refuted.
Print Assumptions C93_matrix.
Print Assumptions C93_failures.
Print Assumptions C93_garbage_refuted.
Print Assumptions C93_blank_line.
Print Assumptions C93_final_comma.
Print Assumptions C94_append.
Print Assumptions C94_created.
Print Assumptions C94_many.
Print Assumptions C94_refused.
Print Assumptions C94_read.
Print Assumptions C94_sample_rounding.
Print Assumptions C94_matrix_step.
Print Assumptions C94_incomplete_line_refuted.
Print Assumptions C95_column.
Print Assumptions C95_column_fails.
Print Assumptions C95_saved_and_read.
Print Assumptions C95_hyper_parameters.
Print Assumptions C95_other_size_ignored.
Print Assumptions C95_unreadable.
