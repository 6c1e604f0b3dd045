(** C100: the files an optimisation leaves on disk. *)
From Coq Require Import Ascii String ZArith Bool Arith Reals Lra List Lia.
From Verif Require Import Base StM Num RealNum VecModel VecProofs MatModel MatLemmas MatSpec MatProofs BoundsModel DataProofs DesignModel HistModel HistSpec HistProofs KrigModel OptModel OptProofs OptRun OptSpec OptReal OptRunReal OptStart OptTop
  StrModel StrSpec StrProofs StrNum StrReal ExtModel ExtProofs CsvModel CsvSpec CsvProofs PropsStr PropsOpt RunFileModel RunFileSpec RunFileText RunFileProofs.
Import ListNotations.

Section C100.
  (** [writable]: the files that can be opened for writing; [fixed p]: the text printed for a number with p decimals *)
  Context (writable : str -> bool) (fixed : nat -> R -> str) (F : forall p x, fixed_text_of p x (fixed p x)).
  Local Notation egoF := (egoF writable fixed).

  (** the run with its files, and the run of OptModel *)
  Lemma whole c n es fuel (disk : files) : settings_ok c -> data_ok c -> c_objset c = true -> c_N c <> 0 -> names_ok writable c n -> c_N c <= fuel ->
    exists s0 s' r start new l, optSetup c ost_new = (s0, Ok tt) /\ egoF fuel n c (Ok tt) es (mkRst s0 disk []) = Some (s', r) /\ ego fuel c (Ok tt) es s0 = Some (r_opt s', r) /\
      Forall2 (start_row c) (rows (c_data c)) start /\ rows (h_data (s_hist (r_opt s'))) = start ++ new /\
      (forall i row, nth_error new i = Some row -> exists x, evaluated (mkH (c_dim c) (length (c_cons c)) mat_empty 0%R 0) (es i) x row) /\
      length new <= s_evals (r_opt s') <= S (length new) /\ (r = Ok tt -> length new = c_N c) /\
      current fixed c n s' /\ others n disk (r_disk s') /\ start <> [] /\ (forall row, In row (start ++ new) -> length row = c_dim c + 1 + length (c_cons c) + 2) /\
      exists o1, tracked c o1 /\ rows (h_data (s_hist o1)) = start /\
      r_past s' = l ++ [put (f_rep n) [] (put (f_hist n) (table_out fixed c n o1) (put (f_hist n) [] disk)); put (f_hist n) (table_out fixed c n o1) (put (f_hist n) [] disk); put (f_hist n) [] disk; disk] /\
      moments c n (length start) (start ++ new) l /\ Forall (others n disk) l.
  Proof.
    intros Hs Hd Ho HN Nn Hf. pose proof Hs as (Pd & Hl & Hu & Hb & _ & _ & _ & _ & Box).
    destruct (setup_ok c Pd Hl Hu) as (s0 & E0 & P0 & S1 & S2 & S3 & S4 & _); auto. { intros i Hi. specialize (Hb i Hi). lra. }
    destruct (startRun_ok c s0 Hs Hd P0 Ho HN) as (o1 & E1 & R1 & T1 & T2 & T3 & T4 & T5 & T6 & _).
    pose proof (ready_tracked _ _ R1) as K1.
    destruct (startF_ok writable fixed c n (mkRst s0 disk []) o1 Nn E1 K1) as (s1 & E1' & O1 & W1). subst o1.
    destruct (start_current writable fixed F c n _ _ Nn K1 W1) as (C1 & O1).
    destruct (loop_generic c es fuel 0 (r_opt s1) (tracked_hist _ _ K1)) as (s2 & r2 & nw & ex & EL & L1 & L2 & L3 & L4 & L5 & L6 & L7). { unfold budget. rewrite T3, S1. lia. }
    pose proof (loopF_ok writable fixed F c n es (length (rows (h_data (s_hist (r_opt s1))))) Box Nn fuel 0 s1 K1 C1 (le_n _)) as LF.
    destruct (egoLoopF writable fixed fuel 0 n c es s1) as [[s' r]|] eqn:EF; [|exfalso; rewrite LF in EL; discriminate].
    destruct LF as (A1 & A2 & A3 & (new & A4) & l & A5 & A6 & A7). rewrite EL in A1. injection A1 as -> ->.
    pose proof (Forall2_len2 _ _ _ T1) as LT. assert (NZ : rows (h_data (s_hist (r_opt s1))) <> []).
    { intros E. rewrite E in LT. rewrite rows_length in LT. destruct Hd as (_ & Q & _). cbn in LT. lia. }
    assert (new = map snd nw). { rewrite L1 in A4. apply app_inv_head in A4. auto. } subst new.
    pose proof K1 as (_ & _ & (KT & KC) & _ & K5 & K6 & _).
    exists s0, s', r, (rows (h_data (s_hist (r_opt s1)))), (map snd nw), l. split; [exact E0|]. split. { unfold RunFileModel.egoF. rewrite E1'. exact EF. }
    split. { unfold ego. rewrite E1. exact EL. } split; [exact T1|]. split; [exact L1|]. split.
    { intros i row Hi. rewrite nth_error_map in Hi. destruct (nth_error nw i) as [[x row']|] eqn:Q; [|discriminate]. injection Hi as <-. exists x. specialize (L2 i x row' Q). cbn [plus] in L2.
      destruct L2 as (f & cs & imp & fe & B1 & B2 & B3 & B4 & B5 & B6). rewrite K5 in B4. rewrite K6 in B5. exists f, cs, imp, fe. auto 8. }
    split. { rewrite map_length. rewrite T4, S2 in L5. lia. } split. { intros ->. rewrite map_length. destruct (L7 tt eq_refl) as (_ & _ & Q & _). rewrite Q. unfold budget. rewrite T3, S1. lia. }
    split; [exact A2|]. split; [intros g G1 G2; rewrite A3, O1 by assumption; reflexivity|]. split; [exact NZ|]. split.
    { intros row I. apply in_app_or in I. destruct I as [I|I].
      - apply (In_nth _ _ []) in I. destruct I as (i & Hi & <-). rewrite rows_length in Hi. rewrite nth_rows, mrow_length by exact Hi. exact KC.
      - apply in_map_iff in I. destruct I as ([x row'] & <- & I). apply In_nth_error in I. destruct I as (i & I). destruct (L2 i x row' I) as (f & cs & imp & fe & _ & _ & _ & B4 & B5 & ->). cbn [snd]. rewrite hrow_len, B4, B5, K5, K6. reflexivity. }
    exists (r_opt s1). split; [exact K1|]. split; [reflexivity|]. destruct W1 as (W1 & W2). cbn [r_disk r_past] in W2. split; [rewrite A5, W2; reflexivity|]. rewrite <- L1. split; [exact A6|].
    apply Forall_impl with (2 := A7). intros d Hd' g G1 G2. rewrite Hd', O1 by assumption. reflexivity.
  Qed.

  (** ** whenever a run ends, by itself or by an exception of the simulation, a constraint or a surrogate model: the history file holds all
      rows recorded, the report describes the best of them, at most one result of a simulation is missing, and no other file was touched *)
  Theorem C100_files_at_any_stop c n es fuel (disk : files) : settings_ok c -> data_ok c -> c_objset c = true -> c_N c <> 0 -> names_ok writable c n -> c_N c <= fuel ->
    exists s0 s' r start new cols, optSetup c ost_new = (s0, Ok tt) /\ egoF fuel n c (Ok tt) es (mkRst s0 disk []) = Some (s', r) /\
      (* the files change nothing else *)
      ego fuel c (Ok tt) es s0 = Some (r_opt s', r) /\
      (* the rows: one for every sample given, one for every simulation *)
      Forall2 (start_row c) (rows (c_data c)) start /\
      (forall i row, nth_error new i = Some row -> exists x f vs imp fe, length x = c_dim c /\ length vs = length (c_cons c) /\ e_eval (es i) x = Ok f /\ row = history_row x f vs imp fe) /\
      length new <= s_evals (r_opt s') <= S (length new) /\ (r = Ok tt -> length new = c_N c) /\
      (* the files *)
      column_names (f_par n) (f_con n) (c_dim c) cols /\ table_of (f_hist n) cols (start ++ new) (r_disk s') /\
      report_of (f_rep n) (c_dim c) (length (c_cons c)) (start ++ new) (r_disk s') /\
      forall g, g <> f_hist n -> g <> f_rep n -> r_disk s' g = disk g.
  Proof.
    intros Hs Hd Ho HN Nn Hf. destruct (whole c n es fuel disk Hs Hd Ho HN Nn Hf) as (s0 & s' & r & start & new & l & A1 & A2 & A3 & A4 & A5 & A6 & A7 & A8 & (A9 & A10) & A11 & _).
    rewrite A5 in A9, A10. exists s0, s', r, start, new, (cols_of c n). split; [exact A1|]. split; [exact A2|]. split; [exact A3|]. split; [exact A4|]. split.
    { intros i row Hi. destruct (A6 i row Hi) as (x & f & cs & imp & fe & B1 & _ & _ & B4 & B5 & B6). exists x, f, cs, imp, fe. auto. }
    split; [exact A7|]. split; [exact A8|]. split; [exact (proj1 (proj2 (cols_ok writable c n Nn)))|]. split; [exact A9|]. split; [exact (rep_report fixed F _ _ _ _ A10)|exact A11].
  Qed.

  (** ** at every moment of the run: between two writes at most one of the two files is incomplete (empty), the other one holds all
      rows up to the last or the one before the last; during the start the report is still the one of an earlier run *)
  Theorem C100_every_moment c n es fuel (disk : files) : settings_ok c -> data_ok c -> c_objset c = true -> c_N c <> 0 -> names_ok writable c n -> c_N c <= fuel ->
    exists s0 s' r start new cols later d1 d2 d3, optSetup c ost_new = (s0, Ok tt) /\ egoF fuel n c (Ok tt) es (mkRst s0 disk []) = Some (s', r) /\
      Forall2 (start_row c) (rows (c_data c)) start /\ rows (h_data (s_hist (r_opt s'))) = start ++ new /\ column_names (f_par n) (f_con n) (c_dim c) cols /\
      r_past s' = later ++ [d3; d2; d1; disk] /\
      (d1 (f_hist n) = Some [] /\ d1 (f_rep n) = disk (f_rep n)) /\
      (table_of (f_hist n) cols start d2 /\ d2 (f_rep n) = disk (f_rep n)) /\
      (table_of (f_hist n) cols start d3 /\ d3 (f_rep n) = Some []) /\
      Forall (moment (f_hist n) (f_rep n) cols (c_dim c) (length (c_cons c)) (length start) (start ++ new)) (r_disk s' :: later) /\
      Forall (fun d => forall g, g <> f_hist n -> g <> f_rep n -> d g = disk g) (r_disk s' :: r_past s').
  Proof.
    intros Hs Hd Ho HN Nn Hf. destruct (whole c n es fuel disk Hs Hd Ho HN Nn Hf) as (s0 & s' & r & start & new & l & A1 & A2 & A3 & A4 & A5 & A6 & A7 & A8 & A9 & A11 & NZ & W & o1 & T1 & TR & P & M & O).
    pose proof Nn as (_ & _ & _ & NE & _). assert (NE' : f_rep n <> f_hist n) by congruence. pose proof (table_ok_out writable fixed F c n o1 Nn T1) as TT. rewrite TR in TT.
    set (u := table_out fixed c n o1) in *. exists s0, s', r, start, new, (cols_of c n), l, (put (f_hist n) [] disk), (put (f_hist n) u (put (f_hist n) [] disk)), (put (f_rep n) [] (put (f_hist n) u (put (f_hist n) [] disk))).
    split; [exact A1|]. split; [exact A2|]. split; [exact A4|]. split; [exact A5|]. split; [exact (proj1 (proj2 (cols_ok writable c n Nn)))|]. split; [exact P|].
    split; [split; [apply put_same|now apply put_other]|]. split; [split; [exists u; rewrite put_same; auto|now rewrite !put_other by exact NE']|].
    split; [split; [exists u; rewrite put_other by exact NE; rewrite put_same; auto|apply put_same]|]. split.
    - constructor; [|exact M]. rewrite <- A5. apply (current_moment fixed F); [|exact A9]. rewrite A5, app_length. lia.
    - constructor; [exact A11|]. rewrite P. apply Forall_app. split; [exact O|]. repeat (apply Forall_cons; [intros g G1 G2; now rewrite ?put_other by assumption|]). constructor.
  Qed.
  (** at every moment after the start one of the two files is complete *)
  Theorem C100_never_both_lost hist rep cols d nc k0 rs disk : moment hist rep cols d nc k0 rs disk ->
    (exists k, k0 <= k <= length rs /\ table_of hist cols (firstn k rs) disk) \/ (exists j, k0 <= j <= length rs /\ report_of rep d nc (firstn j rs) disk).
  Proof. intros (k & j & H1 & H2 & H3 & [[_ H]|[[H _]|[H _]]]); [right; exists j|left; exists k|left; exists k]; split; auto; lia. Qed.

  (** ** reading the files back *)
  Theorem C100_files_read_back c n es fuel (disk : files) : settings_ok c -> data_ok c -> c_objset c = true -> c_N c <> 0 -> names_ok writable c n -> c_N c <= fuel ->
    (forall a, In a (f_par n ++ f_con n) -> ~ In newline_char a) ->
    exists s0 s' r, optSetup c ost_new = (s0, Ok tt) /\ egoF fuel n c (Ok tt) es (mkRst s0 disk []) = Some (s', r) /\
      let rs := rows (h_data (s_hist (r_opt s'))) in
      ((forall row x, In row rs -> In x row -> in_range x) -> (Z.of_nat (length rs) <= 2 ^ 31)%Z ->
       (exists m qs, mat_readFromCSV (f_hist n) true (r_disk s') = (r_disk s', Ok m) /\ has_rows m qs /\ Forall2 (Forall2 (rounds 6)) rs qs) /\
       exists t fe i f xs cs, r_disk s' (f_rep n) = Some t /\ best_row (c_dim c) rs fe i /\
         getInt t (lit "DesignID") = Ok (Z.of_nat i) /\
         getDouble t (lit "ObjectiveFunction") = Ok f /\ rounds 6 (row_obj (c_dim c) (rowi rs i)) f /\
         getDoubleVector t (lit "DesignParameters") = Ok xs /\ Forall2 (rounds 6) (row_x (c_dim c) (rowi rs i)) xs /\
         getDoubleVector t (lit "ConstraintValues") = Ok cs /\ Forall2 (rounds 6) (row_con (c_dim c) (length (c_cons c)) (rowi rs i)) cs /\
         getString t (lit "Feasibility") = Ok (if fe then lit "YES" else lit "NO")).
  Proof.
    intros Hs Hd Ho HN Nn Hf NL. destruct (whole c n es fuel disk Hs Hd Ho HN Nn Hf) as (s0 & s' & r & start & new & l & A1 & A2 & A3 & A4 & A5 & A6 & A7 & A8 & (A9 & A10) & A11 & NZ & W & _).
    exists s0, s', r. split; [exact A1|]. split; [exact A2|]. cbv zeta. rewrite A5 in *. intros B I31. set (rs := start ++ new) in *.
    assert (NR : rs <> []) by (unfold rs; destruct start; [congruence|discriminate]). destruct Hs as (Pd & _). split.
    - destruct A9 as (t & Et & TT). assert (CN : forall a, In a (cols_of c n) -> ~ In newline_char a).
      { destruct (cols_ok writable c n Nn) as (_ & (ps & Ec & Lp & Hp) & _). rewrite Ec. intros a I. apply in_app_or in I. destruct I as [I|[<-|I]]; [|cbn; intros H; repeat (destruct H as [H|H]; [discriminate|]); destruct H|].
        - destruct (f_par n) as [|p0 pp] eqn:Ep; cbn [is_empty] in Hp.
          + apply (In_nth _ _ []) in I. destruct I as (i & Hi & <-). assert (Hi' : i < c_dim c) by (unfold str in *; lia). destruct (Hp i Hi') as (u & (U1 & U2) & Eu). change (nth i ps (@nil ascii)) with (@nth str i ps (@nil ascii)). rewrite Eu. intros H. apply in_app_or in H. destruct H as [[H|[]]|H]; [discriminate|].
            apply decimal_digits in U1. unfold all_digits in U1. rewrite Forall_forall in U1. apply U1 in H. discriminate.
          + subst ps. apply NL, in_or_app. now left.
        - cbn [app] in I. apply in_app_or in I. destruct I as [I|[<-|[<-|[]]]]; [apply NL, in_or_app; now right| |]; cbn; intros H; repeat (destruct H as [H|H]; [discriminate|]); destruct H. }
      destruct (table_reads _ _ _ _ TT CN NR W B) as (m & qs & Em & Hm & _ & RR). exists m, qs. split; [|auto].
      unfold mat_readFromCSV, sbind, sget. rewrite Et. unfold slift. now rewrite Em.
    - destruct A10 as (d & fe & i & Et & Br & D1 & D2 & D3 & D4 & D5). assert (Hi : i < length rs) by (unfold best_row in Br; destruct fe; [apply Br|apply (proj2 Br)]).
      assert (IR : forall x, In x (rowi rs i) -> in_range x). { intros x Ix. apply (B (rowi rs i)); [|exact Ix]. apply nth_In. exact Hi. }
      assert (LR : length (rowi rs i) = c_dim c + 1 + length (c_cons c) + 2). { apply W, nth_In. exact Hi. }
      destruct (report_vectors fixed F d) as (xs & cs & V1 & V2 & V3 & V4).
      { intros x I. apply IR. rewrite D3, D5 in I. apply in_app_or in I. destruct I as [I|I].
        - unfold row_x in I. rewrite <- (firstn_skipn (c_dim c)). apply in_or_app. now left.
        - unfold row_con in I. rewrite <- (firstn_skipn (c_dim c + 1)). apply in_or_app. right. rewrite <- (firstn_skipn (length (c_cons c)) (skipn _ _)). apply in_or_app. now left. }
      destruct (report_describes fixed F d i D1) as ((u1 & L1 & U1) & (u2 & L2 & U2) & _ & _ & L5).
      assert (NF : ~ In "<"%char (lit "DesignID") /\ ~ In "<"%char (lit "ObjectiveFunction") /\ ~ In "<"%char (lit "Feasibility")) by (repeat split; cbn; intros H; repeat (destruct H as [H|H]; [discriminate|]); destruct H). destruct NF as (N1 & N2 & N3).
      destruct (fixed_reads 6 (ds_f d) u2 ltac:(lia) U2) as (y & Ey & RY). { rewrite D4. apply IR. apply nth_In. lia. }
      exists (flat (report_parts fixed d)), fe, i, y, xs, cs. split; [exact Et|]. split; [exact Br|]. split; [|split; [|split; [|split; [|split; [|split; [|split]]]]]].
      + apply (proj1 (proj2 (proj2 (C59_int _ (flat (report_parts fixed d)) N1))) u1 (Z.of_nat i) L1). destruct U1 as [U1 U1'].
        exists [], false, [], u1, (Z.of_nat i), []. split; [now rewrite app_nil_r|]. split; [constructor|]. split; [constructor|]. split; [exact U1|]. split; [exact U1'|]. split; [exact Logic.I|]. split; [reflexivity|]. change (2 ^ 31)%Z with 2147483648%Z in I31. lia.
      + rewrite getDouble_frame, (get_frame_lookup _ _ _ _ _ _ N2 (len_ok _) L2). destruct (fixed_chars_of _ _ _ U2) as (_ & CH).
        assert (CH' : forall ch, In ch u2 -> nat_of_ascii ch < 128 /\ ~ In ch spaces).
        { intros ch I. apply CH in I. destruct I as [I|[->| ->]].
          - apply is_digit_iff in I. destruct I as (k & Hk & ->). change (nat_of_ascii (digit k)) with (code (digit k)). rewrite code_digit by exact Hk. split; [lia|]. intros S. apply space_iff in S. rewrite digit_not_space in S; [discriminate|]. apply is_digit_iff. eauto.
          - split; [cbn; lia|]. intros S. apply space_iff in S. discriminate.
          - split; [cbn; lia|]. intros S. apply space_iff in S. discriminate. }
        rewrite (removeSpaces_plain u2 u2); [cbn [bind]; rewrite Ey; reflexivity|intros ch I; now apply CH'|]. clear - CH'. induction u2 as [|ch u IH]; constructor; [apply CH'; now left|apply IH; intros; apply CH'; now right].
      + rewrite <- D4. exact RY.
      + exact V1.
      + rewrite <- D3. exact V2.
      + exact V3.
      + rewrite <- D5. exact V4.
      + rewrite D2 in L5. refine (proj1 (proj2 (proj2 (C59_string _ (flat (report_parts fixed d)) N3))) _ _ L5 _ _).
        * destruct fe; cbn; intros ch H; repeat (destruct H as [<-|H]; [cbn; lia|]); destruct H.
        * destruct fe; repeat (constructor; [intros S; apply space_iff in S; discriminate|]); constructor.
  Qed.

  (** ** files that cannot be written end the run before any simulation *)
  Theorem C100_unwritable c n es fuel (disk : files) : settings_ok c -> data_ok c -> c_objset c = true -> c_N c <> 0 ->
    exists s0, optSetup c ost_new = (s0, Ok tt) /\
      (* a number of names that is not the number of parameters *)
      (f_par n <> [] -> length (f_par n) <> c_dim c -> exists s', egoF fuel n c (Ok tt) es (mkRst s0 disk []) = Some (s', Throw InvalidArgument) /\ s_evals (r_opt s') = 0 /\ r_disk s' = disk) /\
      (* the history file *)
      (f_par n = [] \/ length (f_par n) = c_dim c -> writable (f_hist n) = false ->
         exists s', egoF fuel n c (Ok tt) es (mkRst s0 disk []) = Some (s', Throw RuntimeError) /\ s_evals (r_opt s') = 0 /\ r_disk s' = disk) /\
      (* the report *)
      (f_par n = [] \/ length (f_par n) = c_dim c -> writable (f_hist n) = true -> length (f_con n) = length (c_cons c) -> f_rep n = [] \/ writable (f_rep n) = false ->
         exists s' cols, egoF fuel n c (Ok tt) es (mkRst s0 disk []) = Some (s', Throw RuntimeError) /\ s_evals (r_opt s') = 0 /\
           column_names (f_par n) (f_con n) (c_dim c) cols /\ table_of (f_hist n) cols (rows (h_data (s_hist (r_opt s')))) (r_disk s') /\ Forall2 (start_row c) (rows (c_data c)) (rows (h_data (s_hist (r_opt s')))) /\
           forall g, g <> f_hist n -> r_disk s' g = disk g).
  Proof.
    intros Hs Hd Ho HN. pose proof Hs as (Pd & Hl & Hu & Hb & _ & _ & _ & _ & Box).
    destruct (setup_ok c Pd Hl Hu) as (s0 & E0 & P0 & S1 & S2 & S3 & S4 & _); auto. { intros i Hi. specialize (Hb i Hi). lra. }
    destruct (startRun_ok c s0 Hs Hd P0 Ho HN) as (o' & E1 & R1 & T1 & T2 & T3 & T4 & T5 & T6 & _).
    pose proof (ready_tracked _ _ R1) as K1. destruct (start_split c s0 o' E1 K1) as (o1 & o3 & g & B1 & B2 & B3 & (HT & HC) & HN' & HD & HE & V1 & V3). exists s0. split; [exact E0|].
    set (s1 := mkRst o1 disk ([] : list files)).
    assert (L1 : lo (beforeStart c (Ok tt)) (mkRst s0 disk []) = (s1, Ok tt)) by exact (lo_ok (beforeStart c (Ok tt)) (mkRst s0 disk []) _ _ B1).
    assert (NEm : mat_isEmpty (h_data (s_hist o1)) = false). { unfold mat_isEmpty. destruct (Nat.eqb_spec (nrows (h_data (s_hist o1))) 0); [lia|]. destruct (Nat.eqb_spec (ncols (h_data (s_hist o1))) 0); [lia|]. reflexivity. }
    assert (G : forall x, saveHistory writable fixed (f_hist n) (f_par n) (f_con n) s1 = (s1, Throw x) -> exists s', egoF fuel n c (Ok tt) es (mkRst s0 disk []) = Some (s', Throw x) /\ s_evals (r_opt s') = 0 /\ r_disk s' = disk).
    { intros x E. exists s1. split; [|split; [cbn; congruence|reflexivity]]. unfold RunFileModel.egoF, RunFileModel.startRunF. rewrite (sbind_ok _ _ _ _ tt L1). rewrite (sbind_fail _ _ _ _ _ E eq_refl). reflexivity. }
    split; [|split].
    - intros NP LP. apply G. unfold RunFileModel.saveHistory. rewrite (sbind_ok _ _ _ s1 s1) by reflexivity. cbv zeta. change (r_opt s1) with o1. rewrite NEm. cbn [sthrow_if]. rewrite (sbind_ok _ _ _ s1 tt) by reflexivity.
      unfold header. rewrite HD. destruct (f_par n) as [|p0 pp]; [congruence|]. cbn [is_empty negb andb]. apply Nat.eqb_neq in LP. rewrite LP. reflexivity.
    - intros HP HW. apply G. unfold RunFileModel.saveHistory. rewrite (sbind_ok _ _ _ s1 s1) by reflexivity. cbv zeta. change (r_opt s1) with o1. rewrite NEm. cbn [sthrow_if]. rewrite (sbind_ok _ _ _ s1 tt) by reflexivity.
      rewrite HD. destruct (header_ok (f_par n) (f_con n) (c_dim c) HP) as (hd & -> & _). rewrite (sbind_ok _ _ _ s1 hd) by reflexivity. rewrite HW. reflexivity.
    - intros HP HW HL HR. set (n' := mkFN (f_hist n) (f_hist n ++ lit "x") (f_par n) (f_con n)).
      destruct (header_ok (f_par n) (f_con n) (c_dim c) HP) as (hd & EH & CH & LH & NEH).
      set (s2 := mkRst o1 (put (f_hist n) (tableText fixed 6 hd (h_data (s_hist o1))) (put (f_hist n) [] disk)) (put (f_hist n) [] disk :: [disk])).
      assert (L2 : saveHistory writable fixed (f_hist n) (f_par n) (f_con n) s1 = (s2, Ok tt)).
      { unfold RunFileModel.saveHistory. rewrite (sbind_ok _ _ _ s1 s1) by reflexivity. cbv zeta. change (r_opt s1) with o1. rewrite NEm. cbn [sthrow_if]. rewrite (sbind_ok _ _ _ s1 tt) by reflexivity.
        rewrite HD, EH. rewrite (sbind_ok _ _ _ s1 hd) by reflexivity. rewrite HW. cbn [negb sthrow_if]. rewrite (sbind_ok _ _ _ s1 tt) by reflexivity.
        rewrite (sbind_ok _ _ _ (mkRst o1 (put (f_hist n) [] disk) [disk]) tt) by reflexivity. rewrite HC, LH, HL, Nat.eqb_refl. cbn [negb]. rewrite andb_false_r. cbn [sthrow_if].
        rewrite (sbind_ok _ _ _ (mkRst o1 (put (f_hist n) [] disk) [disk]) tt) by reflexivity. reflexivity. }
      exists (mkRst (set_gopt g o3) (r_disk s2) (r_past s2)), hd. split.
      { unfold RunFileModel.egoF, RunFileModel.startRunF. rewrite (sbind_ok _ _ _ _ tt L1), (sbind_ok _ _ _ _ tt L2). rewrite (sbind_ok _ _ _ _ tt (lo_ok (setDoE c) s2 _ _ B2)).
        set (s3 := mkRst o3 (r_disk s2) (r_past s2)). unfold findOptimumF. pose proof (lo_ok (findOptimum c) s3 _ _ B3) as L3.
        assert (L4 : saveReport writable fixed (f_rep n) (mkRst (set_gopt g o3) (r_disk s3) (r_past s3)) = (mkRst (set_gopt g o3) (r_disk s3) (r_past s3), Throw RuntimeError)).
        { unfold RunFileModel.saveReport. destruct (f_rep n) as [|ch nm] eqn:Ef; [reflexivity|]. destruct HR as [HR|HR]; [discriminate|]. cbn [is_empty sthrow_if]. rewrite (sbind_ok _ _ _ (mkRst (set_gopt g o3) (r_disk s3) (r_past s3)) tt) by reflexivity. rewrite HR. reflexivity. }
        rewrite (sbind_fail _ _ _ _ _ (eq_trans (sbind_ok _ _ _ _ tt L3) L4) eq_refl). reflexivity. }
      assert (HO : h_data (s_hist (set_gopt g o3)) = h_data (s_hist o1)). { unfold setDoE, in_hist, szoom, smod in B2. injection B2 as <-. reflexivity. }
      cbn [r_opt r_disk]. rewrite HO. split; [cbn; congruence|]. split; [exact CH|]. split.
      { exists (tableText fixed 6 hd (h_data (s_hist o1))). unfold s2. cbn [r_disk]. rewrite put_same. split; [reflexivity|]. apply table_ok; [exact F|exact NEH|lia]. }
      split; [rewrite HE; exact T1|]. intros g' G'. unfold s2. cbn [r_disk]. now rewrite !put_other by exact G'.
  Qed.
End C100.

(** ** the history file is emptied before it is written again: a run interrupted at that moment leaves an empty history, whatever has been
    recorded before (the same holds for the report) *)
Lemma show_all p x : fixed_text_of p x (show_fixed p x). Proof. apply show_fixed_ok. Qed.
Definition names_demo : fnames := mkFN (lit "history.csv") (lit "optimum.xml") [] [lit "c"].
Lemma names_demo_ok N : names_ok (fun _ => true) (mkCfg 2 [0; 0]%R [1; 2]%R N 2 5 [(1%nat, (1 / 2)%R)] [con_demo] true true true (mkMat 2 3 [1 / 2; 3 / 4; 1; 1; 3; 5]%R)) names_demo.
Proof. unfold names_ok. cbn. repeat split; auto; discriminate. Qed.
Theorem C100_history_emptied_refuted : exists c n es (disk : files) s0 s1 s2, settings_ok c /\ data_ok c /\ names_ok (fun _ => true) c n /\ optSetup c ost_new = (s0, Ok tt) /\
  startRunF (fun _ => true) show_fixed n c (Ok tt) (mkRst s0 disk []) = (s1, Ok tt) /\ 0 < length (rows (h_data (s_hist (r_opt s1)))) /\
  iterationF (fun _ => true) show_fixed n c es s1 = (s2, Ok tt) /\ exists d, In d (r_past s2) /\ ~ In d (r_past s1) /\ d (f_hist n) = Some [].
Proof.
  pose proof demo_settings as Hs. pose proof demo_data as Hd. remember cfg_demo as c eqn:Ec. pose proof Hs as (Pd & Hl & Hu & Hb & _ & _ & _ & _ & Box).
  destruct (setup_ok c Pd Hl Hu) as (s0 & E0 & P0 & _); auto. { intros i Hi. specialize (Hb i Hi). lra. } { now subst c. }
  destruct (startRun_ok c s0 Hs Hd P0 ltac:(subst; reflexivity) ltac:(subst; discriminate)) as (o1 & E1 & R1 & T1 & _). pose proof (ready_tracked _ _ R1) as K1. assert (Nn : names_ok (fun _ => true) c names_demo) by (subst; apply (names_demo_ok 3)).
  set (disk := (fun _ => None) : files). destruct (startF_ok (fun _ => true) show_fixed c names_demo (mkRst s0 disk []) o1 Nn E1 K1) as (s1 & E1' & O1 & W1). subst o1.
  destruct (step_ok (fun _ => true) show_fixed c names_demo env_demo s1 Box Nn K1) as (s2 & r & E2 & E3 & H).
  destruct (iteration_ok c env_demo (r_opt s1) Hs ltac:(subst c; exact demo_world) ltac:(subst c; exact demo_constraints) R1) as (o2 & x & f & vs & fe & im & EI & _). rewrite EI in E3. injection E3 as Eo Er. subst r.
  destruct H as [(Q & _)|(_ & T2 & _ & W2)]; [discriminate|].
  exists c, names_demo, env_demo, disk, s0, s1, s2. split; [exact Hs|]. split; [exact Hd|]. split; [exact Nn|]. split; [exact E0|]. split; [exact E1'|].
  split. { pose proof K1 as (_ & _ & _ & Q & _). rewrite rows_length. exact Q. } split; [exact E2|].
  destruct W2 as (D2 & P2). exists (put (f_hist names_demo) [] (r_disk s1)). split; [rewrite P2; right; right; left; reflexivity|]. split; [|apply put_same].
  destruct W1 as (D1 & P1). rewrite P1. cbn [r_disk r_past].
  assert (N1 : exists t, put (f_hist names_demo) [] (r_disk s1) (f_rep names_demo) = Some t /\ t <> []).
  { exists (report_out show_fixed (r_opt s1)). split; [rewrite put_other by discriminate; rewrite D1; apply put_same|]. unfold report_out, report_parts, head_parts. cbn [app]. rewrite flat_tag. discriminate. }
  destruct N1 as (t & N1 & N2). set (d := put (f_hist names_demo) [] (r_disk s1)) in *. clearbody d.
  intros [<-|[<-|[<-|[<-|[]]]]]; [rewrite put_same in N1; congruence| | |]; rewrite ?put_other in N1 by discriminate; discriminate.
Qed.

Example C100_example : exists s0 s' start new cols, optSetup cfg_demo ost_new = (s0, Ok tt) /\
  egoF (fun _ => true) show_fixed 3 names_demo cfg_demo (Ok tt) (fun _ => env_demo) (mkRst s0 (fun _ => None) []) = Some (s', Ok tt) /\ length start = 2 /\ length new = 3 /\
  table_of (lit "history.csv") cols (start ++ new) (r_disk s') /\ report_of (lit "optimum.xml") 2 1 (start ++ new) (r_disk s').
Proof.
  destruct (C100_files_at_any_stop (fun _ => true) show_fixed show_all cfg_demo names_demo (fun _ => env_demo) 3 (fun _ => None) demo_settings demo_data eq_refl ltac:(discriminate) (names_demo_ok 3) (le_n _))
    as (s0 & s' & r & start & new & cols & A1 & A2 & A3 & A4 & A5 & A6 & A7 & A8 & A9 & A10 & _).
  destruct (C40_whole_run cfg_demo (fun _ => env_demo)) as (s2 & os & st & E & _); auto using demo_settings, demo_data, demo_constraints, demo_world. { discriminate. }
  unfold whole_run in E. rewrite A1 in E. change (c_N cfg_demo) with 3 in E. rewrite A3 in E. injection E as _ ->. exists s0, s', start, new, cols. split; [exact A1|]. split; [exact A2|]. split; [rewrite <- (Forall2_len2 _ _ _ A4); reflexivity|]. auto.
Qed.
(** a simulation that fails at once: the files hold the samples given *)
Example C100_example_failing : exists s0 s' start cols, optSetup cfg_demo ost_new = (s0, Ok tt) /\
  (exists r, egoF (fun _ => true) show_fixed 3 names_demo cfg_demo (Ok tt) (fun _ => mkEnv (Throw RuntimeError) (fun _ _ x => nth 0 x 0%R) (fun _ _ x => nth 0 x 0%R) (fun _ _ => (1 / 2)%R) (fun _ _ => (1 / 3)%R) [] [] (fun x => Throw RuntimeError) (Ok tt) None) (mkRst s0 (fun _ => None) []) = Some (s', r)) /\ length start = 2 /\
  table_of (lit "history.csv") cols start (r_disk s') /\ report_of (lit "optimum.xml") 2 1 start (r_disk s').
Proof.
  match goal with |- context [fun _ : nat => mkEnv ?a ?b ?c ?d ?e ?f ?g ?h ?i ?j] => set (w := fun _ : nat => mkEnv a b c d e f g h i j) end.
  destruct (C100_files_at_any_stop (fun _ => true) show_fixed show_all cfg_demo names_demo w 3 (fun _ => None) demo_settings demo_data eq_refl ltac:(discriminate) (names_demo_ok 3) (le_n _))
    as (s0 & s' & r & start & new & cols & A1 & A2 & A3 & A4 & A5 & A6 & A7 & A8 & A9 & A10 & _).
  assert (new = []) as ->. { destruct new as [|row t]; [reflexivity|]. destruct (A5 0 row eq_refl) as (x & f & vs & imp & fe & _ & _ & Q & _). discriminate. }
  rewrite app_nil_r in *. exists s0, s', start, cols. split; [exact A1|]. split; [eauto|]. split; [rewrite <- (Forall2_len2 _ _ _ A4); reflexivity|]. auto.
Qed.
Example C100_example_unwritable : settings_ok cfg_demo /\ data_ok cfg_demo /\ length (f_con names_demo) = length (c_cons cfg_demo) /\ in_range (3 / 4)%R.
Proof. split; [exact demo_settings|]. split; [exact demo_data|]. split; [reflexivity|]. unfold in_range. rewrite Rabs_pos_eq by lra. pose proof dblmax_big. cbn [ndblmax RNum] in *. 
  assert (2 <= powerRZ 2 1023)%R. { change (powerRZ 2 1023) with (2 ^ Pos.to_nat 1023)%R. replace (Pos.to_nat 1023) with (S (Pos.to_nat 1022)) by lia. cbn [pow]. pose proof (pow_R1_Rle 2 (Pos.to_nat 1022) ltac:(lra)). lra. }
  assert (powerRZ 2 (-52) <= 1 / 4)%R by (simpl; lra). nra.
Qed.
Print Assumptions C100_files_at_any_stop.
Print Assumptions C100_every_moment.
Print Assumptions C100_never_both_lost.
Print Assumptions C100_files_read_back.
Print Assumptions C100_unwritable.
Print Assumptions C100_history_emptied_refuted.
