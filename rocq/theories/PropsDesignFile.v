(** Property C104: the files and texts made of a design. *)
From Coq Require Import Ascii String ZArith Bool Arith Reals Lra List Lia.
From Verif Require Import Base StM Num RealNum VecModel MatModel DesignModel StrModel StrSpec StrProofs StrNum StrReal DriverText ExtModel ExtSpec ExtProofs CsvModel CsvSpec CsvProofs DriverSpec EaFileSpec EaFileProofs DesignFileModel DesignFileSpec PropsCsv EaDemo.
Import ListNotations.

(** ** printed numbers *)
Lemma alone_chars t v : number_alone t v -> t <> [] /\ ~ In newline_char t /\ ~ In ","%char t.
Proof.
  intros (neg & sg & ip & n & ft & k & f & et & e & S & D & NE & F & X & -> & _). split. { destruct S, ip; cbn; try discriminate; congruence. }
  assert (A : forall ds m, decimal ds m -> ~ In newline_char ds /\ ~ In ","%char ds).
  { intros ds m H. apply decimal_digits in H. unfold all_digits in H. rewrite Forall_forall in H. split; intros I; apply H in I; vm_compute in I; discriminate. }
  assert (B : forall b s, sign_text b s -> ~ In newline_char s /\ ~ In ","%char s). { intros b s H. destruct H; split; intros I; cbn in I; intuition discriminate. }
  assert (C : ~ In newline_char ft /\ ~ In ","%char ft). { destruct F as [|fp m F]; [split; intros []|]. apply A in F. destruct F. split; intros [I|I]; try discriminate I; auto. }
  assert (G : ~ In newline_char et /\ ~ In ","%char et). { destruct X as [|E b s es m EE S' D' _]; [split; intros []|]. apply A in D'. apply B in S'. destruct D', S'. split; intros [I|I]; try (destruct EE; subst E; discriminate I); apply in_app_or in I; destruct I; auto. }
  apply A in D. apply B in S. destruct S, D, C, G. split; intros I; repeat (apply in_app_or in I; destruct I as [I|I]; auto).
Qed.
Lemma alone_stream t v : number_alone t v -> denotes t v.
Proof.
  intros (neg & sg & ip & n & ft & k & f & et & e & S & D & NE & F & X & -> & ->). exists (with_sign neg (n * 10 ^ Z.of_nat k + f)), (e - Z.of_nat k)%Z. split; [|reflexivity].
  replace (sg ++ ip ++ ft ++ et) with ([] ++ sg ++ ip ++ ft ++ et ++ []) by (now rewrite !app_nil_r). apply (stream_is [] neg sg ip n ft k f et e []); auto; cbn; auto; intros; try split; discriminate.
Qed.
Lemma alone_prefix t v : number_alone t v -> exists m e, prefix_number t m e /\ v = (IZR m * powerRZ 10 e)%R.
Proof.
  intros (neg & sg & ip & n & ft & k & f & et & e & S & D & NE & F & X & -> & ->). exists (with_sign neg (n * 10 ^ Z.of_nat k + f)), (e - Z.of_nat k)%Z. split; [|reflexivity].
  replace (sg ++ ip ++ ft ++ et) with ([] ++ sg ++ ip ++ ft ++ et ++ []) by (now rewrite !app_nil_r). apply (prefix_is [] neg sg ip n ft k f et e []); auto; cbn; auto; intros; try discriminate.
  intros E. destruct et'; [congruence|discriminate E].
Qed.
Lemma ten_range x v : ten_digits_of x v -> printable x -> (Rabs v <= ndblmax)%R /\ (v = 0 \/ ndblmin <= Rabs v)%R.
Proof.
  intros H P. pose proof (ten_close x v H) as C. pose proof (Rabs_pos v) as V. destruct P as [->|(P1 & P2)].
  - destruct H as [[_ ->]|(M & E & HM & -> & HR)].
    + rewrite Rabs_R0. split; [|now left]. change (0 <= (2 - powerRZ 2 (-52)) * powerRZ 2 1023)%R. assert (0 < powerRZ 2 1023)%R by (apply powerRZ_lt; lra). assert (powerRZ 2 (-52) <= 1)%R by (unfold powerRZ; rewrite <- Rinv_1; apply Rinv_le_contravar; [lra|apply pow_R1_Rle; lra]). nra.
    + exfalso. assert (0 < powerRZ 10 E)%R by (apply powerRZ_lt; lra). rewrite Rminus_0_l, Rabs_Ropp, Rabs_mult, (Rabs_pos_eq (powerRZ 10 E)) in HR by lra. rewrite Rabs_Zabs in HR. assert (1000000000 <= IZR (Z.abs M))%R by (apply IZR_le; lia). nra.
  - pose proof (Rabs_triang_inv v x) as T1. pose proof (Rabs_triang_inv x v) as T2. rewrite (Rabs_minus_sym v x) in T1. split; [|right]; lra.
Qed.
Lemma shown_first x t : shows_ten x t -> printable x -> exists v, first_number t v /\ ten_digits_of x v.
Proof. intros (v & A & T) P. exists v. split; [|exact T]. destruct (alone_stream t v A) as (m & e & S & E). exists m, e, []. split; [exact S|]. split; [exact E|]. now apply (ten_range x). Qed.
Lemma shown_number x t : shows_ten x t -> printable x -> exists v, number_of t v /\ ten_digits_of x v.
Proof.
  intros (v & A & T) P. exists v. split; [|exact T]. destruct (alone_prefix t v A) as (m & e & S & E). destruct (ten_range x v T P) as (B1 & B2). exists m, e. split; [exact S|]. split; [exact E|]. split; [exact B1|]. destruct B2 as [B2|B2]; [left|now right].
  assert (0 < powerRZ 10 e)%R by (apply powerRZ_lt; lra). rewrite E in B2. apply Rmult_integral in B2. destruct B2 as [B2|B2]; [|lra]. now apply eq_IZR_R0.
Qed.

Section Files.
  Context (writable : str -> bool) (general fixed : nat -> R -> str).
  (** the stream prints ten significant digits when it is told to, of numbers in the range of double *)
  Definition ten_shown (x : R) : Prop := shows_ten x (general 10 x) /\ printable x.
  Lemma all_shown {Q : str -> R -> Prop} (P : forall x t, shows_ten x t -> printable x -> exists v, Q t v /\ ten_digits_of x v) v : (forall x, In x v -> ten_shown x) -> exists vs, Forall2 Q (map (general 10) v) vs /\ Forall2 ten_digits_of v vs.
  Proof.
    induction v as [|x v IH]; intros B; [exists []; split; constructor|]. destruct (B x) as (S & L); [now left|]. destruct (P x _ S L) as (y & FY & SY). destruct IH as (vs & A & C); [intros z I; apply B; now right|]. exists (y :: vs). split; constructor; auto.
  Qed.

  (** ** the vector of a design in a file, one number per line *)
  Theorem C104_vector name (d : design R) fs : name <> [] -> writable name = true -> (forall x, In x (ds_x d) -> ten_shown x) ->
    exists fs' vs, saveDesignVector writable general name d fs = (fs', Ok tt) /\ (forall g, g <> name -> fs' g = fs g) /\
      vec_readFromCSV name fs' = (fs', Ok vs) /\ Forall2 ten_digits_of (ds_x d) vs.
  Proof.
    intros NE W B. destruct (all_shown shown_first (ds_x d) B) as (vs & A & C). eexists _, vs. split.
    { unfold saveDesignVector, sbind, sthrow_if, smod. rewrite W. destruct name; [congruence|]. cbn [is_empty negb sret]. unfold sret. reflexivity. }
    split; [intros g; apply put_other|]. split; [|exact C]. apply C95_column. split; [reflexivity|]. exists (concat (map (fun a => general 10 a ++ newline) (ds_x d))), (map (general 10) (ds_x d)). split; [apply put_same|]. split; [|exact A].
    apply cut_pieces. rewrite <- (app_nil_r (concat _)). replace (map (fun a => general 10 a ++ newline) (ds_x d)) with (map (fun a => a ++ [newline_char]) (map (general 10) (ds_x d))) by (rewrite map_map; reflexivity).
    rewrite pieces_concat. { cbn [pieces]. apply app_nil_r. } intros a I. apply in_map_iff in I. destruct I as (x & <- & Ix). destruct (B x Ix) as ((v & S & _) & _). now apply alone_chars in S.
  Qed.
  (** ** the vector of a design as one line of cells *)
  Theorem C104_csv name (d : design R) fs : name <> [] -> writable name = true -> ds_x d <> [] -> (forall x, In x (ds_x d) -> ten_shown x) ->
    exists fs' m vs, saveDesignVectorCsv writable general name d fs = (fs', Ok tt) /\ (forall g, g <> name -> fs' g = fs g) /\
      mat_readFromCSV name false fs' = (fs', Ok m) /\ has_rows m [vs] /\ Forall2 ten_digits_of (ds_x d) vs.
  Proof.
    intros NE W NX B. destruct (all_shown shown_number (ds_x d) B) as (vs & A & C). set (t := joined (lit ",") (map (general 10) (ds_x d))). exists (put name t (put name [] fs)), (mkMat 1 (length vs) vs), vs. split.
    { unfold saveDesignVectorCsv, sbind, sthrow_if, smod. rewrite W. destruct name; [congruence|]. cbn [is_empty negb]. unfold sret. unfold t. destruct (ds_x d); [congruence|reflexivity]. }
    split. { intros g G. rewrite !put_other by exact G. reflexivity. } assert (HR : has_rows (mkMat 1 (length vs) vs) [vs]).
    { split; [reflexivity|]. split; [intros r [<-|[]]; reflexivity|]. split; [cbn; lia|]. intros i j Hi Hj. cbn in Hi, Hj. destruct i as [|i]; [|lia]. cbn [nth]. unfold mget. cbn [nrows mdata]. f_equal. lia. }
    split; [|split; [exact HR|exact C]]. apply C93_matrix. split; [reflexivity|]. assert (S : forall a, In a (map (general 10) (ds_x d)) -> a <> [] /\ ~ In newline_char a /\ ~ In ","%char a).
    { intros a I. apply in_map_iff in I. destruct I as (x & <- & Ix). destruct (B x Ix) as ((v & S & _) & _). now apply alone_chars in S. }
    exists t, [t], [vs]. split; [apply put_same|]. split.
    { apply cut_pieces, pieces_last; unfold t; clear - NX S; destruct (ds_x d) as [|x l]; try congruence; clear NX; cbn [map] in *.
      - destruct (S _ (or_introl eq_refl)) as (N & _). cbn [joined]. destruct (map (general 10) l); [exact N|]. intros E. apply app_eq_nil in E. now destruct E.
      - revert S. generalize (general 10 x) as a. generalize (map (general 10) l) as b. clear. induction b as [|b1 b IH]; intros a S; cbn [joined] in *; [destruct (S a (or_introl eq_refl)) as (_ & N & _); exact N|]. intros I. apply in_app_or in I. destruct I as [I|I]; [destruct (S a (or_introl eq_refl)) as (_ & N & _); contradiction|]. destruct I as [I|I]; [discriminate I|]. revert I. apply IH. intros q Q. apply S. now right. }
    split; [|split; [discriminate|exact HR]]. constructor; [|constructor]. exists (map (general 10) (ds_x d)). split; [|exact A]. apply cut_pieces. unfold t. apply (pieces_joined ","%char). intros a I. apply S in I. tauto.
  Qed.
  (** ** what is refused: no name, a file that cannot be opened; nothing is changed *)
  Theorem C104_refused name (d : design R) fs : name = [] \/ writable name = false ->
    exists e, saveDesignVector writable general name d fs = (fs, Throw e) /\ saveDesignVectorCsv writable general name d fs = (fs, Throw e) /\ (name = [] -> e = InvalidArgument) /\ (name <> [] -> e = RuntimeError).
  Proof.
    intros H. destruct name as [|a name].
    - exists InvalidArgument. repeat split; congruence.
    - exists RuntimeError. destruct H as [H|H]; [discriminate|]. unfold saveDesignVector, saveDesignVectorCsv, sbind, sthrow_if. rewrite H. repeat split; congruence.
  Qed.
  (** a design without parameters: no line of cells, but the file is emptied *)
  Theorem C104_csv_empty_refuted name (d : design R) fs : name <> [] -> writable name = true -> ds_x d = [] ->
    exists fs', saveDesignVectorCsv writable general name d fs = (fs', Throw OutOfRange) /\ fs' name = Some [] /\ forall g, g <> name -> fs' g = fs g.
  Proof.
    intros NE W E. exists (put name [] fs). split; [|split; [apply put_same|intros g; apply put_other]]. unfold saveDesignVectorCsv, sbind, sthrow_if, smod. rewrite W, E. destruct name; [congruence|reflexivity].
  Qed.
  (** ** the report of a design: it does not tell that it could not be written *)
  Theorem C104_report_lost_refuted name tag (d : design R) fs : name <> [] -> writable name = false -> saveToAFile writable general fixed name tag d fs = (fs, Ok tt).
  Proof. intros NE W. unfold saveToAFile, sbind, sthrow_if, swhen. rewrite W. destruct name; [congruence|reflexivity]. Qed.
  Theorem C104_report name tag (d : design R) fs fs' r : saveToAFile writable general fixed name tag d fs = (fs', r) ->
    (name = [] -> fs' = fs /\ r = Throw InvalidArgument) /\ (name <> [] -> r = Ok tt) /\ (forall g, g <> name -> fs' g = fs g) /\
    (name <> [] -> writable name = true -> exists body, fs' name = Some (tag ++ newline ++ body ++ lit "Feasibility = " ++ (if ds_feas d then lit "YES" else lit "NO") ++ newline)).
  Proof.
    unfold saveToAFile, sbind, sthrow_if, swhen, smod. destruct name as [|a name].
    - intros [= <- <-]. repeat split; congruence.
    - cbn [is_empty]. unfold sret. destruct (writable (a :: name)); intros [= <- <-]; (split; [congruence|]); (split; [congruence|]); (split; [intros g G; try apply put_other; auto|]); try congruence.
      intros _ _. rewrite put_same. unfold designFileText. exists (lit "Design parameters vector:" ++ newline ++ concat (map (general 6) (ds_x d)) ++ lit "Objective function = " ++ fixed 6 (ds_f d) ++ newline ++
        (if Nat.eqb (ds_nc d) 0 then [] else lit "Constraint values vector:" ++ newline ++ concat (map (fixed 6) (ds_con d)))).
      generalize (lit "Design parameters vector:"), (lit "Objective function = "), (lit "Feasibility = "). intros l1 l2 l3. rewrite <- !app_assoc. reflexivity.
  Qed.
  Definition with_x (x : vec R) (s : design R) : design R :=
    mkD (ds_dim s) (ds_nc s) x (ds_xn s) (ds_con s) (ds_conL s) (ds_grad s) (ds_gradL s) (ds_dir s) (ds_f s) (ds_fL s) (ds_t s) (ds_tL s) (ds_imp s) (ds_cg s) (ds_cgm s) (ds_cgmL s) (ds_cdm s) (ds_cdmL s) (ds_ct s) (ds_ctL s) (ds_ID s) (ds_feas s).
  (** the numbers of the report stand side by side without a separator: different designs leave the same file *)
  Theorem C104_report_unclear_refuted name tag fs : general 6 1%R = lit "1" -> general 6 23%R = lit "23" -> general 6 12%R = lit "12" -> general 6 3%R = lit "3" ->
    forall d : design R, exists d1 d2, ds_dim d1 = ds_dim d /\ ds_dim d2 = ds_dim d /\ ds_x d1 = [1; 23]%R /\ ds_x d2 = [12; 3]%R /\ (ds_f d1 = ds_f d2 /\ ds_con d1 = ds_con d2) /\ saveToAFile writable general fixed name tag d1 fs = saveToAFile writable general fixed name tag d2 fs.
  Proof.
    intros G1 G2 G3 G4 d. exists (with_x [1; 23]%R d), (with_x [12; 3]%R d). repeat (split; [now try split|]). unfold saveToAFile. f_equal. f_equal. f_equal. f_equal. f_equal. unfold designFileText. cbn [ds_x ds_f ds_nc ds_con ds_feas with_x map concat]. rewrite G1, G2, G3, G4. reflexivity.
  Qed.

  (** ** headings *)
  Lemma border_fits total len : (0 <= len)%Z -> (len + 2 <= total < 2 ^ 31)%Z -> border_size total len = ((total - len - 2) / 2)%Z.
  Proof.
    intros L H. unfold border_size. rewrite (Z.mod_small (total - len - 2)) by lia. pose proof (Z.div_pos (total - len - 2) 2 ltac:(lia) ltac:(lia)). assert ((total - len - 2) / 2 < 2 ^ 31)%Z by (apply Z.div_lt_upper_bound; lia). rewrite Z.mod_small by lia. lia.
  Qed.
  Lemma border_negative total len : (0 <= total)%Z -> (total < len + 2)%Z -> (len < 2 ^ 31)%Z -> (border_size total len < 0)%Z.
  Proof.
    intros L H B. unfold border_size. rewrite <- (Z.mod_unique_pos (total - len - 2) (2 ^ 64) (-1) (2 ^ 64 + (total - len - 2))) by lia.
    replace (2 ^ 64 + (total - len - 2))%Z with ((total - len - 2) + 2 ^ 63 * 2)%Z by lia. rewrite Z.div_add by lia. set (q := ((total - len - 2) / 2)%Z). assert (- 2 ^ 31 <= q < 0)%Z as Q. { unfold q. split; [apply Z.div_le_lower_bound; lia|apply Z.div_lt_upper_bound; lia]. }
    replace (q + 2 ^ 63 + 2 ^ 31)%Z with ((q + 2 ^ 31) + 2 ^ 31 * 2 ^ 32)%Z by lia. rewrite Z.mod_add by lia. rewrite Z.mod_small by lia. lia.
  Qed.
  (** a text short enough for the width becomes a heading of that width, or one less when the width is odd; a longer one is refused *)
  Theorem C104_heading msg c (width : nat) : (Z.of_nat width < 2 ^ 31)%Z -> (Z.of_nat (length msg) + 1 < 2 ^ 31)%Z ->
    let padded := (length msg + length msg mod 2)%nat in
    (padded + 2 <= width -> exists line, formattedString msg c (Z.of_nat width) = Ok line /\ heading c width msg line) /\
    (width < padded + 2 -> formattedString msg c (Z.of_nat width) = Throw LogicError).
  Proof.
    intros HW HM padded. unfold formattedString. destruct (Z.ltb_spec (Z.of_nat width) 0); [lia|]. set (m := if Nat.eqb (length msg mod 2) 1 then msg ++ lit " " else msg).
    assert (exists pad, m = msg ++ pad /\ (pad = [] \/ pad = lit " ") /\ length m = padded /\ Nat.Even (length m) /\ (Nat.Even (length msg) -> pad = [])) as (pad & Em & P1 & P2 & P3 & P4).
    { unfold m, padded. pose proof (Nat.mod_upper_bound (length msg) 2 ltac:(lia)). pose proof (Nat.div_mod (length msg) 2 ltac:(lia)) as DM. destruct (Nat.eqb_spec (length msg mod 2) 1) as [E|E].
      - exists (lit " "). rewrite app_length. cbn [length lit list_ascii_of_string]. split; [reflexivity|]. split; [now right|]. split; [lia|]. split; [exists (S (length msg / 2)); lia|]. intros (k & K). exfalso. lia.
      - exists []. rewrite app_nil_r. split; [reflexivity|]. split; [now left|]. split; [lia|]. split; [exists (length msg / 2)%nat; lia|reflexivity]. }
    rewrite P2. split; intros H1.
    - rewrite border_fits by lia. unfold repeated. pose proof (Z.div_pos (Z.of_nat width - Z.of_nat padded - 2) 2 ltac:(lia) ltac:(lia)). destruct (Z.ltb_spec ((Z.of_nat width - Z.of_nat padded - 2) / 2) 0); [lia|]. cbn [bind]. eexists. split; [reflexivity|].
      set (n := Z.to_nat _). exists n, pad. split; [exact P1|]. rewrite <- Em. split; [exact P3|]. split; [exact P4|]. split. { rewrite Em, <- !app_assoc. reflexivity. }
      rewrite !app_length, !repeat_length, P2. change (length (lit " ")) with 1%nat. pose proof (Z.div_mod (Z.of_nat width - Z.of_nat padded - 2) 2 ltac:(lia)) as DM. pose proof (Z.mod_pos_bound (Z.of_nat width - Z.of_nat padded - 2) 2 ltac:(lia)). assert (Z.of_nat n = (Z.of_nat width - Z.of_nat padded - 2) / 2)%Z by (unfold n; lia). lia.
    - pose proof (Nat.mod_upper_bound (length msg) 2 ltac:(lia)). assert (border_size (Z.of_nat width) (Z.of_nat padded) < 0)%Z by (apply border_negative; unfold padded in *; lia). unfold repeated. destruct (Z.ltb_spec (border_size (Z.of_nat width) (Z.of_nat padded)) 0); [reflexivity|lia].
  Qed.
  Theorem C104_heading_negative msg c z : (z < 0)%Z -> formattedString msg c z = Throw InvalidArgument.
  Proof. intros H. unfold formattedString. destruct (Z.ltb_spec z 0); [reflexivity|lia]. Qed.
  (** ** a text between two borders of 120 stars, on a line of its own and in the middle of it *)
  Theorem C104_boxed content :
    (length content <= 120 -> exists l r, boxedString content = Ok (repeat "*"%char 120 ++ newline ++ l ++ content ++ r ++ newline ++ repeat "*"%char 120) /\
       (forall c, In c (l ++ r) -> c = " "%char) /\ length (l ++ content ++ r) = 120%nat /\ (length r = length l \/ length r = S (length l))) /\
    (120 < length content -> boxedString content = Throw InvalidArgument).
  Proof.
    unfold boxedString. destruct (Nat.ltb_spec 120 (length content)) as [L|L]; (split; intros H; [try lia|try lia; reflexivity]).
    set (p := ((120 - length content) / 2)%nat). set (e := ((120 - length content) mod 2)%nat). exists (repeat " "%char p), (repeat " "%char (p + e)). split; [reflexivity|].
    split. { intros c I. apply in_app_or in I. destruct I as [I|I]; now apply repeat_spec in I. } rewrite !app_length, !repeat_length. pose proof (Nat.div_mod (120 - length content) 2 ltac:(lia)). pose proof (Nat.mod_upper_bound (120 - length content) 2 ltac:(lia)). fold p e in H0, H1. lia.
  Qed.

  (** ** the description of a design *)
  Definition listed (v : vec R) : str := concat (map (fun a => fixed 6 a ++ lit " ") v).
  Lemma numbersText_ok : forall (x pre : vec R), numbersText fixed (pre ++ x) (seq (length pre) (length x)) = Ok (listed x).
  Proof.
    induction x as [|a x IH]; intros pre; [reflexivity|]. cbn [length seq numbersText]. unfold vec_at. rewrite app_length. cbn [length]. unfold vget. rewrite app_nth2, Nat.sub_diag by lia. cbn [nth bind].
    specialize (IH (pre ++ [a])). rewrite <- app_assoc, app_length in IH. cbn [length app] in IH. rewrite Nat.add_1_r in IH. rewrite IH. cbn [bind]. unfold listed. cbn [map concat]. destruct (Nat.leb_spec (length pre + Datatypes.S (length x)) (length pre)); [lia|]. now rewrite <- app_assoc.
  Qed.
  Theorem C104_described tag (d : design R) : length (ds_x d) = ds_dim d -> (length tag + length tag mod 2 <= 98)%nat ->
    exists line, heading "-" 100 tag line /\ outputString fixed tag d = Ok (line ++ newline ++ lit "Design parameters = " ++ newline ++ listed (ds_x d) ++ newline ++
      lit "Objective function value : " ++ fixed 6 (ds_f d) ++ newline ++ (if is_empty (ds_con d) then [] else lit "Constraint values = " ++ newline ++ listed (ds_con d) ++ newline) ++ repeat "-"%char 100 ++ newline).
  Proof.
    intros L T. destruct (C104_heading tag "-"%char 100) as ((line & E & H) & _); [cbn; lia| |lia|]. { pose proof (Nat.mod_upper_bound (length tag) 2 ltac:(lia)). lia. }
    exists line. split; [exact H|]. unfold outputString. change 100%Z with (Z.of_nat 100). rewrite E. cbn [bind]. rewrite <- L. rewrite (numbersText_ok (ds_x d) [] : numbersText fixed (ds_x d) (seq 0 (length (ds_x d))) = _). cbn [bind].
    rewrite (numbersText_ok (ds_con d) [] : numbersText fixed (ds_con d) (seq 0 (length (ds_con d))) = _). cbn [bind]. destruct (ds_con d); reflexivity.
  Qed.
  Theorem C104_long_tag_refuted tag (d : design R) : (98 < length tag + length tag mod 2)%nat -> (Z.of_nat (length tag) + 1 < 2 ^ 31)%Z -> outputString fixed tag d = Throw LogicError.
  Proof.
    intros T B. destruct (C104_heading tag "-"%char 100) as (_ & E); [cbn; lia|exact B|]. unfold outputString. change 100%Z with (Z.of_nat 100). rewrite E by lia. reflexivity.
  Qed.
End Files.
Print Assumptions C104_vector.
Print Assumptions C104_csv.
Print Assumptions C104_refused.
Print Assumptions C104_csv_empty_refuted.
Print Assumptions C104_report_lost_refuted.
Print Assumptions C104_report.
Print Assumptions C104_report_unclear_refuted.
Print Assumptions C104_heading.
Print Assumptions C104_heading_negative.
Print Assumptions C104_boxed.
Print Assumptions C104_described.
Print Assumptions C104_long_tag_refuted.

(** ** concrete cases *)
Definition small_general (p : nat) (x : R) : str := if Rltb x 1 then lit "0.5" else if Rltb x 2 then lit "1" else if Rltb x 4 then lit "3" else if Rltb x 20 then lit "12" else lit "23".
Lemma half_shown : ten_shown small_general (1 / 2).
Proof.
  assert (E : small_general 10 (1 / 2) = lit "0.5") by (unfold small_general; destruct (Rltb_spec (1 / 2) 1); [reflexivity|lra]). split.
  - rewrite E. exists (1 / 2)%R. split.
    + exists false, [], (lit "0"), 0%Z, (lit "." ++ lit "5"), 1%nat, 5%Z, [], 0%Z. split; [constructor|]. split; [exact (dec_snoc [] 0 0 dec_nil ltac:(lia))|]. split; [discriminate|]. split; [apply (fr_some (lit "5")); exact (dec_snoc [] 0 5 dec_nil ltac:(lia))|]. split; [constructor|]. split; [reflexivity|]. change (1 / 2 = 5 * / (10 ^ 1))%R. lra.
    + right. exists 5000000000%Z, (-10)%Z. split; [lia|]. split; [change (1 / 2 = 5000000000 * / (10 ^ 10))%R; lra|]. rewrite Rminus_diag_eq by lra. rewrite Rabs_R0. assert (0 < powerRZ 10 (-10))%R by (apply powerRZ_lt; lra). lra.
  - right. pose proof DM_big. pose proof Dm_small. change (@ndblmax R RNum) with DM. change (@ndblmin R RNum) with Dm. rewrite Rabs_pos_eq by lra. split; lra.
Qed.
Lemma three_shown : ten_shown small_general 3.
Proof.
  assert (E : small_general 10 3 = lit "3") by (unfold small_general; destruct (Rltb_spec 3 1); [lra|]; destruct (Rltb_spec 3 2); [lra|]; destruct (Rltb_spec 3 4); [reflexivity|lra]). split.
  - rewrite E. exists 3%R. split.
    + exists false, [], (lit "3"), 3%Z, [], 0%nat, 0%Z, [], 0%Z. split; [constructor|]. split; [exact (dec_snoc [] 0 3 dec_nil ltac:(lia))|]. split; [discriminate|]. split; [constructor|]. split; [constructor|]. split; [reflexivity|]. change (3 = 3 * 1)%R. lra.
    + right. exists 3000000000%Z, (-9)%Z. split; [lia|]. split; [change (3 = 3000000000 * / (10 ^ 9))%R; lra|]. rewrite Rminus_diag_eq by lra. rewrite Rabs_R0. assert (0 < powerRZ 10 (-9))%R by (apply powerRZ_lt; lra). lra.
  - right. pose proof DM_big. pose proof Dm_small. change (@ndblmax R RNum) with DM. change (@ndblmin R RNum) with Dm. rewrite Rabs_pos_eq by lra. split; [lra|]. assert (6 <= DM)%R; [|lra].
    unfold DM. change (6 <= (2 - powerRZ 2 (-52)) * powerRZ 2 1023)%R. assert (powerRZ 2 (-52) <= 1)%R by (unfold powerRZ; rewrite <- Rinv_1; apply Rinv_le_contravar; [lra|apply pow_R1_Rle; lra]).
    assert (2 ^ 3 <= powerRZ 2 1023)%R by (unfold powerRZ; apply Rle_pow; [lra|]; apply Nat.leb_le; vm_compute; reflexivity). generalize dependent (powerRZ 2 1023). generalize dependent (powerRZ 2 (-52)). intros. nra.
Qed.
Definition two_numbers (d : design R) : design R := with_x [1 / 2; 3]%R d.
Example C104_example (d : design R) : exists fs' fs'' vs m, saveDesignVector (fun _ => true) small_general (lit "dv.dat") (two_numbers d) (fun _ => None) = (fs', Ok tt) /\ vec_readFromCSV (lit "dv.dat") fs' = (fs', Ok vs) /\ Forall2 ten_digits_of [1 / 2; 3]%R vs /\
  saveDesignVectorCsv (fun _ => true) small_general (lit "dv.csv") (two_numbers d) fs' = (fs'', Ok tt) /\ mat_readFromCSV (lit "dv.csv") false fs'' = (fs'', Ok m) /\ nrows m = 1%nat /\ fs'' (lit "dv.dat") = fs' (lit "dv.dat").
Proof.
  assert (B : forall x, In x (ds_x (two_numbers d)) -> ten_shown small_general x) by (intros x [<-|[<-|[]]]; [exact half_shown|exact three_shown]).
  destruct (C104_vector (fun _ => true) small_general (lit "dv.dat") (two_numbers d) (fun _ => None)) as (fs' & vs & A1 & _ & A2 & A3); [discriminate|reflexivity|exact B|].
  destruct (C104_csv (fun _ => true) small_general (lit "dv.csv") (two_numbers d) fs') as (fs'' & m & ws & B1 & B2 & B3 & B4 & _); [discriminate|reflexivity|discriminate|exact B|].
  exists fs', fs'', vs, m. repeat (split; [assumption|]). split; [apply B4|]. apply B2. discriminate.
Qed.
Example C104_heading_example : formattedString (lit "Optimum") "="%char 20 = Ok (lit "===== Optimum  =====") /\ formattedString (lit "Optimum") "="%char 9 = Throw LogicError.
Proof. split; reflexivity. Qed.
Example C104_report_example (d : design R) fs : exists d1 d2, ds_x d1 = [1; 23]%R /\ ds_x d2 = [12; 3]%R /\ saveToAFile (fun _ => true) small_general small_general (lit "report") (lit "Optimum") d1 fs = saveToAFile (fun _ => true) small_general small_general (lit "report") (lit "Optimum") d2 fs.
Proof.
  destruct (C104_report_unclear_refuted (fun _ => true) small_general small_general (lit "report") (lit "Optimum") fs) with (d := d) as (d1 & d2 & _ & _ & A & B & _ & E).
  1,2,3,4: unfold small_general; repeat match goal with |- context [Rltb ?a ?b] => destruct (Rltb_spec a b); try lra end; reflexivity.
  exists d1, d2. auto.
Qed.
