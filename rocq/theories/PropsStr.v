(** C58-C62: texts, XML elements, configuration keywords, switches and constraint definitions. *)
From Coq Require Import Ascii String ZArith Bool Arith Reals Lra List Lia.
From Verif Require Import Base Num RealNum StM StrModel StrSpec StrProofs StrNum StrReal KeyModel.
Import ListNotations.

(** ** C58: extraction of tagged text *)
Theorem C58_extract k s c :
  extractContentBetweenKeys s k = Ok c <->
  exists before rest after, first_at (opening k) s before rest /\ first_at (closing k) rest c after /\ absent (opening k) rest.
Proof.
  split.
  - intros H. destruct (first_or_absent (opening k) s) as [(a & rest & F)|A].
    2:{ rewrite (extract_fails k s (or_introl A)) in H. discriminate. }
    destruct (first_or_absent (closing k) rest) as [(c' & r & G)|A].
    2:{ rewrite (extract_fails k s) in H; [discriminate|]. right. exists a, rest. auto. }
    destruct (first_or_absent (opening k) rest) as [(a' & r' & X)|A].
    { rewrite (extract_fails k s) in H; [discriminate|]. right. exists a, rest. split; [exact F|]. right. exact (first_not_absent _ _ _ _ X). }
    rewrite (extract_content _ _ _ _ _ _ F G A) in H. injection H as <-. now exists a, rest, r.
  - intros (a & rest & r & F & G & A). exact (extract_content _ _ _ _ _ _ F G A).
Qed.
(** every other text is answered by runtime_error: no start tag, no end tag after it, or a second start tag anywhere after the first *)
Theorem C58_extract_fails k s :
  (extractContentBetweenKeys s k = Throw RuntimeError <->
   absent (opening k) s \/
   exists before rest, first_at (opening k) s before rest /\ (absent (closing k) rest \/ ~ absent (opening k) rest)) /\
  (isOk (extractContentBetweenKeys s k) = true \/ extractContentBetweenKeys s k = Throw RuntimeError).
Proof.
  destruct (first_or_absent (opening k) s) as [(a & rest & F)|A].
  2:{ pose proof (extract_fails k s (or_introl A)) as E. split; [|now right]. split; [now left|auto]. }
  destruct (first_or_absent (closing k) rest) as [(c & r & G)|A].
  2:{ assert (H : absent (opening k) s \/ exists before rest, first_at (opening k) s before rest /\ (absent (closing k) rest \/ ~ absent (opening k) rest)) by (right; exists a, rest; auto).
      pose proof (extract_fails k s H) as E. split; [|now right]. split; auto. }
  destruct (first_or_absent (opening k) rest) as [(a' & r' & X)|A].
  { assert (H : absent (opening k) s \/ exists before rest, first_at (opening k) s before rest /\ (absent (closing k) rest \/ ~ absent (opening k) rest)).
    { right. exists a, rest. split; [exact F|]. right. exact (first_not_absent _ _ _ _ X). }
    pose proof (extract_fails k s H) as E. split; [|now right]. split; auto. }
  rewrite (extract_content _ _ _ _ _ _ F G A). split; [|now left]. split; [discriminate|].
  intros [B|(a' & rest' & F' & H)]; [destruct (first_not_absent _ _ _ _ F B)|].
  destruct (first_unique _ _ _ _ _ _ F F') as [_ <-]. destruct H as [H|H]; [destruct (first_not_absent _ _ _ _ G H)|contradiction].
Qed.
(** all blocks, in order, for every text *)
Theorem C58_contents k s cs : extractContents s k = Ok cs <-> blocks k s cs.
Proof.
  destruct (extract_blocks k s) as (cs' & B & E). rewrite E. split.
  - intros [= <-]. exact B.
  - intros B'. f_equal. exact (blocks_unique _ _ _ B _ B').
Qed.
Theorem C58_contents_total k s : exists cs, extractContents s k = Ok cs.
Proof. destruct (extract_blocks k s) as (cs & _ & E). now exists cs. Qed.
(** a document: blocks with text in between *)
Fixpoint document (k gap : str) (blks : list (str * str)) : str :=
  match blks with
  | [] => gap
  | (c, g) :: rest => gap ++ opening k ++ c ++ closing k ++ document k g rest
  end.
Theorem C58_document k gap blks :
  ~ In "<"%char k -> absent (opening k) gap -> (forall c g, In (c, g) blks -> absent (closing k) c /\ absent (opening k) g) ->
  extractContents (document k gap blks) k = Ok (map fst blks).
Proof.
  intros N G B. apply C58_contents. revert gap G. induction blks as [|[c g] blks IH]; intros gap G; cbn [document map fst].
  - now constructor.
  - destruct (B c g (or_introl eq_refl)) as [C G'].
    apply (blocks_more k _ gap (c ++ closing k ++ document k g blks) c (document k g blks)).
    + rewrite opening_cons in *. apply first_after; [now apply no_lt_tag|exact G].
    + rewrite closing_cons in *. apply first_after; [now apply no_lt_ctag|exact C].
    + apply IH; [|exact G']. intros c' g' H. apply B. now right.
Qed.
Theorem C58_single k before c after :
  ~ In "<"%char k -> absent (opening k) before -> absent (closing k) c -> absent (opening k) c -> absent (opening k) after ->
  extractContentBetweenKeys (before ++ opening k ++ c ++ closing k ++ after) k = Ok c.
Proof.
  intros N B C O A. apply C58_extract. exists before, (c ++ closing k ++ after), after. split; [|split].
  - rewrite opening_cons in *. apply first_after; [now apply no_lt_tag|exact B].
  - rewrite closing_cons in *. apply first_after; [now apply no_lt_ctag|exact C].
  - intros a r E. 
    destruct (Nat.lt_ge_cases (length a) (length c)) as [L|L].
    + rewrite closing_cons in E. cbn [app] in E. destruct (before_lt (k ++ [gt]) c ((slash :: k ++ [gt]) ++ after) a r (no_lt_tag k N) E L) as [r' H]. exact (O _ _ H).
    + apply (proj2 (absent_opening_skip k after N) A (skipn (length c) a) r).
      assert (H : skipn (length c) (c ++ closing k ++ after) = skipn (length c) (a ++ opening k ++ r)) by (now rewrite E).
      rewrite skipn_pre in H. rewrite H. rewrite skipn_app. replace (length c - length a) with 0 by lia. reflexivity.
Qed.
(** two complete blocks are an error for the single extraction, although the first start key and the end key after it exist *)
Theorem C58_repeated_refuted : exists k s c before rest after,
  first_at (opening k) s before rest /\ first_at (closing k) rest c after /\ extractContentBetweenKeys s k = Throw RuntimeError.
Proof.
  exists (lit "a"), (lit "<a>1</a><a>2</a>"), (lit "1"), [], (lit "1</a><a>2</a>"), (lit "<a>2</a>"). split; [|split].
  - split; [reflexivity|]. intros; cbn; lia.
  - change (lit "1</a><a>2</a>") with (lit "1" ++ (lt :: slash :: lit "a" ++ [gt]) ++ lit "<a>2</a>").
    apply (first_after (slash :: lit "a" ++ [gt]) (lit "1")); [cbn; intros H; repeat (destruct H as [H|H]; [discriminate|]); destruct H|].
    apply absent_no_lt. cbn. intros H; repeat (destruct H as [H|H]; [discriminate|]); destruct H.
  - reflexivity.
Qed.
Example C58_example : extractContents (document (lit "p") (lit "x<q>") [(lit "one", lit " "); (lit "<q>two", lit "</p>")]) (lit "p") = Ok [lit "one"; lit "<q>two"].
Proof.
  apply C58_document.
  - cbn. intros [H|[]]. discriminate.
  - now apply absent_find.
  - intros c g [H|[H|[]]]; injection H as <- <-; split; now apply absent_find.
Qed.

(** ** C59: elements written and read back *)
Theorem C59_string k s :
  ~ In "<"%char k ->
  (looks_up k s Missing -> getString s k = Ok []) /\
  (looks_up k s Unclosed \/ looks_up k s Repeated -> getString s k = Throw InvalidArgument) /\
  (forall c t, looks_up k s (Content c) -> plain c -> despaced c t -> getString s k = Ok t) /\
  (exists l, looks_up k s l /\ forall l', looks_up k s l' -> l' = l).
Proof.
  intros N. assert (E : forall l, looks_up k s l -> getString s k = match l with Missing => Ok [] | Content c => removeSpaces c | _ => Throw InvalidArgument end).
  { intros l H. assert (LEN : forall a m : nat, usub (a + (length k + 2 + m)) (a + length k + 2) = Some m).
    { intros a m. replace (a + (length k + 2 + m)) with (a + length k + 2 + m) by lia. now apply usub_add. }
    pose proof (get_frame_lookup s k ([] : str) (fun e a => usub e (a + length k + 2)) removeSpaces l N LEN H) as G.
    change (getString s k) with (get_frame s k ([] : str) (fun e a => usub e (a + length k + 2)) removeSpaces). rewrite G. destruct l; reflexivity. }
  repeat split.
  - intros H. exact (E _ H).
  - intros [H|H]; exact (E _ H).
  - intros c t H P D. rewrite (E _ H). now apply removeSpaces_plain.
  - destruct (looks_up_total k s) as [l H]. exists l. split; [exact H|]. intros l' H'. exact (looks_up_unique _ _ _ _ H' H).
Qed.
(** a generated element contains its value *)
Lemma generated_lookup k v : ~ In lt k -> ~ In lt v -> looks_up k (generateXml k v) (Content v).
Proof.
  intros N V. apply (lk_content k _ [] (v ++ closing k) v []).
  - split; [reflexivity|]. intros; cbn; lia.
  - rewrite <- (app_nil_r (closing k)) at 2. rewrite closing_cons. apply first_after; [now apply no_lt_ctag|now apply absent_no_lt].
  - rewrite opening_cons. apply absent_no_lt. intros [].
Qed.
Theorem C59_string_roundtrip k v t : ~ In "<"%char k -> ~ In "<"%char v -> plain v -> despaced v t -> getString (generateXml k v) k = Ok t.
Proof. intros N V P D. exact (proj1 (proj2 (proj2 (C59_string k _ N))) v t (generated_lookup k v N V) P D). Qed.
Lemma getInt_frame k s : getInt s k = get_frame s k (-10000000)%Z (fun e a => match usub e a with Some n => usub n (length k + 2) | None => None end) (fun v => any_to_invalid (stoi v)).
Proof. reflexivity. Qed.
Lemma getDouble_frame k s : getDouble (T := R) s k = get_frame s k (nlit 1 (-13)) (fun e a => match usub e a with Some n => usub n (length k + 2) | None => None end)
  (fun v => v <- removeSpaces v ;; any_to_invalid (stod v)).
Proof. reflexivity. Qed.
Lemma len_ok k : forall a m : nat, match usub (a + (length (A := ascii) k + 2 + m)) a with Some n => usub n (length k + 2) | None => None end = Some m.
Proof. intros a m. rewrite usub_add by reflexivity. now apply usub_add. Qed.
(** an integer element: leading white space, a sign, digits; whatever follows the digits is ignored *)
Theorem C59_int k s :
  ~ In "<"%char k ->
  (looks_up k s Missing -> getInt s k = Ok (-10000000)%Z) /\
  (looks_up k s Unclosed \/ looks_up k s Repeated -> getInt s k = Throw InvalidArgument) /\
  (forall c z, looks_up k s (Content c) ->
     (getInt s k = Ok z <->
      exists sp neg sg ds n r, c = sp ++ sg ++ ds ++ r /\ Forall (fun x => In x spaces) sp /\ sign_text neg sg /\ decimal ds n /\ ds <> [] /\ not_digit_next r /\
        z = with_sign neg n /\ (-2147483648 <= z <= 2147483647)%Z)) /\
  (forall c, looks_up k s (Content c) -> isOk (getInt s k) = false -> getInt s k = Throw InvalidArgument).
Proof.
  intros N. rewrite getInt_frame. 
  assert (E := fun l H => get_frame_lookup s k (-10000000)%Z (fun e a => match usub e a with Some n => usub n (length k + 2) | None => None end) (fun v => any_to_invalid (stoi v)) l N (len_ok k) H).
  repeat split.
  - intros H. now rewrite (E _ H).
  - intros [H|H]; now rewrite (E _ H).
  - rewrite (E _ H). cbn. intros R. apply stoi_inv. unfold any_to_invalid in R. destruct (stoi c); [exact R|discriminate|discriminate].
  - intros (sp & neg & sg & ds & n & r & -> & S & G & D & NE & ND & -> & B). rewrite (E _ H). cbn. rewrite (stoi_reads sp neg sg ds n r S G D NE ND).
    unfold int_min, int_max. destruct (Z.ltb_spec (with_sign neg n) (-2147483648)); [lia|]. destruct (Z.ltb_spec 2147483647 (with_sign neg n)); [lia|]. reflexivity.
  - intros c H. rewrite (E _ H). unfold any_to_invalid. destruct (stoi c) eqn:X; cbn; [discriminate|reflexivity|].
    unfold stoi in X. destruct (take_sign (skip_spaces c)) as [neg u]. destruct (span is_digit u) as [ds r]. destruct (is_empty ds); [discriminate|].
    destruct ((signed neg (digits_val ds) <? int_min) || (int_max <? signed neg (digits_val ds)))%Z; discriminate.
Qed.
Lemma digit_not_lt c : is_digit c = true -> c <> lt /\ c <> gt /\ nat_of_ascii c < 128 /\ ~ In c spaces.
Proof.
  intros H. apply is_digit_iff in H. destruct H as (d & L & ->). repeat split.
  - intros E. apply (f_equal code) in E. rewrite code_digit in E by exact L. change (code lt) with 60 in E. lia.
  - intros E. apply (f_equal code) in E. rewrite code_digit in E by exact L. change (code gt) with 62 in E. lia.
  - change (nat_of_ascii (digit d)) with (code (digit d)). rewrite code_digit by exact L. lia.
  - intros S. apply space_iff in S. rewrite digit_not_space in S; [discriminate|]. apply is_digit_iff. eauto.
Qed.
(** every int written is read back *)
Theorem C59_int_roundtrip k z : ~ In "<"%char k -> (-2147483648 <= z <= 2147483647)%Z -> getInt (generateXml k (int_text z)) k = Ok z.
Proof.
  intros N B. assert (V : ~ In lt (int_text z)).
  { intros I. apply int_chars in I. destruct I as [I|I]; [apply digit_not_lt in I; tauto|discriminate]. }
  rewrite getInt_frame, (get_frame_lookup _ _ _ _ _ _ N (len_ok k) (generated_lookup k _ N V)). rewrite stoi_int_text by exact B. reflexivity.
Qed.
(** a number in decimal syntax, followed by anything that does not continue it, is read as that number if it is in the range of double *)
Lemma stod_number t m e : number_text t m e ->
  (Rabs (IZR m * powerRZ 10 e) <= ndblmax)%R -> (m = 0%Z \/ ndblmin <= Rabs (IZR m * powerRZ 10 e))%R ->
  stod t = Ok (IZR m * powerRZ 10 e)%R.
Proof.
  intros N B1 B2. destruct (strtod_reads _ _ _ N) as [r E]. unfold stod. rewrite E. cbv beta iota zeta.
  change (@nlit R _ m e) with (IZR m * powerRZ 10 e)%R. change (@nabs R _) with Rabs. change (@nltb R _) with Rltb.
  destruct (Rltb_spec ndblmax (Rabs (IZR m * powerRZ 10 e))) as [X|_]; [lra|].
  destruct (Z.eqb_spec m 0) as [Z|Z]; cbn [negb andb]; [reflexivity|].
  destruct (Rltb_spec (Rabs (IZR m * powerRZ 10 e)) ndblmin) as [X|_]; [destruct B2; [contradiction|lra]|reflexivity].
Qed.
Theorem C59_double k s :
  ~ In "<"%char k ->
  (looks_up k s Missing -> getDouble s k = Ok (/ 10 ^ 13)%R) /\
  (looks_up k s Unclosed \/ looks_up k s Repeated -> getDouble (T := R) s k = Throw InvalidArgument) /\
  (forall c t m e, looks_up k s (Content c) -> plain c -> despaced c t -> number_text t m e ->
     (Rabs (IZR m * powerRZ 10 e) <= ndblmax)%R -> (m = 0%Z \/ ndblmin <= Rabs (IZR m * powerRZ 10 e))%R ->
     getDouble s k = Ok (IZR m * powerRZ 10 e)%R) /\
  (forall c t, looks_up k s (Content c) -> plain c -> despaced c t -> isOk (stod (T := R) t) = false -> getDouble (T := R) s k = Throw InvalidArgument).
Proof.
  intros N. rewrite getDouble_frame.
  assert (E := fun l H => get_frame_lookup s k (nlit 1 (-13) : R) (fun e a => match usub e a with Some n => usub n (length k + 2) | None => None end)
     (fun v => v <- removeSpaces v ;; any_to_invalid (stod v)) l N (len_ok k) H).
  repeat split.
  - intros H. rewrite (E _ H). f_equal. cbn [nlit RNum]. unfold Rlit. rewrite Rmult_1_l. reflexivity.
  - intros [H|H]; now rewrite (E _ H).
  - intros c t m e H P D NT B1 B2. rewrite (E _ H), (removeSpaces_plain _ _ P D). cbn [bind]. now rewrite (stod_number _ _ _ NT B1 B2).
  - intros c t H P D X. rewrite (E _ H), (removeSpaces_plain _ _ P D). cbn [bind]. unfold stod in *. destruct (strtod t) as [[[m e] r]|]; [|reflexivity].
    cbv zeta in *. destruct (nltb _ _); [reflexivity|]. destruct (negb _ && _)%bool; [reflexivity|discriminate].
Qed.
Example C59_number : number_text (lit "-1.5e3 m") (-15) 2.
Proof.
  apply (number_is [] true (lit "-") (lit "1") 1 (lit ".5") 1 5 (lit "e3") 3 (lit " m")); try (now constructor).
  - apply (dec_snoc [] 0 1); [constructor|lia].
  - discriminate.
  - apply (fr_some (lit "5") 5). apply (dec_snoc [] 0 5); [constructor|lia].
  - apply (ex_some "e"%char false [] (lit "3") 3); [now left|constructor|apply (dec_snoc [] 0 3); [constructor|lia]|discriminate].
  - cbn [lit list_ascii_of_string ends_number]. repeat split; try discriminate. intros d L X. apply (f_equal nat_of_ascii) in X. change (nat_of_ascii " ") with 32 in X.
    change (nat_of_ascii (digit d)) with (code (digit d)) in X. rewrite code_digit in X by exact L. lia.
Qed.
(** the text printed for a double: rounded to six decimals *)
Definition printed (x : R) (t : str) : Prop :=
  exists neg m, (0 <= m)%Z /\ (neg = true <-> (x < 0)%R) /\ (Rabs (IZR m - Rabs x * 1000000) <= / 2)%R /\ t = fixed_text neg m.
Lemma printed_clean x t : printed x t -> (forall c, In c t -> c <> lt /\ c <> gt /\ nat_of_ascii c < 128 /\ ~ In c spaces).
Proof.
  intros (neg & m & M & _ & _ & ->) c I. apply fixed_chars in I; [|exact M].
  destruct I as [I|[->| ->]]; [now apply digit_not_lt| |]; (split; [discriminate|]; split; [discriminate|]; split; [cbn; lia|]);
    intros S; apply space_iff in S; discriminate.
Qed.
Lemma printed_value x t : printed x t -> (Rabs x + 1 <= ndblmax)%R -> exists y, stod t = Ok y /\ (Rabs (y - x) <= 5 / 10000000)%R.
Proof.
  intros (neg & m & M & S & E & ->) B. exists (IZR (with_sign neg m) / 1000000)%R.
  assert (P : (0 <= IZR m)%R) by (apply IZR_le; exact M).
  assert (E' : (- / 2 <= IZR m - Rabs x * 1000000 <= / 2)%R) by (revert E; unfold Rabs at 1; destruct (Rcase_abs (IZR m - Rabs x * 1000000)); lra).
  split.
  - apply stod_fixed; [exact M|]. lra.
  - unfold with_sign. destruct neg.
    + assert (x < 0)%R by (now apply S). rewrite Rabs_left in E' by lra. rewrite opp_IZR. apply Rabs_le. lra.
    + assert (0 <= x)%R by (destruct (Rlt_dec x 0) as [L|L]; [apply S in L; discriminate|lra]). rewrite (Rabs_pos_eq x) in E' by lra. apply Rabs_le. lra.
Qed.
Lemma despaced_id t : (forall c, In c t -> ~ In c spaces) -> despaced t t.
Proof. induction t as [|c t IH]; intros H; [constructor|]. apply ds_keep; [apply H; now left|]. apply IH. intros d I. apply H. now right. Qed.
(** a double is read back up to half a unit of the sixth decimal *)
Theorem C59_double_roundtrip k x t : ~ In "<"%char k -> printed x t -> (Rabs x + 1 <= ndblmax)%R ->
  exists y, getDouble (generateXml k t) k = Ok y /\ (Rabs (y - x) <= 5 / 10000000)%R.
Proof.
  intros N P B. pose proof (printed_clean x t P) as C. destruct (printed_value x t P B) as (y & E & A). exists y. split; [|exact A].
  assert (V : ~ In lt t) by (intros I; apply C in I; tauto).
  rewrite getDouble_frame, (get_frame_lookup _ _ _ _ _ _ N (len_ok k) (generated_lookup k _ N V)).
  rewrite (removeSpaces_plain t t); [cbn [bind]; rewrite E; reflexivity| |].
  - intros c I. apply C in I. tauto.
  - apply despaced_id. intros c I. apply C in I. tauto.
Qed.
(** what is below the sixth decimal is lost: 4e-7 comes back as 0 *)
Theorem C59_small_lost_refuted : exists k x t, ~ In "<"%char k /\ printed x t /\ (0 < x)%R /\ getDouble (generateXml k t) k = Ok 0%R.
Proof.
  exists (lit "tol"), (4 / 10000000)%R, (fixed_text false 0).
  assert (P : printed (4 / 10000000) (fixed_text false 0)).
  { exists false, 0%Z. split; [lia|]. split; [split; [discriminate|lra]|]. split; [|reflexivity]. rewrite (Rabs_pos_eq (4 / 10000000)) by lra. apply Rabs_le. lra. }
  assert (N : ~ In "<"%char (lit "tol")) by (cbn; intros H; repeat (destruct H as [H|H]; [discriminate|]); destruct H).
  split; [exact N|]. split; [exact P|]. split; [lra|].
  pose proof (printed_clean _ _ P) as C. assert (V : ~ In lt (fixed_text false 0)) by (intros I; apply C in I; tauto).
  rewrite getDouble_frame, (get_frame_lookup _ _ _ _ _ _ N (len_ok _) (generated_lookup _ _ N V)).
  rewrite (removeSpaces_plain _ (fixed_text false 0)); [cbn [bind]| |].
  - rewrite stod_fixed; [cbn; f_equal; lra|lia|]. 
    assert (0 <= ndblmax)%R; [|lra]. cbn [ndblmax RNum]. apply Rmult_le_pos.
    + assert (powerRZ 2 (-52) <= 1)%R; [|lra]. change (-52)%Z with (Z.opp 52). rewrite powerRZ_neg'. rewrite <- Rinv_1. apply Rinv_le_contravar; [lra|].
      change 52%Z with (Z.of_nat 52). rewrite <- pow_powerRZ. apply pow_R1_Rle. lra.
    + apply powerRZ_le. lra.
  - intros c I. apply C in I. tauto.
  - apply despaced_id. intros c I. apply C in I. tauto.
Qed.
(** a vector of doubles: every entry is read back, in order *)
Theorem C59_vector_roundtrip k xs ts s :
  ~ In "<"%char k -> ~ In ">"%char k -> k <> [] -> k <> lit "item" ->
  Forall2 printed xs ts -> Forall (fun x => Rabs x + 1 <= ndblmax)%R xs -> generateXmlVector k ts = Ok s ->
  exists ys, getDoubleVector s k = Ok ys /\ Forall2 (fun x y => Rabs (y - x) <= 5 / 10000000)%R xs ys.
Proof.
  intros N1 N2 NE NI P B G. rewrite (getDoubleVector_generated k ts s N1 N2 NE NI) with (2 := G).
  - exists (flat_map number_of ts). split; [reflexivity|]. clear -P B. induction P as [|x t xs ts P PP IH]; cbn [flat_map]; [constructor|].
    inversion B as [|? ? B1 B2]; subst. destruct (printed_value x t P B1) as (y & E & A). unfold number_of at 1. rewrite E. cbn [app]. constructor; [exact A|]. now apply IH.
  - intros v I. clear -P I. induction P as [|x t xs ts P PP IH]; [destruct I|]. destruct I as [->|I]; [|now apply IH].
    split; intros J; apply (printed_clean _ _ P) in J; tauto.
Qed.
(** an opening tag inside the value is not noticed *)
Theorem C59_nested_refuted : exists k s t, ~ In "<"%char k /\ getString s k = Ok t /\ ~ absent (opening k) t.
Proof.
  exists (lit "a"), (lit "<a>1<a>2</a>"), (lit "1<a>2"). split; [cbn; intros [H|[]]; discriminate|]. split; [reflexivity|].
  intros A. exact (A (lit "1") (lit "2") eq_refl).
Qed.
(** blanks inside a number: joined for doubles, cut off for integers *)
Example C59_blank_int : getInt (lit "<n>1 2</n>") (lit "n") = Ok 1%Z.
Proof. reflexivity. Qed.
Example C59_blank_double : exists v, removeSpaces (lit "1 2") = Ok v /\ strtod v = Some (12, 0, [])%Z.
Proof. exists (lit "12"). split; reflexivity. Qed.
Example C59_int_text : int_text (-2147483648) = lit "-2147483648" /\ int_text 0 = lit "0" /\ fixed_text true 1234567 = lit "-1.234567".
Proof. repeat split. Qed.
Example C59_printed : printed (-5 / 4) (lit "-1.250000").
Proof. exists true, 1250000%Z. split; [lia|]. split; [split; [lra|reflexivity]|]. split; [|reflexivity]. rewrite (Rabs_left (-5 / 4)) by lra. apply Rabs_le. lra. Qed.
Print Assumptions C58_extract. Print Assumptions C58_document. Print Assumptions C59_double_roundtrip. Print Assumptions C59_vector_roundtrip.
