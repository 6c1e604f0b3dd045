(** C60-C62: configuration keywords, switches, constraint definitions. *)
From Coq Require Import Ascii String ZArith Bool Arith Reals Lra List Lia.
From Verif Require Import Base Num RealNum StM StrModel StrSpec StrProofs StrNum StrReal KeyModel PropsStr.
Import ListNotations.

(** ** C60: keywords *)
Lemma key_name_ok (k : keyword R) n : kw_name k = n -> n <> [] -> is_empty (kw_name k) = false.
Proof. intros -> H. destruct n; [congruence|reflexivity]. Qed.
Definition same_key (k k' : keyword R) : Prop := kw_name k' = kw_name k /\ kw_type k' = kw_type k.

(** an integer keyword: absent means not set; present means set unless the value is the sentinel -10000000; the previous value stays
    whenever the keyword is not set *)
Theorem C60_int (k : keyword R) input :
  kw_type k = KInt -> kw_name k <> [] -> ~ In "<"%char (kw_name k) ->
  exists k', same_key k k' /\
   (looks_up (kw_name k) input Missing -> kw_read input k = (k', Ok tt) /\ kw_require k' = Throw RuntimeError /\ kw_getInt k' = kw_getInt k) /\
   (forall z, getInt input (kw_name k) = Ok z ->
      kw_read input k = (k', Ok tt) /\ (kw_require k' = Ok tt <-> z <> (-10000000)%Z) /\ kw_getInt k' = if Z.eqb z (-10000000) then kw_getInt k else Ok z) /\
   (forall e, getInt input (kw_name k) = Throw e -> kw_read input k = (k', Throw InvalidArgument) /\ kw_require k' = Throw RuntimeError /\ kw_getInt k' = kw_getInt k).
Proof.
  intros T NE N. pose proof (key_name_ok k _ eq_refl NE) as KN.
  assert (R : kw_read input k = match getInt input (kw_name k) with
     | Ok z => (kw_putInt z (kw_unset k), Ok tt) | Throw e => (kw_unset k, Throw e) | UB => (kw_unset k, UB) end).
  { unfold kw_read, sbind at 1, sget. rewrite KN, T. unfold sthrow_if, sbind, sret, smod, slift. destruct (getInt input (kw_name k)); reflexivity. }
  destruct (C59_int (kw_name k) input N) as (CM & CU & CC & CF).
  destruct (getInt input (kw_name k)) as [z|e|] eqn:E.
  - exists (kw_putInt z (kw_unset k)). unfold same_key, kw_putInt, kw_require, kw_getInt. split; [destruct (Z.eqb z (-10000000)); split; reflexivity|]. rewrite R. repeat split.
    + pose proof (CM H) as E'. injection E' as ->. reflexivity.
    + pose proof (CM H) as E'. injection E' as ->. cbn. now rewrite T.
    + intros X. injection H as <-. destruct (Z.eqb_spec z (-10000000)); cbn in X; [discriminate|assumption].
    + intros X. injection H as <-. destruct (Z.eqb_spec z (-10000000)); [contradiction|reflexivity].
    + injection H as <-. destruct (Z.eqb_spec z (-10000000)); cbn; rewrite T; reflexivity.
    + discriminate.
    + discriminate.
    + discriminate.
  - exists (kw_unset k). split; [split; reflexivity|]. rewrite R. split; [intros H; apply CM in H; discriminate|]. split; [discriminate|].
    intros e' [= ->]. split; [|split; reflexivity].
    assert (e' = InvalidArgument); [|subst; reflexivity].
    rewrite <- E in *. destruct (looks_up_total (kw_name k) input) as [l L]. destruct l as [| | |c].
    + apply CM in L. congruence.
    + assert (X := CU (or_introl L)). congruence.
    + assert (X := CU (or_intror L)). congruence.
    + assert (X := CF c L). rewrite E in X. specialize (X eq_refl). congruence.
  - exists (kw_unset k). split; [split; reflexivity|]. split; [intros H; apply CM in H; discriminate|]. split; discriminate.
Qed.
(** a double keyword: absent means SET, to 1e-13; present means set only if the value is larger than the machine epsilon in size *)
Lemma kw_read_double (k : keyword R) input : kw_type k = KDouble -> kw_name k <> [] ->
  kw_read input k = match getDouble input (kw_name k) with
     | Ok v => (kw_putDouble v (kw_unset k), Ok tt) | Throw e => (kw_unset k, Throw e) | UB => (kw_unset k, UB) end.
Proof.
  intros T NE. pose proof (key_name_ok k _ eq_refl NE) as KN. unfold kw_read, sbind at 1, sget. rewrite KN, T. unfold sthrow_if, sbind, sret, smod, slift.
  destruct (getDouble input (kw_name k)); reflexivity.
Qed.
Theorem C60_double_absent_set (k : keyword R) input :
  kw_type k = KDouble -> kw_name k <> [] -> ~ In "<"%char (kw_name k) -> looks_up (kw_name k) input Missing ->
  exists k', kw_read input k = (k', Ok tt) /\ same_key k k' /\ kw_require k' = Ok tt /\ kw_getDouble k' = Ok (/ 10 ^ 13)%R.
Proof.
  intros T NE N L. rewrite (kw_read_double k input T NE), getDouble_frame, (get_frame_lookup _ _ _ _ _ _ N (len_ok _) L).
  exists (kw_putDouble (nlit 1 (-13)) (kw_unset k)). split; [reflexivity|].
  assert (V : @nlit R _ 1 (-13) = (/ 10 ^ 13)%R) by (cbn [nlit RNum]; unfold Rlit; rewrite Rmult_1_l; reflexivity).
  unfold kw_putDouble. rewrite V. change (@nltb R _) with Rltb. change (@nabs R _) with Rabs.
  assert (P : (0 < / 10 ^ 13)%R) by (apply Rinv_0_lt_compat, pow_lt; lra). rewrite Rabs_pos_eq by lra.
  assert (E : (ndbleps < / 10 ^ 13)%R).
  { cbn [ndbleps RNum]. change (-52)%Z with (Z.opp 52). rewrite powerRZ_neg'. change 52%Z with (Z.of_nat 52). rewrite <- pow_powerRZ.
    apply Rinv_lt_contravar; [apply Rmult_lt_0_compat; apply pow_lt; lra|]. simpl. lra. }
  destruct (Rltb_spec ndbleps (/ 10 ^ 13)) as [_|X]; [|lra]. unfold same_key, kw_getDouble. cbn. rewrite T. repeat split.
Qed.
Theorem C60_double_present (k : keyword R) input x :
  kw_type k = KDouble -> kw_name k <> [] -> getDouble input (kw_name k) = Ok x ->
  exists k', kw_read input k = (k', Ok tt) /\ same_key k k' /\
    (kw_require k' = Ok tt <-> (/ 2 ^ 52 < Rabs x)%R) /\
    ((/ 2 ^ 52 < Rabs x)%R -> kw_getDouble k' = Ok x) /\ (~ (/ 2 ^ 52 < Rabs x)%R -> kw_getDouble k' = kw_getDouble k).
Proof.
  intros T NE E. rewrite (kw_read_double k input T NE), E. exists (kw_putDouble x (kw_unset k)). split; [reflexivity|].
  unfold kw_putDouble. change (@nltb R _) with Rltb. change (@nabs R _) with Rabs. change (@ndbleps R _) with (/ 2 ^ 52)%R.
  unfold same_key, kw_getDouble, kw_require. destruct (Rltb_spec (/ 2 ^ 52) (Rabs x)) as [L|L]; cbn [kw_name kw_type kw_set kw_double kw_unset]; rewrite ?T; repeat split; try tauto.
  intros H. discriminate.
Qed.
(** a keyword explicitly given as 0 is reported as missing *)
Theorem C60_zero_missing_refuted : exists (k : keyword R) input k',
  looks_up (kw_name k) input (Content (lit "0.0")) /\ kw_read input k = (k', Ok tt) /\ kw_require k' = Throw RuntimeError.
Proof.
  set (k := mkKey (lit "tol") KDouble false 1%R [] [] [] 0%Z). exists k, (generateXml (lit "tol") (lit "0.0")).
  assert (N : ~ In lt (lit "tol")) by (cbn; intros H; repeat (destruct H as [H|H]; [discriminate|]); destruct H).
  assert (L : looks_up (kw_name k) (generateXml (lit "tol") (lit "0.0")) (Content (lit "0.0"))).
  { apply generated_lookup; [exact N|]. cbn; intros H; repeat (destruct H as [H|H]; [discriminate|]); destruct H. }
  assert (E : getDouble (generateXml (lit "tol") (lit "0.0")) (kw_name k) = Ok 0%R).
  { rewrite getDouble_frame, (get_frame_lookup _ _ _ _ _ _ N (len_ok _) L). change (removeSpaces (lit "0.0")) with (Ok (lit "0.0")). cbn [bind].
    unfold stod. change (strtod (lit "0.0")) with (Some (0%Z, (-1)%Z, @nil ascii)). cbv beta iota zeta.
    assert (Z0 : @nlit R _ 0 (-1) = 0%R) by (cbn [nlit RNum]; unfold Rlit; lra). rewrite Z0. change (@nabs R _ 0%R) with (Rabs 0). rewrite Rabs_R0.
    change (@nltb R _) with Rltb. destruct (Rltb_spec ndblmax 0) as [X|_]; [|reflexivity]. exfalso. revert X. apply Rle_not_lt.
    cbn [ndblmax RNum]. apply Rmult_le_pos.
    + assert (powerRZ 2 (-52) <= 1)%R; [|lra]. change (-52)%Z with (Z.opp 52). rewrite powerRZ_neg'. rewrite <- Rinv_1. apply Rinv_le_contravar; [lra|].
      change 52%Z with (Z.of_nat 52). rewrite <- pow_powerRZ. apply pow_R1_Rle. lra.
    + apply powerRZ_le. lra. }
  destruct (C60_double_present k _ 0%R eq_refl ltac:(discriminate) E) as (k' & R & _ & S & _). exists k'. split; [exact L|]. split; [exact R|].
  unfold kw_require in *. destruct (kw_set k'); [|reflexivity]. exfalso. destruct S as [S _]. specialize (S eq_refl). rewrite Rabs_R0 in S.
  assert (0 < / 2 ^ 52)%R by (apply Rinv_0_lt_compat, pow_lt; lra). lra.
Qed.
(** a text keyword: set exactly when something other than white space stands in the element; otherwise the previous text stays *)
Theorem C60_string (k : keyword R) input :
  kw_type k = KString -> kw_name k <> [] -> ~ In "<"%char (kw_name k) ->
  (looks_up (kw_name k) input Missing -> exists k', kw_read input k = (k', Ok tt) /\ same_key k k' /\ kw_require k' = Throw RuntimeError /\ kw_getString k' = kw_getString k) /\
  (forall c t, looks_up (kw_name k) input (Content c) -> plain c -> despaced c t ->
     exists k', kw_read input k = (k', Ok tt) /\ same_key k k' /\ (kw_require k' = Ok tt <-> t <> []) /\
       (t <> [] -> kw_getString k' = Ok t) /\ (t = [] -> kw_getString k' = kw_getString k)) /\
  (looks_up (kw_name k) input Unclosed \/ looks_up (kw_name k) input Repeated ->
     exists k', kw_read input k = (k', Throw InvalidArgument) /\ same_key k k' /\ kw_require k' = Throw RuntimeError).
Proof.
  intros T NE N. pose proof (key_name_ok k _ eq_refl NE) as KN.
  assert (R : kw_read input k = match getString input (kw_name k) with
     | Ok z => (kw_putString z (kw_unset k), Ok tt) | Throw e => (kw_unset k, Throw e) | UB => (kw_unset k, UB) end).
  { unfold kw_read, sbind at 1, sget. rewrite KN, T. unfold sthrow_if, sbind, sret, smod, slift. destruct (getString input (kw_name k)); reflexivity. }
  destruct (C59_string (kw_name k) input N) as (CM & CU & CC & _). rewrite R. repeat split.
  - intros H. rewrite (CM H). exists (kw_unset k). unfold same_key, kw_getString. cbn. rewrite T. repeat split.
  - intros c t L P D. rewrite (CC c t L P D). exists (kw_putString t (kw_unset k)). split; [reflexivity|]. unfold same_key, kw_getString, kw_require, kw_putString.
    destruct t as [|c0 t]; cbn; rewrite ?T; repeat split; try congruence.
  - intros H. rewrite (CU H). exists (kw_unset k). repeat split.
Qed.
(** a value read earlier survives a later reading in which the keyword is absent *)
Theorem C60_stale_refuted : exists (k k1 k2 : keyword R) in1 in2,
  kw_read in1 k = (k1, Ok tt) /\ kw_read in2 k1 = (k2, Ok tt) /\ looks_up (kw_name k) in2 Missing /\ kw_getInt k2 = Ok 7%Z.
Proof.
  exists (mkKey (lit "n") KInt false 1%R [] [] [] 0%Z), (mkKey (lit "n") KInt true 1%R [] [] [] 7%Z), (mkKey (lit "n") KInt false 1%R [] [] [] 7%Z), (lit "<n>7</n>"), (lit "x").
  repeat split. constructor. now apply absent_find.
Qed.

(** ** C61: switches and comparison *)
Theorem C61_on m : checkIfOn m = true <-> exists w, In w (map lit ["yes"; "y"; "on"; "true"; "enable"; "enabled"]%string) /\ same_word m w.
Proof.
  unfold checkIfOn, on_words. rewrite existsb_exists. split; intros (w & I & H); exists w; (split; [exact I|]);
    assert (LW : map lower w = w) by (cbn in I; repeat (destruct I as [<-|I]; [reflexivity|]); destruct I).
  - apply str_eqb_eq in H. now apply lower_word.
  - apply str_eqb_eq. now apply lower_word.
Qed.
Theorem C61_off m : checkIfOff m = true <-> exists w, In w (map lit ["no"; "n"; "off"; "false"; "disable"; "disabled"]%string) /\ same_word m w.
Proof.
  unfold checkIfOff, off_words. rewrite existsb_exists. split; intros (w & I & H); exists w; (split; [exact I|]);
    assert (LW : map lower w = w) by (cbn in I; repeat (destruct I as [<-|I]; [reflexivity|]); destruct I).
  - apply str_eqb_eq in H. now apply lower_word.
  - apply str_eqb_eq. now apply lower_word.
Qed.
Theorem C61_never_both m : checkIfOn m = true -> checkIfOff m = true -> False.
Proof.
  unfold checkIfOn, checkIfOff. rewrite !existsb_exists. intros (w & I & H) (w' & I' & H'). apply str_eqb_eq in H, H'. rewrite H in H'. subst w'. clear H.
  cbn in I. repeat (destruct I as [<-|I]; [cbn in I'; repeat (destruct I' as [I'|I']; [discriminate|]); destruct I'|]). destruct I.
Qed.
Theorem C61_equal a b : plain a -> plain b -> exists r, isEqual a b = Ok r /\ (r = true <-> a <> [] /\ same_word a b).
Proof.
  intros PA PB. unfold isEqual. destruct a as [|x a]; [exists false; split; [reflexivity|split; [discriminate|tauto]]|].
  destruct b as [|y b]; [exists false; split; [reflexivity|split; [discriminate|intros [_ F]; inversion F]]|]. cbn [is_empty orb].
  destruct (Nat.eqb_spec (length (x :: a)) (length (y :: b))) as [L|L]; cbn [negb].
  - destruct (equal_nocase_plain _ _ PA PB L) as (r & E & S). exists r. split; [exact E|]. rewrite S. split; [intros H; split; [discriminate|exact H]|tauto].
  - exists false. split; [reflexivity|]. split; [discriminate|]. intros [_ F]. destruct L. clear -F. induction F; cbn in *; [reflexivity|now f_equal].
Qed.
Theorem C61_equivalence a b c : plain a -> plain b -> plain c ->
  (a <> [] -> isEqual a a = Ok true) /\ (isEqual a b = isEqual b a) /\ (isEqual a b = Ok true -> isEqual b c = Ok true -> isEqual a c = Ok true) /\
  isEqual [] a = Ok false /\ isEqual a [] = Ok false.
Proof.
  intros PA PB PC. repeat split.
  - intros NE. destruct (C61_equal a a PA PA) as (r & -> & S). f_equal. apply S. split; [exact NE|]. unfold same_word. clear. induction a; constructor; [now left|assumption].
  - destruct (C61_equal a b PA PB) as (r & -> & S). destruct (C61_equal b a PB PA) as (r' & -> & S'). f_equal.
    assert (SY : forall u v, same_word u v -> same_word v u) by (intros u v F; induction F; constructor; auto using same_letter_sym).
    apply eq_iff_eq_true. rewrite S, S'. split; intros [NE F]; split; try (now apply SY); intros ->; inversion F; subst; congruence.
  - intros H1 H2. destruct (C61_equal a b PA PB) as (r1 & E1 & S1). destruct (C61_equal b c PB PC) as (r2 & E2 & S2). destruct (C61_equal a c PA PC) as (r3 & E3 & S3).
    rewrite E3. f_equal. apply S3. rewrite E1 in H1. rewrite E2 in H2. injection H1 as ->. injection H2 as ->. destruct (proj1 S1 eq_refl) as [NE F]. destruct (proj1 S2 eq_refl) as [_ G].
    split; [exact NE|]. unfold same_word in *. clear -F G. revert c G. induction F as [|x y a b H F IH]; intros c G; inversion G; subst; constructor; eauto using same_letter_trans.
  - unfold isEqual. cbn. destruct a; reflexivity.
Qed.
Example C61_example : checkIfOn (lit "YeS") = true /\ checkIfOff (lit "DISABLED") = true /\ checkIfOn (lit " on") = false /\ isEqual (lit "Kriging") (lit "kRIGING") = Ok true.
Proof. repeat split. Qed.

(** ** C62: constraint definitions *)
(** the definition [d] splits at the first '>' if there is one and else at the first '<' *)
Inductive split_definition : str -> str -> str -> str -> Prop :=
| sd_greater n v : ~ In ">"%char n -> split_definition (n ++ lit ">" ++ v) n (lit ">") v
| sd_less n v : ~ In ">"%char n -> ~ In ">"%char v -> ~ In "<"%char n -> split_definition (n ++ lit "<" ++ v) n (lit "<") v.
Lemma find_char c d n v : ~ In c n -> d = n ++ [c] ++ v -> find [c] d = Some (length n).
Proof.
  intros N ->. apply (find_first _ _ n v). split; [reflexivity|]. intros a r E. destruct (Nat.le_gt_cases (length n) (length a)) as [|L]; [assumption|].
  exfalso. apply N. clear N. revert n E L. induction a as [|x a IH]; intros [|y n] E L; cbn in *; try lia.
  - injection E as <- _. now left.
  - injection E as _ E. right. apply (IH n E). lia.
Qed.
Lemma find_char_none c d : find [c] d = None <-> ~ In c d.
Proof.
  split.
  - intros E I. apply absent_find in E. apply in_split in I. destruct I as (a & r & ->). exact (E a r eq_refl).
  - intros N. apply find_absent. intros a r ->. apply N. rewrite in_app_iff. right. now left.
Qed.
Lemma despaced_length s t : despaced s t -> length t <= length s.
Proof. induction 1; cbn; lia. Qed.
Lemma setDefinition_split d n c v n' v' (s : condef R) :
  split_definition d n c v -> plain d -> despaced n n' -> despaced v v' ->
  setDefinition d s = match stod v' with
    | Ok x => (mkCondef c n' (cd_id s) x, Ok tt)
    | Throw e => (s, Throw e)
    | UB => (s, UB)
    end.
Proof.
  intros SD P DN DV.
  assert (G : exists x : ascii, c = [x] /\ d = n ++ [x] ++ v /\
     match find (lit ">") d, find (lit "<") d with Some p, _ => Ok p | None, Some p => Ok p | None, None => Throw InvalidArgument end = Ok (length n)).
  { destruct SD as [n v N|n v N1 N2 N3].
    - exists ">"%char. split; [reflexivity|]. split; [reflexivity|]. change (lit ">") with [">"%char]. now rewrite (find_char _ _ n v N eq_refl).
    - exists "<"%char. split; [reflexivity|]. split; [reflexivity|]. change (lit ">") with [">"%char]. rewrite (proj2 (find_char_none _ _)).
      + change (lit "<") with ["<"%char]. now rewrite (find_char _ _ n v N3 eq_refl).
      + rewrite !in_app_iff. intros [H|[[H|[]]|H]]; [contradiction|discriminate|contradiction]. }
  destruct G as (x & -> & -> & PL).
  assert (PN : plain n) by (intros y I; apply P; rewrite in_app_iff; now left).
  assert (PV : plain v) by (intros y I; apply P; rewrite !in_app_iff; now right; right).
  unfold setDefinition. replace (is_empty (n ++ [x] ++ v)) with false by (destruct n; reflexivity).
  unfold sthrow_if. unfold sbind at 1. cbn [sret]. unfold sbind at 1. unfold slift at 1. rewrite PL.
  unfold sbind at 1, slift at 1. rewrite firstn_pre. rewrite (removeSpaces_plain _ _ PN DN).
  cbv zeta. unfold sbind at 1, slift at 1. rewrite skipn_pre. cbn [app firstn length].
  pose proof (despaced_length _ _ DN) as LN.
  assert (LD : length (n ++ x :: v) = length n' + (length n - length n' + 1 + length v)) by (rewrite app_length; cbn [length]; lia).
  rewrite LD. rewrite usub_add by reflexivity. replace (length n - length n' + 1 + length v) with (1 + (length n - length n' + length v)) by lia. rewrite usub_add by reflexivity.
  assert (SV : substr (n ++ x :: v) (length n + 1) (Some (length n - length n' + length v)) = Ok v).
  { unfold substr. rewrite app_length. cbn [length]. destruct (Nat.ltb_spec (length n + S (length v)) (length n + 1)); [lia|].
    change (n ++ x :: v) with (n ++ [x] ++ v). rewrite app_assoc. replace (length n + 1) with (length (n ++ [x])) by (rewrite app_length; reflexivity).
    rewrite skipn_pre. f_equal. apply firstn_all2. lia. }
  rewrite SV. unfold sbind at 1, slift at 1. rewrite (removeSpaces_plain _ _ PV DV). unfold sbind at 1, slift at 1.
  destruct (stod v') as [y|e|]; reflexivity.
Qed.
(** the definition is parsed into the name, the inequality and the value; a definition whose value is not a number, or that has no
    inequality, or is empty, is refused and leaves the object as it was *)
Theorem C62_parsed d n c v n' v' x (s : condef R) :
  split_definition d n c v -> plain d -> despaced n n' -> despaced v v' -> stod v' = Ok x ->
  setDefinition d s = (mkCondef c n' (cd_id s) x, Ok tt).
Proof. intros SD P DN DV E. rewrite (setDefinition_split _ _ _ _ _ _ s SD P DN DV), E. reflexivity. Qed.
Theorem C62_value d n c v n' v' m e (s : condef R) :
  split_definition d n c v -> plain d -> despaced n n' -> despaced v v' -> number_text v' m e ->
  (Rabs (IZR m * powerRZ 10 e) <= ndblmax)%R -> (m = 0%Z \/ ndblmin <= Rabs (IZR m * powerRZ 10 e))%R ->
  setDefinition d s = (mkCondef c n' (cd_id s) (IZR m * powerRZ 10 e)%R, Ok tt).
Proof. intros SD P DN DV NT B1 B2. exact (C62_parsed _ _ _ _ _ _ _ s SD P DN DV (stod_number _ _ _ NT B1 B2)). Qed.
Theorem C62_refused d (s : condef R) :
  (~ In ">"%char d -> ~ In "<"%char d -> setDefinition d s = (s, Throw InvalidArgument)) /\
  (forall n c v n' v' e, split_definition d n c v -> plain d -> despaced n n' -> despaced v v' -> stod (T := R) v' = Throw e -> setDefinition d s = (s, Throw e)).
Proof.
  split.
  - intros N1 N2. unfold setDefinition. destruct d as [|y d]; [reflexivity|]. cbn [is_empty]. unfold sthrow_if. unfold sbind at 1. cbn [sret]. unfold sbind at 1, slift at 1.
    change (lit ">") with [">"%char]. change (lit "<") with ["<"%char]. rewrite !(proj2 (find_char_none _ _)) by assumption. reflexivity.
  - intros n c v n' v' e SD P DN DV E. rewrite (setDefinition_split _ _ _ _ _ _ s SD P DN DV), E. reflexivity.
Qed.
(** every definition with an inequality symbol has exactly one such split *)
Theorem C62_split_exists d : (In ">"%char d \/ In "<"%char d) -> exists n c v, split_definition d n c v.
Proof.
  intros H. pose proof (find_spec [">"%char] d) as S. destruct (find [">"%char] d) as [i|].
  - destruct S as (a & r & _ & -> & M). exists a, (lit ">"), r. apply sd_greater. intros I. apply in_split in I. destruct I as (a1 & a2 & ->).
    specialize (M a1 (a2 ++ [">"%char] ++ r)). rewrite <- app_assoc in M. specialize (M eq_refl). rewrite app_length in M. cbn in M. lia.
  - assert (N : ~ In ">"%char d) by (intros I; apply in_split in I; destruct I as (a & r & ->); exact (S a r eq_refl)).
    destruct H as [H|H]; [contradiction|].
    pose proof (find_spec ["<"%char] d) as S2. destruct (find ["<"%char] d) as [i|].
    + destruct S2 as (a & r & _ & -> & M). exists a, (lit "<"), r. rewrite !in_app_iff in N. apply sd_less; [tauto|tauto|]. intros I. apply in_split in I. destruct I as (a1 & a2 & ->).
      specialize (M a1 (a2 ++ ["<"%char] ++ r)). rewrite <- app_assoc in M. specialize (M eq_refl). rewrite app_length in M. cbn in M. lia.
    + exfalso. apply in_split in H. destruct H as (a & r & ->). exact (S2 a r eq_refl).
Qed.
(** text after the number and blanks inside it are accepted: "c > 1 2x" means 12 *)
Theorem C62_garbage_refuted (s : condef R) : setDefinition (lit "c > 1 2x") s = (mkCondef (lit ">") (lit "c") (cd_id s) 12%R, Ok tt).
Proof.
  apply (C62_parsed _ (lit "c ") _ (lit " 1 2x") _ (lit "12x")).
  - apply (sd_greater (lit "c ")). cbn. intros H; repeat (destruct H as [H|H]; [discriminate|]); destruct H.
  - intros c I. cbn in I. repeat (destruct I as [<-|I]; [cbn; lia|]). destruct I.
  - exact (despaced_filter (lit "c ")).
  - exact (despaced_filter (lit " 1 2x")).
  - unfold stod. change (strtod (lit "12x")) with (Some (12%Z, 0%Z, lit "x")). cbv beta iota zeta.
    assert (V : @nlit R _ 12 0 = 12%R) by (cbn [nlit RNum]; unfold Rlit; cbn; lra). rewrite V. change (@nabs R _ 12%R) with (Rabs 12). rewrite Rabs_pos_eq by lra.
    change (@nltb R _) with Rltb. change (negb (12 =? 0)%Z) with true. cbn [andb].
    assert (M : (12 <= ndblmax)%R).
    { cbn [ndblmax RNum]. apply Rle_trans with (1 * 16)%R; [lra|]. apply Rmult_le_compat; try lra.
      - assert (powerRZ 2 (-52) <= 1)%R; [|lra]. change (-52)%Z with (Z.opp 52). rewrite powerRZ_neg'. rewrite <- Rinv_1. apply Rinv_le_contravar; [lra|].
        change 52%Z with (Z.of_nat 52). rewrite <- pow_powerRZ. apply pow_R1_Rle. lra.
      - change 1023%Z with (4 + 1019)%Z. rewrite powerRZ_add by lra.
        assert (1 <= powerRZ 2 1019)%R. { change 1019%Z with (Z.of_nat 1019). rewrite <- pow_powerRZ. apply pow_R1_Rle. lra. }
        assert (P : (powerRZ 2 4 = 16)%R) by (change (2 ^ 4 = 16)%R; simpl; lra). rewrite P. lra. }
    assert (M' : (ndblmin <= 1)%R).
    { cbn [ndblmin RNum]. change (-1022)%Z with (Z.opp 1022). rewrite powerRZ_neg'. rewrite <- Rinv_1. apply Rinv_le_contravar; [lra|].
      change 1022%Z with (Z.of_nat 1022). rewrite <- pow_powerRZ. apply pow_R1_Rle. lra. }
    destruct (Rltb_spec ndblmax 12); [lra|]. destruct (Rltb_spec 12 ndblmin); [lra|]. reflexivity.
Qed.
(** a definition with both symbols always splits at '>' *)
Example C62_both : split_definition (lit "a < b > 3") (lit "a < b ") (lit ">") (lit " 3").
Proof. apply (sd_greater (lit "a < b ")). cbn. intros H; repeat (destruct H as [H|H]; [discriminate|]); destruct H. Qed.
Print Assumptions C60_int. Print Assumptions C60_zero_missing_refuted. Print Assumptions C61_equivalence. Print Assumptions C62_parsed.
