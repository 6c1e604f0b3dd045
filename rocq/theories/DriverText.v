(** Reading single values, words and lines of a configuration. *)
From Coq Require Import Ascii String ZArith Bool Arith Reals Lra List Lia.
From Verif Require Import ApiModel ApiSpec ApiText Base Num RealNum StM StrModel StrSpec StrProofs StrNum StrReal KeyModel PropsStr PropsKey DriverModel DriverSpec.
Import ListNotations.

(** *** numbers *)
Lemma take_exponent_inv s e r : take_exponent s = (e, r) -> match s with [] => True | c :: _ => is_digit c = false end ->
  exists et, s = et ++ r /\ exponent_text et e /\ not_digit_next r /\ (et = [] -> forall et' e' r', exponent_text et' e' -> et' <> [] -> r <> et' ++ r').
Proof.
  destruct s as [|c t]; cbn [take_exponent].
  - intros [= <- <-] _. exists []. repeat split; try constructor. intros _ et' e' r' _ N E. destruct et'; [congruence|discriminate].
  - destruct (Ascii.eqb c "e" || Ascii.eqb c "E")%bool eqn:EE.
    + assert (HE : c = "e"%char \/ c = "E"%char). { apply orb_true_iff in EE. rewrite !Ascii.eqb_eq in EE. exact EE. }
      pose proof (take_sign_form t) as H4. destruct (take_sign t) as [en t1] eqn:TS. destruct H4 as (sx & Et & GX).
      pose proof (span_split is_digit t1) as H5. destruct (span is_digit t1) as [es r5] eqn:SP. destruct H5 as (E1 & AX & N5).
      destruct es as [|ec es]; cbn [is_empty]; intros [= <- <-] ND.
      * exists []. repeat split; try constructor. exact (digit_next (c :: t) ND). intros _ et' e' r' X N E.
        destruct X as [|E0 ng sg es n' HE0 SG D NE]; [congruence|]. injection E as -> Et'.
        assert (take_sign t = (ng, es ++ r')) as TS'.
        { rewrite Et', <- app_assoc. destruct SG; [reflexivity|reflexivity|]. pose proof (decimal_digits _ _ D) as A. destruct es as [|q es]; [congruence|]. inversion A; subst. cbn [app]. now apply digit_not_sign. }
        rewrite TS in TS'. injection TS' as -> E1'. pose proof (decimal_digits _ _ D) as A. destruct es as [|q es]; [congruence|]. apply Forall_inv in A. cbn beta in A.
        cbn [app] in E1, E1'. rewrite <- E1, E1' in N5. cbn in N5. congruence.
      * exists (c :: sx ++ ec :: es). split; [cbn [app]; rewrite <- app_assoc; cbn [app]; rewrite Et, E1; reflexivity|]. split.
        { rewrite signed_eq. apply (ex_some c en sx (ec :: es)); auto. apply digits_decimal; exact AX. discriminate. }
        split; [now apply digit_next|]. discriminate.
    + intros [= <- <-] ND. exists []. repeat split; try constructor. exact (digit_next (c :: t) ND). intros _ et' e' r' X N E.
      destruct X as [|E0 ng sg es n' HE0 SG D NE]; [congruence|]. injection E as -> _. destruct HE0; subst; discriminate.
Qed.
Lemma take_exponent_reads et e r : exponent_text et e -> not_digit_next r -> (et = [] -> forall et' e' r', exponent_text et' e' -> et' <> [] -> r <> et' ++ r') ->
  take_exponent (et ++ r) = (e, r).
Proof.
  intros X R1 R2. destruct X as [|E ng sg es n HE SG D NE].
  - cbn [app]. destruct (take_exponent r) as [e' r'] eqn:T. destruct (take_exponent_inv _ _ _ T) as (et' & E & X' & _).
    { now apply not_digit_next_ok. }
    destruct et' as [|c et']. { inversion X'; subst. reflexivity. }
    exfalso. apply (R2 eq_refl (c :: et') e' r' X'); [discriminate|exact E].
  - cbn [app take_exponent]. replace (Ascii.eqb E "e" || Ascii.eqb E "E")%bool with true by (destruct HE; subst; reflexivity).
    pose proof (decimal_digits _ _ D) as AD.
    assert (TS : take_sign ((sg ++ es) ++ r) = (ng, es ++ r)).
    { rewrite <- app_assoc. destruct SG; [reflexivity|reflexivity|]. destruct es as [|c es]; [congruence|]. inversion AD; subst. now apply digit_not_sign. }
    rewrite TS. rewrite span_app; [|exact AD|now apply not_digit_next_ok]. destruct es as [|c es]; [congruence|]. cbn [is_empty]. now rewrite signed_eq, (decimal_val _ _ D).
Qed.
Lemma strtod_prefix t m e : (exists r, strtod t = Some (m, e, r)) <-> prefix_number t m e.
Proof.
  split.
  - intros (r & H). revert H. unfold strtod, skip_spaces. pose proof (span_split is_space t) as H0. destruct (span is_space t) as [sp s0]. destruct H0 as (-> & S & _). cbn [snd].
    pose proof (take_sign_form s0) as H1. destruct (take_sign s0) as [neg s1]. destruct H1 as (sg & -> & G).
    pose proof (span_split is_digit s1) as H2. destruct (span is_digit s1) as [ip s2]. destruct H2 as (-> & AD & N2).
    pose proof (digits_decimal ip AD) as D. apply all_space in S.
    assert (P : exists fp s3 ft, (match s2 with c :: t => if Ascii.eqb c "." then span is_digit t else ([], s2) | [] => ([], s2) end) = (fp, s3) /\ s2 = ft ++ s3 /\
      fraction_text ft (length fp) (digits_val fp) /\ decimal fp (digits_val fp) /\ match s3 with [] => True | c :: _ => is_digit c = false end /\ (ft = [] -> hd_error s3 <> Some "."%char)).
    { destruct s2 as [|c t].
      - exists [], [], []. repeat split; try constructor. discriminate.
      - destruct (Ascii.eqb c ".") eqn:EP.
        + apply Ascii.eqb_eq in EP. subst c. pose proof (span_split is_digit t) as H3. destruct (span is_digit t) as [fp s3]. destruct H3 as (-> & AF & N3).
          pose proof (digits_decimal fp AF) as DF. exists fp, s3, (lit "." ++ fp). repeat split; auto. now constructor. discriminate.
        + apply Ascii.eqb_neq in EP. exists [], (c :: t), []. repeat split; try constructor; auto. cbn. congruence. }
    destruct P as (fp & s3 & ft & P & Es2 & F & DF & N3 & NP).
    match goal with |- (let (fp, s3) := ?X in _) = _ -> _ => replace X with (fp, s3) by (symmetry; exact P) end. clear P. subst s2.
    destruct (is_empty (ip ++ fp)) eqn:NE; [discriminate|].
    assert (NZ : ip <> [] \/ length fp <> 0). { destruct ip; [right|left; discriminate]. destruct fp; [discriminate NE|discriminate]. }
    destruct (take_exponent s3) as [x s4] eqn:TE. destruct (take_exponent_inv _ _ _ TE N3) as (et & Es3 & X & R1 & R2).
    rewrite signed_eq, (decimal_val _ _ (decimal_app _ _ _ _ D DF)). intros [= <- <- <-]. rewrite Es3.
    apply (prefix_is sp neg sg ip _ ft _ _ et x s4); auto. intros Hf He. rewrite Es3, He in NP. exact (NP Hf).
  - intros [sp neg sg ip n ft k f et x r S G D F NZ X R1 R2 R3]. exists r.
    pose proof (decimal_digits _ _ D) as AD.
    assert (AF : exists fp, (ft = [] /\ fp = [] /\ k = 0 /\ f = 0%Z) \/ (ft = lit "." ++ fp /\ decimal fp f /\ length fp = k)).
    { destruct F as [|fp f' DF]; [exists []; auto|exists fp; auto]. }
    destruct AF as (fp & AF). assert (DF : decimal fp f /\ length fp = k). { destruct AF as [(-> & -> & -> & ->)|(-> & ? & ?)]; auto. split; [constructor|reflexivity]. }
    destruct DF as (DF & LF). pose proof (decimal_digits _ _ DF) as ADF. pose proof (not_digit_next_ok _ R1) as R1'.
    assert (XE : et = [] \/ exists E u, et = E :: u /\ (E = "e"%char \/ E = "E"%char)). { destruct X; [auto|right; eauto]. }
    assert (ND : match et ++ r with [] => True | c :: _ => is_digit c = false end).
    { destruct XE as [->|(E & u & -> & [->| ->])]; [exact R1'|reflexivity|reflexivity]. }
    assert (T1 : take_sign (skip_spaces (sp ++ sg ++ ip ++ ft ++ et ++ r)) = (neg, ip ++ ft ++ et ++ r)).
    { apply all_space in S. unfold skip_spaces. rewrite span_app; [|exact S|].
      - cbn [snd]. destruct G; [reflexivity|reflexivity|]. cbn [app].
        destruct ip as [|c ip]. + destruct AF as [(-> & -> & -> & ->)|(-> & _)]; [destruct NZ; congruence|reflexivity].
        + inversion AD; subst. cbn [app]. now apply digit_not_sign.
      - destruct G; [reflexivity|reflexivity|]. cbn [app]. destruct ip as [|c ip].
        + destruct AF as [(-> & -> & -> & ->)|(-> & _)]; [destruct NZ; congruence|reflexivity].
        + inversion AD; subst. cbn [app]. now apply digit_not_space. }
    unfold strtod. rewrite T1. rewrite span_app; [|exact AD|].
    2:{ destruct AF as [(-> & _)|(-> & _)]; [exact ND|reflexivity]. }
    assert (NE : is_empty (ip ++ fp) = false). { destruct ip; [|reflexivity]. destruct fp; [|reflexivity]. cbn in LF. destruct NZ; congruence. }
    assert (T2 : match ft ++ et ++ r with c :: t => if Ascii.eqb c "." then span is_digit t else ([], ft ++ et ++ r) | [] => ([], ft ++ et ++ r) end = (fp, et ++ r)).
    { destruct AF as [(-> & -> & -> & ->)|(-> & _)].
      - cbn [app]. destruct XE as [->|(E & u & -> & [->| ->])]; [|reflexivity|reflexivity]. cbn [app]. destruct r as [|c r]; [reflexivity|].
        specialize (R3 eq_refl eq_refl). cbn in R3. replace (Ascii.eqb c ".") with false; [reflexivity|]. symmetry. apply Ascii.eqb_neq. congruence.
      - change (span is_digit (fp ++ et ++ r) = (fp, et ++ r)). apply span_app; [exact ADF|exact ND]. }
    match goal with |- (let (fp, s3) := ?X in _) = _ => replace X with (fp, et ++ r) by (symmetry; exact T2) end. rewrite NE, signed_eq. rewrite (decimal_val _ _ (decimal_app _ _ _ _ D DF)), LF.
    rewrite (take_exponent_reads _ _ _ X R1 R2). reflexivity.
Qed.
Lemma stod_number_of t (x : R) : stod t = Ok x <-> number_of t x.
Proof.
  unfold stod, number_of. split.
  - destruct (strtod t) as [[[m e] r]|] eqn:E; [|discriminate]. cbv zeta.
    change (@nlit R _ m e) with (IZR m * powerRZ 10 e)%R. change (@nabs R _) with Rabs. change (@nltb R _) with Rltb.
    destruct (Rltb_spec ndblmax (Rabs (IZR m * powerRZ 10 e))) as [X|B]; [discriminate|].
    destruct (Z.eqb_spec m 0) as [Z|Z]; cbn [negb andb].
    + intros [= <-]. exists m, e. split; [apply strtod_prefix; eauto|]. split; [reflexivity|]. split; [lra|auto].
    + destruct (Rltb_spec (Rabs (IZR m * powerRZ 10 e)) ndblmin) as [X|B2]; [discriminate|]. intros [= <-]. exists m, e. split; [apply strtod_prefix; eauto|]. split; [reflexivity|]. split; [lra|right; lra].
  - intros (m & e & P & -> & B1 & B2). apply strtod_prefix in P. destruct P as (r & E). rewrite E. cbv beta iota zeta.
    change (@nlit R _ m e) with (IZR m * powerRZ 10 e)%R. change (@nabs R _) with Rabs. change (@nltb R _) with Rltb.
    destruct (Rltb_spec ndblmax (Rabs (IZR m * powerRZ 10 e))) as [X|_]; [lra|].
    destruct (Z.eqb_spec m 0) as [Z|Z]; cbn [negb andb]; [reflexivity|].
    destruct (Rltb_spec (Rabs (IZR m * powerRZ 10 e)) ndblmin) as [X|_]; [destruct B2; [contradiction|lra]|reflexivity].
Qed.

(** *** elements *)
Lemma getString_lookup k s l : ~ In lt k -> looks_up k s l -> getString s k = match l with Missing => Ok [] | Content c => removeSpaces c | _ => Throw InvalidArgument end.
Proof.
  intros N H. destruct (C59_string k s N) as (A & B & C & _). destruct l; auto.
  destruct (existsb negative c) eqn:E.
  - assert (LEN : forall a m : nat, usub (a + (length k + 2 + m)) (a + length k + 2) = Some m).
    { intros a m. replace (a + (length k + 2 + m)) with (a + length k + 2 + m) by lia. now apply usub_add. }
    exact (get_frame_lookup s k ([] : str) (fun e a => usub e (a + length k + 2)) removeSpaces (Content c) N LEN H).
  - apply plain_negative in E. rewrite (C c _ H E (despaced_filter c)). symmetry. apply removeSpaces_plain; auto. apply despaced_filter.
Qed.
Lemma string_iff seg k v : ~ In lt (lit k) -> (getString seg (lit k) = Ok v <-> text_value seg k v).
Proof.
  intros N. unfold text_value. destruct (looks_up_total (lit k) seg) as (l & L). rewrite (getString_lookup _ _ _ N L). split.
  - destruct l; try discriminate. + intros [= <-]. auto. + intros E. apply removeSpaces_inv in E. right. exists c. tauto.
  - intros [(M & ->)|(c & M & P & D)]; rewrite (looks_up_unique _ _ _ _ L M); [reflexivity|]. now apply removeSpaces_plain.
Qed.
Lemma string_plain seg k v : text_value seg k v -> plain v.
Proof.
  intros [(_ & ->)|(c & _ & P & D)]; [intros x []|]. clear -P D. induction D; intros x Hx; [destruct Hx| |].
  - apply IHD; auto. intros y Hy. apply P. now right.
  - destruct Hx as [<-|Hx]; [apply P; now left|]. apply IHD; auto. intros y Hy. apply P. now right.
Qed.
Definition int_seen (o : option Z) : Z := match o with Some z => z | None => -10000000 end.
Lemma int_value_seen seg k o : int_value seg k o -> o = (if Z.eqb (int_seen o) (-10000000) then None else Some (int_seen o)).
Proof. intros [(_ & ->)|(c & z & _ & _ & ->)]; [reflexivity|]. destruct (Z.eqb_spec z (-10000000)); [reflexivity|]. cbn [int_seen]. destruct (Z.eqb_spec z (-10000000)); [congruence|reflexivity]. Qed.
Lemma int_iff seg k z : ~ In lt (lit k) -> (getInt seg (lit k) = Ok z <-> exists o, int_value seg k o /\ z = int_seen o).
Proof.
  intros N. destruct (C59_int (lit k) seg N) as (A & B & C & D). destruct (looks_up_total (lit k) seg) as (l & L). split.
  - intros E. destruct l.
    + exists None. split; [left; auto|]. rewrite (A L) in E. injection E as <-. reflexivity.
    + rewrite B in E by auto. discriminate. + rewrite B in E by auto. discriminate.
    + apply (C _ _ L) in E. destruct E as (sp & neg & sg & ds & n & r & Ec & S & G & DD & NE & ND & Ez & Bz).
      exists (if Z.eqb z (-10000000) then None else Some z). split.
      * right. exists c, z. split; [exact L|]. split; [rewrite Ec, Ez; constructor; auto; now rewrite <- Ez|reflexivity].
      * destruct (Z.eqb_spec z (-10000000)); auto.
  - intros (o & [(M & ->)|(c & y & M & I & ->)] & ->).
    + apply A. exact M.
    + apply (C _ _ M). destruct I as [sp neg sg ds n r S G DD NE ND Bz]. exists sp, neg, sg, ds, n, r. repeat split; auto; destruct (Z.eqb_spec (with_sign neg n) (-10000000)) as [Q|Q]; cbn [int_seen]; lia.
Qed.
Lemma double_iff seg k (x : R) : ~ In lt (lit k) -> (getDouble seg (lit k) = Ok x <-> number_value seg k x).
Proof.
  intros N. rewrite getDouble_frame. unfold number_value. destruct (looks_up_total (lit k) seg) as (l & L).
  rewrite (get_frame_lookup seg (lit k) (nlit 1 (-13) : R) (fun e a => match usub e a with Some n => usub n (length (lit k) + 2) | None => None end)
     (fun v => v <- removeSpaces v ;; any_to_invalid (stod v)) l N (len_ok (lit k)) L).
  assert (EPS : (nlit 1 (-13) : R) = (/ 10 ^ 13)%R). { cbn [nlit RNum]. unfold Rlit. rewrite Rmult_1_l. reflexivity. }
  split.
  - destruct l; try discriminate.
    + intros [= <-]. left. split; [exact L|]. exact EPS.
    + destruct (removeSpaces c) as [t| |] eqn:E; [|discriminate|discriminate]. cbn [bind]. intros H. apply removeSpaces_inv in E. destruct E as (P & D).
      right. exists c, t. repeat split; auto. apply stod_number_of. destruct (stod t); [exact H|discriminate|discriminate].
  - intros [(M & ->)|(c & t & M & P & D & H)]; rewrite (looks_up_unique _ _ _ _ L M); [now rewrite <- EPS|]. rewrite (removeSpaces_plain _ _ P D). cbn [bind].
    apply stod_number_of in H. now rewrite H.
Qed.

(** *** words *)
Lemma same_word_nonempty a b : same_word a b -> b <> [] -> a <> [].
Proof. intros F N ->. inversion F; subst. congruence. Qed.
Lemma lit_plain (w : string) : existsb negative (lit w) = false -> plain (lit w).
Proof. apply plain_negative. Qed.
Lemma isEqual_iff a w b : plain a -> plain w -> w <> [] -> isEqual a w = Ok b -> (b = true <-> same_word a w).
Proof.
  intros PA PW NW E. destruct (C61_equal a w PA PW) as (r & E' & S). rewrite E in E'. injection E' as ->. rewrite S. split; [tauto|]. intros F. split; [|exact F]. now apply (same_word_nonempty a w).
Qed.
Lemma isEqual_total a w : plain a -> plain w -> exists b, isEqual a w = Ok b.
Proof. intros PA PW. destruct (C61_equal a w PA PW) as (r & E & _). eauto. Qed.
Lemma on_iff t : checkIfOn t = true <-> switched_on t.
Proof.
  rewrite C61_on. unfold switched_on, one_of. split.
  - intros (w & I & S). apply in_map_iff in I. destruct I as (x & <- & I). eauto.
  - intros (w & I & S). exists (lit w). split; [now apply in_map|exact S].
Qed.
Lemma same_word_lower a b : same_word a b -> map lower a = map lower b.
Proof. intros F. induction F as [|x y a b H F IH]; [reflexivity|]. cbn [map]. rewrite IH. f_equal. apply lower_same in H. now apply Ascii.eqb_eq. Qed.
Lemma same_word_lit a w : map lower (lit w) = lit w -> (same_word a (lit w) <-> map lower a = lit w).
Proof. intros L. symmetry. now apply lower_word. Qed.

(** *** lines *)
Lemma text_lines_fun s : forall ls, text_lines s ls -> ls = lines_of s.
Proof.
  assert (NN : forall c s, split_on c s <> []). { intros c0 s0. induction s0 as [|a s0 IH]; cbn; [discriminate|]. destruct (Ascii.eqb a c0); [discriminate|]. destruct (split_on c0 s0); discriminate. }
  intros ls H. induction H as [|l N NL|l t ls NL H IH]; unfold lines_of.
  - reflexivity.
  - rewrite split_on_none by exact NL. cbn [last]. destruct l; [congruence|reflexivity].
  - rewrite split_on_app by exact NL. rewrite IH. unfold lines_of. pose proof (NN (ascii_of_nat 10) t) as Q. destruct (split_on (ascii_of_nat 10) t) as [|a q]; [congruence|].
    change (last (l :: a :: q) []) with (last (a :: q) []). destruct (is_empty (last (a :: q) [])); [|reflexivity]. reflexivity.
Qed.
Lemma text_lines_total s : exists ls, text_lines s ls.
Proof.
  induction s as [|c s IH]; [exists []; constructor|]. destruct IH as (ls & H). destruct (ascii_dec c (ascii_of_nat 10)) as [->|N].
  - exists ([] :: ls). apply (tl_more [] s ls); auto.
  - inversion H as [E1 E2|l L1 L2 E1 E2|l t ls' L1 L2 E1 E2]; subst.
    + exists [[c]]. apply tl_last; [discriminate|]. intros [E|[]]. congruence.
    + exists [c :: s]. apply tl_last; [discriminate|]. intros [E|E]; [congruence|auto].
    + exists ((c :: l) :: ls'). apply (tl_more (c :: l) t ls'); auto. intros [E|E]; [congruence|auto].
Qed.
Lemma blank_iff c : blank c = true <-> blank_or_tab c.
Proof.
  unfold blank, blank_or_tab. rewrite orb_true_iff, !Nat.eqb_eq. split; intros [H|H].
  - left. apply code_inj. rewrite H. reflexivity. - right. apply code_inj. rewrite H. reflexivity. - left. now rewrite H. - right. now rewrite H.
Qed.
Lemma blank_all l : Forall blank_or_tab l <-> Forall (fun c => blank c = true) l.
Proof. rewrite !Forall_forall. split; intros H c Hc; apply blank_iff; auto. Qed.
Lemma trimmed_fun l t : trimmed l t -> t = trim_line l.
Proof.
  intros (a & b & -> & A & B & H1 & H2). apply blank_all in A. apply blank_all in B. unfold trim_line.
  assert (E : forall u v, Forall (fun c => blank c = true) u -> (forall c, hd_error v = Some c -> ~ blank_or_tab c) -> span blank (u ++ v) = (u, v)).
  { intros u v U V. apply span_app; [exact U|]. destruct v as [|c v]; [exact I|]. specialize (V c eq_refl). destruct (blank c) eqn:Q; [|reflexivity]. apply blank_iff in Q. contradiction. }
  destruct t as [|c t].
  - cbn [app]. rewrite <- (app_nil_r (a ++ b)). rewrite E; [reflexivity|apply Forall_app; auto|discriminate].
  - rewrite E; [|exact A|]. 2:{ intros d Hd. exact (H1 d Hd). } cbn [snd]. rewrite rev_app_distr. rewrite E; [|apply Forall_rev; exact B|exact H2]. cbn [snd]. now rewrite rev_involutive.
Qed.
Lemma trimmed_total l : exists t, trimmed l t.
Proof.
  exists (trim_line l). unfold trim_line. pose proof (span_split blank l) as H. destruct (span blank l) as [a u]. cbn [snd]. destruct H as (-> & A & N).
  pose proof (span_split blank (rev u)) as H. destruct (span blank (rev u)) as [b v]. cbn [snd]. destruct H as (E & B & M).
  assert (Eu : u = rev v ++ rev b). { rewrite <- rev_app_distr, <- E. symmetry. apply rev_involutive. }
  exists a, (rev b). split; [now rewrite Eu|]. split; [now apply blank_all|]. split; [apply blank_all; now apply Forall_rev|]. split.
  - intros c Hc Q. apply blank_iff in Q. destruct (rev v) as [|x w] eqn:Ev; [discriminate|]. injection Hc as ->. rewrite Eu in N. cbn in N. congruence.
  - rewrite rev_involutive. intros c Hc Q. apply blank_iff in Q. destruct v as [|x w]; [discriminate|]. injection Hc as ->. congruence.
Qed.
Lemma contains_has p s : contains p s = true <-> has p s.
Proof.
  unfold contains, has. split.
  - destruct (find p s) eqn:E; [|discriminate]. intros _ A. rewrite (find_absent _ _ A) in E. discriminate.
  - destruct (find p s) eqn:E; [reflexivity|]. intros H. destruct H. now apply absent_find.
Qed.
Lemma contains_absent p s : contains p s = false <-> absent p s.
Proof. unfold contains. split; [destruct (find p s) eqn:E; [discriminate|]; intros _; now apply absent_find|]. intros A. now rewrite (find_absent _ _ A). Qed.

(** *** constraint blocks *)
Definition step_t (st : bool * str * list str) (l : str) : bool * str * list str :=
  let '(inside, cur, acc) := st in
  let '(inside, cur) := if contains con_open l then (true, []) else (inside, cur) in
  let '(inside, acc) := if contains con_close l then (false, acc ++ [cur]) else (inside, acc) in
  (inside, if inside then cur ++ l ++ newline else cur, acc).
Lemma block_step_t st l : block_step st l = step_t st (trim_line l).
Proof. destruct st as [[i c] a]. reflexivity. Qed.
Lemma fold_steps ls : forall st, fold_left block_step ls st = fold_left step_t (map trim_line ls) st.
Proof. induction ls as [|l ls IH]; intros st; [reflexivity|]. cbn [map fold_left]. rewrite block_step_t. apply IH. Qed.
Lemma step_neither i c a l : neither l -> step_t (i, c, a) l = (i, if i then c ++ l ++ newline else c, a).
Proof. intros (A & B). apply contains_absent in A, B. unfold step_t. now rewrite A, B. Qed.
Lemma step_body body : Forall neither body -> forall c a, fold_left step_t body (true, c, a) = (true, c ++ block_text body, a).
Proof.
  induction 1 as [|l body N F IH]; intros c a; [cbn; now rewrite app_nil_r|]. cbn [fold_left]. rewrite (step_neither _ _ _ _ N), IH. unfold block_text. cbn [flat_map]. rewrite !app_assoc. reflexivity.
Qed.
Lemma con_blocks_fold ts bs : con_blocks ts bs -> forall c a, exists c', fold_left step_t ts (false, c, a) = (false, c', a ++ bs).
Proof.
  induction 1 as [|l ls bs N H IH|o body e ls bs O O' B E E' H IH]; intros c a.
  - exists c. cbn. now rewrite app_nil_r.
  - cbn [fold_left]. rewrite (step_neither _ _ _ _ N). apply IH.
  - cbn [fold_left]. apply contains_has in O, E. apply contains_absent in O', E'. unfold step_t at 2. rewrite O, O'.
    rewrite fold_left_app, (step_body _ B). cbn [fold_left]. unfold step_t at 2. rewrite E, E'.
    change (([] ++ o ++ newline) ++ block_text body) with (block_text (o :: body)).
    destruct (IH (block_text (o :: body)) (a ++ [block_text (o :: body)])) as (c' & E2). exists c'. rewrite <- app_assoc in E2. exact E2.
Qed.
Lemma lines_fold text ls ts : text_lines text ls -> Forall2 trimmed ls ts -> constraintBlocks text = snd (fold_left step_t ts (false, [], [])).
Proof.
  intros L F. apply text_lines_fun in L. unfold constraintBlocks. rewrite <- L, fold_steps. replace (map trim_line ls) with ts; [reflexivity|]. clear L.
  induction F as [|l t ls ts H F IH]; [reflexivity|]. cbn [map]. rewrite <- IH. f_equal. now apply trimmed_fun.
Qed.
Lemma laid_out_blocks text bs : laid_out text bs -> constraintBlocks text = bs.
Proof.
  intros (ls & ts & L & F & B). rewrite (lines_fold _ _ _ L F). destruct (con_blocks_fold _ _ B [] []) as (c & E). exact (f_equal snd E).
Qed.
