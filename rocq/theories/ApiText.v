(** The expression of a constraint: cppAPI.cpp:164-197. *)
From Coq Require Import Ascii String ZArith Bool Arith List Lia.
From Verif Require Import Base Num StrModel StrSpec StrProofs StrNum ApiModel ApiSpec.
Import ListNotations.

Lemma all_space s : Forall (fun c => In c spaces) s <-> Forall (fun c => is_space c = true) s.
Proof. rewrite !Forall_forall. split; intros H c Hc; apply space_iff; auto. Qed.
Lemma no_space s : Forall (fun c => ~ In c spaces) s <-> Forall (fun c => negb (is_space c) = true) s.
Proof.
  rewrite !Forall_forall. split; intros H c Hc; specialize (H c Hc).
  - destruct (is_space c) eqn:E; [|reflexivity]. apply space_iff in E. tauto.
  - intros I. apply space_iff in I. rewrite I in H. discriminate.
Qed.
Lemma trim_char_space c : trim_char c = true -> is_space c = true.
Proof.
  unfold trim_char, is_space. rewrite !orb_true_iff, !Nat.eqb_eq, andb_true_iff, !Nat.leb_le. intros [[[->| ->]| ->]| ->]; auto; right; split; repeat constructor.
Qed.
Lemma first_not_spec f s : match first_not f s with
  | None => Forall (fun c => f c = true) s
  | Some a => exists p c t, s = p ++ c :: t /\ length p = a /\ Forall (fun c => f c = true) p /\ f c = false end.
Proof.
  induction s as [|c s IH]; cbn; [constructor|]. destruct (f c) eqn:E.
  - destruct (first_not f s) as [a|]; cbn.
    + destruct IH as (p & d & t & -> & <- & H & D). exists (c :: p), d, t. auto.
    + constructor; auto.
  - exists [], c, s. auto.
Qed.
Lemma last_not_spec f s : match last_not f s with
  | None => Forall (fun c => f c = true) s
  | Some e => exists p c t, s = p ++ c :: t /\ length p = e /\ Forall (fun c => f c = true) t /\ f c = false end.
Proof.
  unfold last_not. pose proof (first_not_spec f (rev s)) as H. destruct (first_not f (rev s)) as [k|].
  - destruct H as (p & c & t & E & L & F & D). exists (rev t), c, (rev p).
    assert (s = rev t ++ c :: rev p) as S. { rewrite <- (rev_involutive s), E, rev_app_distr. cbn. now rewrite <- app_assoc. }
    split; [exact S|]. split. { rewrite S, app_length. cbn. rewrite !rev_length. lia. } split; [|exact D]. apply Forall_rev. exact F.
  - rewrite <- (rev_involutive s). apply Forall_rev. exact H.
Qed.
Lemma trim_form s : exists pre t post, trim_text s = Ok t /\ s = pre ++ t ++ post /\ Forall (fun c => is_space c = true) pre /\ Forall (fun c => is_space c = true) post.
Proof.
  assert (W : forall l, Forall (fun c => trim_char c = true) l -> Forall (fun c => is_space c = true) l).
  { intros l H. eapply Forall_impl; [|exact H]. cbn. apply trim_char_space. }
  unfold trim_text. pose proof (first_not_spec trim_char s) as H1. pose proof (last_not_spec trim_char s) as H2.
  destruct (first_not trim_char s) as [a|], (last_not trim_char s) as [e|].
  2:{ exists [], [], s. cbn. split; auto. } 2:{ exists s, [], []. rewrite !app_nil_r. split; auto. } 2:{ exists s, [], []. rewrite !app_nil_r. split; auto. }
  destruct H1 as (p & c & t & E1 & L1 & F1 & D1). destruct H2 as (q & c' & t' & E2 & L2 & F2 & D2).
  unfold substr. replace (Nat.ltb (length s) a) with false. 2:{ symmetry. apply Nat.ltb_ge. rewrite E1, app_length. lia. }
  assert (skipn a s = c :: t) as K. { rewrite E1, <- L1. apply skipn_app_len || (rewrite skipn_app, skipn_all, Nat.sub_diag; reflexivity). }
  rewrite K. exists p, (firstn (e + 1) (c :: t)), (skipn (e + 1) (c :: t)). rewrite firstn_skipn. split; [reflexivity|]. split; [exact E1|]. split; [apply W; exact F1|].
  apply W. rewrite <- K, skipn_skipn', E2 || idtac.
  rewrite Forall_forall in *. intros x Hx. apply F2.
  assert (I : In x (skipn (e + 1) s)).
  { rewrite E1, skipn_app. apply in_or_app. destruct (Nat.le_gt_cases (e + 1) (length p)).
    - right. replace (e + 1 - length p) with 0 by lia. cbn [skipn]. rewrite <- (firstn_skipn (e + 1) (c :: t)). apply in_or_app. auto.
    - right. assert (forall n m (l : str), m <= n -> In x (skipn n l) -> In x (skipn m l)) as Mono.
      { clear. intros n. induction n as [|n IH]; intros [|m] l Hm Hi; auto; try lia. - destruct l as [|y l]; [exact Hi|]. cbn in Hi. right. apply (IH 0 l); auto. lia. - destruct l as [|y l]; auto. cbn in Hi |- *. apply (IH m l); auto. lia. }
      eapply Mono; [|exact Hx]. lia. }
  rewrite E2, <- L2, skipn_app, skipn_all2 in I by lia. replace (length q + 1 - length q) with 1 in I by lia. exact I.
Qed.

(** *** words *)
Definition word_end (r : str) : Prop := match r with [] => True | c :: _ => is_space c = true end.
Lemma stream_word_form sp w r : Forall (fun c => is_space c = true) sp -> w <> [] -> Forall (fun c => negb (is_space c) = true) w -> word_end r ->
  stream_word (sp ++ w ++ r) = Some (w, r).
Proof.
  intros S N W R. unfold stream_word, skip_spaces. rewrite span_app; [|exact S|].
  2:{ destruct w as [|c w]; [congruence|]. cbn. inversion W; subst. now destruct (is_space c). }
  cbn [snd]. rewrite span_app; [|exact W|]. 2:{ destruct r as [|c r]; [auto|]. cbn in R. cbn. now rewrite R. }
  destruct w; [congruence|reflexivity].
Qed.
Lemma stream_word_inv s w r : stream_word s = Some (w, r) ->
  exists sp, s = sp ++ w ++ r /\ Forall (fun c => is_space c = true) sp /\ w <> [] /\ Forall (fun c => negb (is_space c) = true) w /\ word_end r.
Proof.
  unfold stream_word, skip_spaces. pose proof (span_split is_space s) as H. destruct (span is_space s) as [sp t]. cbn [snd]. destruct H as (E & S & _).
  pose proof (span_split (fun c => negb (is_space c)) t) as H. destruct (span (fun c => negb (is_space c)) t) as [w' r']. destruct H as (E' & W & R).
  destruct w' as [|c w']; [discriminate|]. cbn [is_empty]. intros X. injection X as <- <-. exists sp. subst. repeat split; auto; [discriminate|].
  destruct r' as [|d r']; cbn in *; auto. now destruct (is_space d).
Qed.
Lemma stream_word_none s : stream_word s = None -> Forall (fun c => is_space c = true) s.
Proof.
  unfold stream_word, skip_spaces. pose proof (span_split is_space s) as H. destruct (span is_space s) as [sp t]. cbn [snd]. destruct H as (E & S & N).
  destruct t as [|c t]; [intros _; rewrite E, app_nil_r; exact S|]. cbn in N. cbn [span]. rewrite N. cbn [negb].
  destruct (span (fun c => negb (is_space c)) t). discriminate.
Qed.
Lemma stream_word_spaces s : Forall (fun c => is_space c = true) s -> stream_word s = None.
Proof. intros H. unfold stream_word, skip_spaces. rewrite <- (app_nil_r s), span_app by auto. reflexivity. Qed.
Lemma stream_word_pad pre t post : Forall (fun c => is_space c = true) pre -> Forall (fun c => is_space c = true) post ->
  stream_word (pre ++ t ++ post) = option_map (fun p : str * str => (fst p, snd p ++ post)) (stream_word t).
Proof.
  intros P Q. destruct (stream_word t) as [[w r]|] eqn:E.
  - apply stream_word_inv in E. destruct E as (sp & -> & S & N & W & R). cbn [option_map fst snd].
    replace (pre ++ (sp ++ w ++ r) ++ post) with ((pre ++ sp) ++ w ++ r ++ post) by (now rewrite !app_assoc).
    apply stream_word_form; auto. apply Forall_app; auto. destruct r as [|c r]; [|exact R]. destruct post as [|c post]; [exact I|]. inversion Q; auto.
  - apply stream_word_none in E. apply stream_word_spaces. apply Forall_app. split; auto. apply Forall_app. auto.
Qed.

(** *** numbers *)
Lemma span_pad f t post : Forall (fun c => f c = false) post -> span f (t ++ post) = (fst (span f t), snd (span f t) ++ post).
Proof.
  intros H. induction t as [|c t IH]; cbn [app span].
  - destruct post as [|c post]; [reflexivity|]. inversion H as [|x l Hc]; subst. cbn. now rewrite Hc.
  - destruct (f c); [|reflexivity]. rewrite IH. now destruct (span f t).
Qed.
Lemma space_false c : is_space c = true -> is_digit c = false /\ Ascii.eqb c "."%char = false /\ Ascii.eqb c "e"%char = false /\ Ascii.eqb c "E"%char = false /\
  Ascii.eqb c "-"%char = false /\ Ascii.eqb c "+"%char = false.
Proof.
  intros H. apply space_iff in H. cbn in H. decompose [or] H; subst; try contradiction; repeat split.
Qed.
Definition stops (r : str) := match r with [] => True | c :: _ => is_space c = true end.
Lemma take_sign_pad t post : Forall (fun c => is_space c = true) post -> take_sign (t ++ post) = (fst (take_sign t), snd (take_sign t) ++ post).
Proof.
  intros H. destruct t as [|c t]; cbn [app].
  - destruct post as [|c post]; [reflexivity|]. inversion H as [|x l Hc]; subst. apply space_false in Hc. unfold take_sign. destruct Hc as (_ & _ & _ & _ & -> & ->). reflexivity.
  - unfold take_sign. destruct (Ascii.eqb c "-"); [reflexivity|]. destruct (Ascii.eqb c "+"); reflexivity.
Qed.
Lemma skip_spaces_pad t post : Forall (fun c => is_space c = true) post ->
  skip_spaces (t ++ post) = skip_spaces t ++ post \/ (skip_spaces t = [] /\ skip_spaces (t ++ post) = []).
Proof.
  intros H. unfold skip_spaces. induction t as [|c t IH]; cbn [app span].
  - right. split; [reflexivity|]. pose proof (span_app is_space post [] H I) as E. rewrite app_nil_r in E. now rewrite E.
  - destruct (is_space c); [|left; reflexivity]. destruct (span is_space t), (span is_space (t ++ post)). cbn [snd] in *. exact IH.
Qed.
Lemma stream_number_pad t post : Forall (fun c => is_space c = true) post -> stream_number (t ++ post) = stream_number t.
Proof.
  intros H. assert (Forall (fun c => is_digit c = false) post) as HD. { eapply Forall_impl; [|exact H]. intros c Hc. now apply space_false in Hc. }
  unfold stream_number. destruct (skip_spaces_pad t post H) as [-> | [-> ->]]; [|reflexivity].
  rewrite take_sign_pad by exact H. destruct (take_sign (skip_spaces t)) as [neg s1]. cbn [fst snd].
  rewrite span_pad by exact HD. destruct (span is_digit s1) as [ip s2]. cbn [fst snd].
  assert (P : (match s2 ++ post with c :: u => if Ascii.eqb c "." then span is_digit u else ([], s2 ++ post) | [] => ([], s2 ++ post) end) =
    let q := match s2 with c :: u => if Ascii.eqb c "." then span is_digit u else ([], s2) | [] => ([], s2) end in (fst q, snd q ++ post)).
  { destruct s2 as [|c u]; cbn [app].
    - destruct post as [|c post]; [reflexivity|]. inversion H as [|x l Hc]; subst. apply space_false in Hc. destruct Hc as (_ & -> & _). reflexivity.
    - destruct (Ascii.eqb c "."); [|reflexivity]. rewrite span_pad by exact HD. reflexivity. }
  match goal with |- (let (fp, s3) := ?X in _) = (let (fp', s3') := ?Y in _) => replace X with (fst Y, snd Y ++ post) by (symmetry; exact P); destruct Y as [fp s3] end.
  clear P. cbn [fst snd].
  destruct (is_empty (ip ++ fp)); [reflexivity|]. destruct s3 as [|c u]; cbn [app].
  - destruct post as [|c post]; [reflexivity|]. inversion H as [|x l Hc]; subst. apply space_false in Hc. destruct Hc as (_ & _ & -> & -> & _). reflexivity.
  - destruct (Ascii.eqb c "e" || Ascii.eqb c "E")%bool; [|reflexivity]. rewrite take_sign_pad by exact H. destruct (take_sign u) as [en t1]. cbn [fst snd].
    rewrite span_pad by exact HD. destruct (span is_digit t1). reflexivity.
Qed.

Lemma not_e c t : Some c <> Some "e"%char -> Some c <> Some "E"%char -> (Ascii.eqb c "e" || Ascii.eqb c "E")%bool = false /\ t = t :> str.
Proof.
  intros A B. split; [|reflexivity]. apply orb_false_iff. split; apply Ascii.eqb_neq; congruence.
Qed.
Lemma leading_number_reads s m e : leading_number s m e -> stream_number s = Some (m, e).
Proof.
  intros [sp neg sg ip n ft k f et x r S G D F NZ X R1 R2 R3].
  pose proof (decimal_digits _ _ D) as AD. apply not_digit_next_ok in R1.
  assert (AF : exists fp, (ft = [] /\ fp = [] /\ k = 0 /\ f = 0%Z) \/ (ft = lit "." ++ fp /\ decimal fp f /\ length fp = k)).
  { destruct F as [|fp f' DF]; [exists []; auto|exists fp; auto]. }
  destruct AF as (fp & AF). assert (DF : decimal fp f /\ length fp = k). { destruct AF as [(-> & -> & -> & ->)|(-> & ? & ?)]; auto. split; [constructor|reflexivity]. }
  destruct DF as (DF & LF). pose proof (decimal_digits _ _ DF) as ADF.
  (* the exponent never starts with a digit or a point *)
  assert (XE : et = [] \/ exists E sx es y ng, et = E :: sx ++ es /\ (E = "e"%char \/ E = "E"%char) /\ sign_text ng sx /\ decimal es y /\ es <> [] /\ x = with_sign ng y).
  { destruct X; [auto|right]. eauto 12. }
  assert (T1 : take_sign (skip_spaces (sp ++ sg ++ ip ++ ft ++ et ++ r)) = (neg, ip ++ ft ++ et ++ r)).
  { apply all_space in S. unfold skip_spaces. rewrite span_app; [|exact S|].
    - cbn [snd]. destruct G; [reflexivity|reflexivity|]. cbn [app].
      destruct ip as [|c ip]. + destruct AF as [(-> & -> & -> & ->)|(-> & _)]; [destruct NZ; congruence|reflexivity].
      + inversion AD; subst. cbn [app]. now apply digit_not_sign.
    - destruct G; [reflexivity|reflexivity|]. cbn [app]. destruct ip as [|c ip].
      + destruct AF as [(-> & -> & -> & ->)|(-> & _)]; [destruct NZ; congruence|reflexivity].
      + inversion AD; subst. cbn [app]. now apply digit_not_space. }
  unfold stream_number. rewrite T1. rewrite span_app; [|exact AD|].
  2:{ destruct AF as [(-> & _)|(-> & _)]; [|reflexivity]. cbn [app]. destruct XE as [->|(E & sx & es & y & ng & -> & [->| ->] & _)]; [exact R1|reflexivity|reflexivity]. }
  assert (NE : is_empty (ip ++ fp) = false). { destruct ip; [|reflexivity]. destruct fp; [|reflexivity]. cbn in LF. destruct NZ; congruence. }
  assert (T2 : match ft ++ et ++ r with c :: t => if Ascii.eqb c "." then span is_digit t else ([], ft ++ et ++ r) | [] => ([], ft ++ et ++ r) end = (fp, et ++ r)).
  { destruct AF as [(-> & -> & -> & ->)|(-> & _)].
    - cbn [app]. destruct XE as [->|(E & sx & es & y & ng & -> & [->| ->] & _)]; [|reflexivity|reflexivity]. cbn [app]. destruct r as [|c r]; [reflexivity|].
      specialize (R3 eq_refl eq_refl). cbn in R3. replace (Ascii.eqb c ".") with false; [reflexivity|]. symmetry. apply Ascii.eqb_neq. congruence.
    - change (span is_digit (fp ++ et ++ r) = (fp, et ++ r)). apply span_app; [exact ADF|].
      destruct XE as [->|(E & sx & es & y & ng & -> & [->| ->] & _)]; [exact R1|reflexivity|reflexivity]. }
  match goal with |- (let (fp, s3) := ?X in _) = _ => replace X with (fp, et ++ r) by (symmetry; exact T2) end. rewrite NE, signed_eq. rewrite (decimal_val _ _ (decimal_app _ _ _ _ D DF)), LF.
  destruct XE as [->|(E & sx & es & y & ng & -> & HE & GX & DX & NX & ->)].
  - inversion X; subst. cbn [app]. destruct r as [|c r]; [reflexivity|]. destruct (R2 eq_refl) as [Q1 Q2]. cbn in Q1, Q2. destruct (not_e c r Q1 Q2) as [-> _]. reflexivity.
  - cbn [app]. replace (Ascii.eqb E "e" || Ascii.eqb E "E")%bool with true by (destruct HE; subst; reflexivity).
    pose proof (decimal_digits _ _ DX) as ADX.
    assert (TS : take_sign ((sx ++ es) ++ r) = (ng, es ++ r)).
    { rewrite <- app_assoc. destruct GX; [reflexivity|reflexivity|]. destruct es as [|c es]; [congruence|]. inversion ADX; subst. now apply digit_not_sign. }
    match goal with |- (let (en, t1) := ?X in _) = _ => replace X with (ng, es ++ r) by (symmetry; exact TS) end.
    rewrite span_app; [|exact ADX|exact R1]. destruct es as [|c es]; [congruence|]. cbn [is_empty]. rewrite (decimal_val _ _ DX). reflexivity.
Qed.
Lemma leading_is' s m e sp neg sg ip n ft k f et x r :
    Forall (fun c => In c spaces) sp -> sign_text neg sg -> decimal ip n -> fraction_text ft k f -> (ip <> [] \/ k <> 0) -> exponent_text et x ->
    not_digit_next r -> (et = [] -> hd_error r <> Some "e"%char /\ hd_error r <> Some "E"%char) -> (ft = [] -> et = [] -> hd_error r <> Some "."%char) ->
    s = sp ++ sg ++ ip ++ ft ++ et ++ r -> m = with_sign neg (n * 10 ^ Z.of_nat k + f) -> e = (x - Z.of_nat k)%Z -> leading_number s m e.
Proof. intros. subst. now constructor. Qed.
Lemma take_sign_form s : let (neg, t) := take_sign s in exists sg, s = sg ++ t /\ sign_text neg sg.
Proof.
  destruct s as [|c t]; [exists []; split; [reflexivity|constructor]|]. unfold take_sign.
  destruct (Ascii.eqb c "-") eqn:E1. { apply Ascii.eqb_eq in E1. subst. exists (lit "-"). split; [reflexivity|constructor]. }
  destruct (Ascii.eqb c "+") eqn:E2. { apply Ascii.eqb_eq in E2. subst. exists (lit "+"). split; [reflexivity|constructor]. }
  exists []. split; [reflexivity|constructor].
Qed.
Lemma digit_next r : match r with [] => True | c :: _ => is_digit c = false end -> not_digit_next r.
Proof. destruct r as [|c r]; [intros _; exact I|]. intros H d L E. subst c. assert (is_digit (digit d) = true) by (apply is_digit_iff; eauto). congruence. Qed.
Lemma stream_number_inv s m e : stream_number s = Some (m, e) -> leading_number s m e.
Proof.
  unfold stream_number, skip_spaces. pose proof (span_split is_space s) as H0. destruct (span is_space s) as [sp s0]. destruct H0 as (-> & S & _). cbn [snd].
  pose proof (take_sign_form s0) as H1. destruct (take_sign s0) as [neg s1]. destruct H1 as (sg & -> & G).
  pose proof (span_split is_digit s1) as H2. destruct (span is_digit s1) as [ip s2]. destruct H2 as (-> & AD & N2).
  pose proof (digits_decimal ip AD) as D. apply all_space in S.
  assert (P : exists fp s3 ft, (match s2 with c :: t => if Ascii.eqb c "." then span is_digit t else ([], s2) | [] => ([], s2) end) = (fp, s3) /\ s2 = ft ++ s3 /\
    fraction_text ft (length fp) (digits_val fp) /\ decimal fp (digits_val fp) /\ match s3 with [] => True | c :: _ => is_digit c = false end /\ (ft = [] -> hd_error s3 <> Some "."%char)).
  { destruct s2 as [|c t].
    - exists [], [], []. repeat split; try constructor. discriminate.
    - destruct (Ascii.eqb c ".") eqn:EP.
      + apply Ascii.eqb_eq in EP. subst c. pose proof (span_split is_digit t) as H3. destruct (span is_digit t) as [fp s3]. destruct H3 as (-> & AF & N3).
        pose proof (digits_decimal fp AF) as DF. exists fp, s3, (lit "." ++ fp). repeat split; auto. now constructor. discriminate.
      + apply Ascii.eqb_neq in EP. exists [], (c :: t), []. repeat split; try constructor; auto. cbn. congruence. }
  destruct P as (fp & s3 & ft & P & Es2 & F & DF & N3 & NP).
  match goal with |- (let (fp, s3) := ?X in _) = _ -> _ => replace X with (fp, s3) by (symmetry; exact P) end. clear P. subst s2.
  destruct (is_empty (ip ++ fp)) eqn:NE; [discriminate|].
  assert (NZ : ip <> [] \/ length fp <> 0). { destruct ip; [right|left; discriminate]. destruct fp; [discriminate NE|discriminate]. }
  rewrite signed_eq, (decimal_val _ _ (decimal_app _ _ _ _ D DF)).
  destruct s3 as [|c t].
  - intros X. injection X as <- <-. eapply (leading_is' _ _ _ sp neg sg ip _ ft _ _ [] 0%Z []); eauto; try constructor; cbn; try discriminate; try (intros; discriminate).
  - destruct (Ascii.eqb c "e" || Ascii.eqb c "E")%bool eqn:EE.
    + assert (HE : c = "e"%char \/ c = "E"%char). { apply orb_true_iff in EE. rewrite !Ascii.eqb_eq in EE. exact EE. }
      pose proof (take_sign_form t) as H4. destruct (take_sign t) as [en t1]. destruct H4 as (sx & -> & GX).
      pose proof (span_split is_digit t1) as H5. destruct (span is_digit t1) as [es r]. destruct H5 as (-> & AX & N5).
      destruct es as [|ec es]; [discriminate|]. cbn [is_empty]. intros X. injection X as <- <-.
      eapply (leading_is' _ _ _ sp neg sg ip _ ft _ _ (c :: sx ++ ec :: es) _ r); eauto.
      * eapply (ex_some c en sx (ec :: es)); eauto. apply digits_decimal; exact AX. discriminate.
      * now apply digit_next. * discriminate. * discriminate. * cbn [app]. now rewrite <- app_assoc.
    + apply orb_false_iff in EE. rewrite !Ascii.eqb_neq in EE. intros X. injection X as <- <-.
      eapply (leading_is' _ _ _ sp neg sg ip _ ft _ _ [] 0%Z (c :: t)); eauto; try constructor; cbn; try (intros; congruence); try (now apply digit_next).
      exact (digit_next (c :: t) N3). destruct EE; congruence. destruct EE; congruence.
Qed.

Lemma leading_nonempty m e : ~ leading_number [] m e.
Proof. intros H. apply leading_number_reads in H. discriminate H. Qed.

(** *** expressions *)
Section Expr.
  Context {T : Type} {NT : Num T}.
  Definition parse_core (s : str) : Res (pexpr T) :=
    match stream_word s with
    | None => Throw InvalidArgument
    | Some (name, r1) =>
        match stream_word r1 with
        | None => Throw InvalidArgument
        | Some (ineq, r2) =>
            if negb (str_eqb ineq (lit "<") || str_eqb ineq (lit ">"))%bool then Throw InvalidArgument
            else match stream_number r2 with
                 | None => Throw InvalidArgument
                 | Some (m, e) => if (ndblmax <! nabs (nlit m e))%bool then Throw InvalidArgument
                                  else Ok (mkE name (str_eqb ineq (lit ">")) (nlit m e))
                 end
        end
    end.
  (** trimming changes nothing *)
  Lemma parse_trim s : parseExpression s = parse_core s.
  Proof.
    unfold parseExpression. destruct (trim_form s) as (pre & t & post & -> & -> & P & Q). cbn [bind].
    unfold parse_core. rewrite stream_word_pad by auto. destruct (stream_word t) as [[name r1]|]; [|reflexivity]. cbn [option_map fst snd].
    pose proof (stream_word_pad [] r1 post (Forall_nil _) Q) as E. cbn [app] in E. rewrite E. destruct (stream_word r1) as [[ineq r2]|]; [|reflexivity]. cbn [option_map fst snd].
    now rewrite stream_number_pad.
  Qed.
  Lemma parse_outcome s : (exists p, parseExpression s = Ok p) \/ parseExpression s = Throw InvalidArgument.
  Proof.
    rewrite parse_trim. unfold parse_core. destruct (stream_word s) as [[name r1]|]; auto. destruct (stream_word r1) as [[ineq r2]|]; auto.
    destruct (negb _); auto. destruct (stream_number r2) as [[m e]|]; auto. destruct (ndblmax <! nabs (nlit m e))%bool; eauto.
  Qed.
  Lemma parse_accepts s name gt m e : expression_text s name gt m e -> parseExpression s = if (ndblmax <! nabs (nlit m e))%bool then Throw InvalidArgument else Ok (mkE name gt (nlit m e)).
  Proof.
    intros [sp0 nm sp1 g rest m' e' S0 NN W S1 N1 (b & HB & HR) L]. rewrite parse_trim. unfold parse_core.
    apply all_space in S0, S1. apply no_space in W.
    rewrite stream_word_form; auto. 2:{ destruct sp1 as [|c sp1]; [congruence|]. inversion S1; auto. }
    assert (stream_word (sp1 ++ [if g then ">"%char else "<"%char] ++ rest) = Some ([if g then ">"%char else "<"%char], rest)) as ->.
    { apply stream_word_form; auto. discriminate. constructor; [destruct g; reflexivity|constructor]. destruct rest; [discriminate|]. cbn in HR. injection HR as ->. apply space_iff. exact HB. }
    rewrite (leading_number_reads _ _ _ L). destruct g; reflexivity.
  Qed.
  Lemma parse_inv s p : parseExpression s = Ok p -> exists m e, expression_text s (e_name p) (e_gt p) m e /\ e_value p = nlit m e /\ (ndblmax <! nabs (nlit m e))%bool = false.
  Proof.
    rewrite parse_trim. unfold parse_core. destruct (stream_word s) as [[name r1]|] eqn:E1; [|discriminate].
    destruct (stream_word r1) as [[ineq r2]|] eqn:E2; [|discriminate].
    destruct (negb _) eqn:EI; [discriminate|]. destruct (stream_number r2) as [[m e]|] eqn:EN; [|discriminate]. destruct (ndblmax <! nabs (nlit m e))%bool eqn:EM; [discriminate|].
    intros X. injection X as <-. exists m, e. cbn [e_name e_gt e_value]. split; [|auto].
    apply stream_word_inv in E1. destruct E1 as (sp0 & -> & S0 & NN & W & R1). apply stream_word_inv in E2. destruct E2 as (sp1 & -> & S1 & N2 & W2 & R2).
    apply negb_false_iff, orb_true_iff in EI.
    assert (exists g : bool, ineq = [if g then ">"%char else "<"%char] /\ str_eqb ineq (lit ">") = g) as (g & -> & EG).
    { assert (Q : forall a b, str_eqb a b = true -> a = b). { induction a as [|x a IH]; intros [|y b]; cbn; try discriminate; auto. rewrite andb_true_iff, Ascii.eqb_eq. intros [-> H]. f_equal. auto. }
      destruct EI as [H|H]; apply Q in H; subst; [exists false|exists true]; split; reflexivity. }
    apply all_space in S0, S1. apply no_space in W.
    match goal with |- expression_text _ _ ?b _ _ => replace b with g by (symmetry; exact EG) end.
    apply (expression_is sp0 name sp1 g r2 m e); auto.
    - intros ->. cbn [app] in R1. destruct g; discriminate R1.
    - apply stream_number_inv in EN. destruct r2 as [|c r2]; [|exists c; split; [apply space_iff; exact R2|reflexivity]].
      destruct (leading_nonempty _ _ EN).
    - now apply stream_number_inv.
  Qed.
End Expr.
