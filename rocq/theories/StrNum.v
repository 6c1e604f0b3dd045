(** Lemmas about numbers as text. *)
From Coq Require Import Ascii String ZArith Bool Arith List Lia.
From Verif Require Import Base Num StrModel StrSpec StrProofs.
Import ListNotations.

Lemma code_digit d : d < 10 -> code (digit d) = 48 + d.
Proof. intros H. unfold code, digit. apply nat_ascii_embedding. lia. Qed.
Lemma is_digit_iff c : is_digit c = true <-> exists d, d < 10 /\ c = digit d.
Proof.
  unfold is_digit. rewrite andb_true_iff, !Nat.leb_le. split.
  - intros [H1 H2]. exists (code c - 48). split; [lia|]. unfold digit. replace (48 + (code c - 48)) with (code c) by lia.
    symmetry. apply ascii_nat_embedding.
  - intros (d & L & ->). rewrite code_digit by exact L. lia.
Qed.
Lemma digit_val_digit d : d < 10 -> digit_val (digit d) = Z.of_nat d.
Proof. intros H. unfold digit_val. rewrite code_digit by exact H. lia. Qed.
Definition all_digits (s : str) := Forall (fun c => is_digit c = true) s.
Lemma decimal_digits ds n : decimal ds n -> all_digits ds.
Proof.
  induction 1; [constructor|]. apply Forall_app. split; [assumption|]. constructor; [|constructor]. apply is_digit_iff. eauto.
Qed.
Lemma digits_val_snoc s c : digits_val (s ++ [c]) = (10 * digits_val s + digit_val c)%Z.
Proof. unfold digits_val. rewrite fold_left_app. reflexivity. Qed.
Lemma decimal_val ds n : decimal ds n -> digits_val ds = n.
Proof. induction 1; [reflexivity|]. rewrite digits_val_snoc, digit_val_digit by assumption. now rewrite IHdecimal. Qed.
Lemma decimal_nonneg ds n : decimal ds n -> (0 <= n)%Z.
Proof. induction 1; lia. Qed.
Lemma digits_decimal ds : all_digits ds -> decimal ds (digits_val ds).
Proof.
  induction ds as [|c ds IH] using rev_ind; intros H; [constructor|]. apply Forall_app in H. destruct H as [H1 H2].
  inversion H2 as [|x l D _]; subst. apply is_digit_iff in D. destruct D as (d & L & ->).
  rewrite digits_val_snoc, digit_val_digit by exact L. constructor; auto.
Qed.
Lemma decimal_app ds n es m : decimal ds n -> decimal es m -> decimal (ds ++ es) (n * 10 ^ Z.of_nat (length es) + m).
Proof.
  intros D E. induction E as [|es m d E IH L].
  - cbn. rewrite app_nil_r. replace (n * 1 + 0)%Z with n by lia. exact D.
  - rewrite app_assoc. replace (n * 10 ^ Z.of_nat (length (es ++ [digit d])) + (10 * m + Z.of_nat d))%Z
      with (10 * (n * 10 ^ Z.of_nat (length es) + m) + Z.of_nat d)%Z; [now constructor|].
    rewrite app_length, Nat2Z.inj_add, Z.pow_add_r by lia. cbn [length]. change (10 ^ Z.of_nat 1)%Z with 10%Z. ring.
Qed.

Lemma span_app f a b : Forall (fun c => f c = true) a -> match b with [] => True | c :: _ => f c = false end -> span f (a ++ b) = (a, b).
Proof.
  intros H N. induction H as [|c a Hc H IH]; cbn.
  - destruct b as [|c b]; [reflexivity|]. cbn. now rewrite N.
  - rewrite Hc, IH. reflexivity.
Qed.
Lemma span_split f s : let (a, b) := span f s in s = a ++ b /\ Forall (fun c => f c = true) a /\ match b with [] => True | c :: _ => f c = false end.
Proof.
  induction s as [|c s IH]; cbn; [repeat split; constructor|]. destruct (f c) eqn:E.
  - destruct (span f s) as [a b]. destruct IH as (-> & H & N). repeat split; auto.
  - repeat split; auto.
Qed.
Lemma not_digit_next_ok r : not_digit_next r -> match r with [] => True | c :: _ => is_digit c = false end.
Proof.
  destruct r as [|c r]; cbn; [auto|]. intros H. destruct (is_digit c) eqn:E; [|reflexivity].
  apply is_digit_iff in E. destruct E as (d & L & ->). destruct (H d L eq_refl).
Qed.
Lemma digit_not_space c : is_digit c = true -> is_space c = false.
Proof.
  intros H. apply is_digit_iff in H. destruct H as (d & L & ->). unfold is_space. rewrite code_digit by exact L.
  do 10 (destruct d as [|d]; [reflexivity|]). lia.
Qed.
Lemma digit_not_sign c t : is_digit c = true -> take_sign (c :: t) = (false, c :: t).
Proof.
  intros H. apply is_digit_iff in H. destruct H as (d & L & ->). do 10 (destruct d as [|d]; [reflexivity|]). lia.
Qed.
(** white space, a sign and then [t], which starts with a digit or a point *)
Definition starts_number (t : str) : Prop := match t with c :: _ => is_digit c = true \/ c = "."%char | [] => False end.
Lemma skip_sign sp neg sg t : Forall (fun c => In c spaces) sp -> sign_text neg sg -> starts_number t ->
  take_sign (skip_spaces (sp ++ sg ++ t)) = (neg, t).
Proof.
  intros S G N. unfold skip_spaces. rewrite span_app.
  - cbn [snd]. destruct G; cbn [app lit list_ascii_of_string]; [reflexivity|reflexivity|].
    destruct t as [|c t]; [destruct N|]. destruct N as [N| ->]; [now apply digit_not_sign|reflexivity].
  - eapply Forall_impl; [|exact S]. intros c H. now apply space_iff.
  - destruct G; [reflexivity|reflexivity|]. cbn. destruct t as [|c t]; [auto|]. destruct N as [N| ->]; [now apply digit_not_space|reflexivity].
Qed.
Lemma signed_eq neg z : signed neg z = with_sign neg z.
Proof. reflexivity. Qed.

Lemma stoi_reads sp neg sg ds n r :
  Forall (fun c => In c spaces) sp -> sign_text neg sg -> decimal ds n -> ds <> [] -> not_digit_next r ->
  stoi (sp ++ sg ++ ds ++ r) = if ((with_sign neg n <? int_min) || (int_max <? with_sign neg n))%Z then Throw OutOfRange else Ok (with_sign neg n).
Proof.
  intros S G D NE R. pose proof (decimal_digits _ _ D) as AD. unfold stoi. rewrite (skip_sign sp neg sg (ds ++ r)); auto.
  - rewrite span_app by (first [exact AD | exact (not_digit_next_ok _ R)]). destruct ds as [|c ds]; [destruct (NE eq_refl)|]. cbn [is_empty].
    rewrite (decimal_val _ _ D). reflexivity.
  - destruct ds as [|c ds]; [destruct (NE eq_refl)|]. inversion AD; subst. left. assumption.
Qed.
(** whatever stoi accepts has this form *)
Lemma stoi_inv s z : stoi s = Ok z ->
  exists sp neg sg ds n r, s = sp ++ sg ++ ds ++ r /\ Forall (fun c => In c spaces) sp /\ sign_text neg sg /\ decimal ds n /\ ds <> [] /\ not_digit_next r /\
    z = with_sign neg n /\ (int_min <= z <= int_max)%Z.
Proof.
  unfold stoi, skip_spaces. pose proof (span_split is_space s) as S. destruct (span is_space s) as [sp t]. destruct S as (-> & S & _). cbn [snd].
  assert (G : exists sg u neg, take_sign t = (neg, u) /\ t = sg ++ u /\ sign_text neg sg).
  { destruct t as [|c t]; [exists [], [], false; repeat split; constructor|]. unfold take_sign.
    destruct (Ascii.eqb_spec c "-"%char) as [->|]; [exists (lit "-"), t, true; repeat split; constructor|].
    destruct (Ascii.eqb_spec c "+"%char) as [->|]; [exists (lit "+"), t, false; repeat split; constructor|].
    exists [], (c :: t), false. repeat split; constructor. }
  destruct G as (sg & u & neg & -> & -> & G).
  pose proof (span_split is_digit u) as D. destruct (span is_digit u) as [ds r]. destruct D as (-> & D & R).
  destruct (is_empty ds) eqn:E; [discriminate|].
  destruct ((signed neg (digits_val ds) <? int_min) || (int_max <? signed neg (digits_val ds)))%Z eqn:B; [discriminate|]. intros [= <-].
  apply orb_false_iff in B. destruct B as [B1 B2]. apply Z.ltb_ge in B1, B2.
  exists sp, neg, sg, ds, (digits_val ds), r. split; [reflexivity|]. split; [eapply Forall_impl; [|exact S]; intros c H; now apply space_iff|].
  split; [exact G|]. split; [now apply digits_decimal|]. split; [now destruct ds|]. split.
  - destruct r as [|c r]; cbn; [exact I|]. intros d L ->. assert (R' : is_digit (digit d) = false) by exact R. rewrite (proj2 (is_digit_iff (digit d))) in R' by eauto. discriminate.
  - split; [reflexivity|]. lia.
Qed.

(** ** printing *)
Lemma nat_text_decimal f : forall n, (0 <= n < 10 ^ Z.of_nat f)%Z -> f <> 0 -> decimal (nat_text f n) n.
Proof.
  induction f as [|f IH]; intros n H NZ; [congruence|]. cbn [nat_text].
  assert (M : (0 <= n mod 10 < 10)%Z) by (apply Z.mod_pos_bound; lia).
  replace (ascii_of_nat (Z.to_nat (n mod 10) + 48)) with (digit (Z.to_nat (n mod 10))) by (unfold digit; f_equal; lia).
  pose proof (Z.div_mod n 10 ltac:(lia)) as DM.
  destruct (Z.ltb_spec n 10).
  - cbn [app]. replace n with (10 * 0 + Z.of_nat (Z.to_nat (n mod 10)))%Z at 2 by (rewrite Z2Nat.id by lia; rewrite Z.mod_small; lia).
    apply (dec_snoc [] 0); [constructor|lia].
  - replace n with (10 * (n / 10) + Z.of_nat (Z.to_nat (n mod 10)))%Z at 3 by (rewrite Z2Nat.id by lia; lia).
    apply dec_snoc; [|lia]. apply IH.
    + rewrite Nat2Z.inj_succ, Z.pow_succ_r in H by lia. split; [apply Z.div_pos; lia|]. apply Z.div_lt_upper_bound; lia.
    + intros ->. cbn in H. lia.
Qed.
Lemma nat_text_nonempty f n : f <> 0 -> nat_text f n <> [].
Proof. destruct f; [congruence|]. intros _ E. cbn in E. apply app_eq_nil in E. destruct E. discriminate. Qed.
Lemma abs_text z : let t := nat_text (S (Z.to_nat (Z.log2 (Z.abs z)))) (Z.abs z) in decimal t (Z.abs z) /\ t <> [].
Proof.
  cbv zeta. split; [|now apply nat_text_nonempty]. apply nat_text_decimal; [|lia]. split; [lia|].
  rewrite Nat2Z.inj_succ, Z2Nat.id by apply Z.log2_nonneg.
  destruct (Z.eq_dec (Z.abs z) 0) as [->|N]; [reflexivity|].
  destruct (Z.log2_spec (Z.abs z) ltac:(lia)) as [_ L]. eapply Z.lt_le_trans; [exact L|]. apply Z.pow_le_mono_l. split; [lia|lia].
Qed.
Lemma int_text_form z : exists sg ds, int_text z = sg ++ ds /\ sign_text (z <? 0)%Z sg /\ decimal ds (Z.abs z) /\ ds <> [].
Proof.
  destruct (abs_text z) as [D NE]. unfold int_text. destruct (z <? 0)%Z; eexists _, _; (split; [reflexivity|]); split; try (now constructor); auto.
Qed.
Lemma stoi_int_text z : (int_min <= z <= int_max)%Z -> stoi (int_text z) = Ok z.
Proof.
  intros B. destruct (int_text_form z) as (sg & ds & -> & G & D & NE).
  pose proof (stoi_reads [] _ _ _ _ [] (Forall_nil _) G D NE I) as E. cbn [app] in E. rewrite app_nil_r in E.
  assert (W : with_sign (z <? 0)%Z (Z.abs z) = z) by (unfold with_sign; destruct (Z.ltb_spec z 0); lia).
  rewrite W in E. rewrite E. destruct (Z.ltb_spec z int_min); [lia|]. destruct (Z.ltb_spec int_max z); [lia|]. reflexivity.
Qed.
Lemma six_digits_decimal n : (0 <= n < 1000000)%Z -> decimal (six_digits n) n /\ length (six_digits n) = 6.
Proof.
  intros H. split; [|reflexivity]. unfold six_digits. cbn [map].
  set (d := fun k => (n / 10 ^ k mod 10)%Z).
  assert (B : forall k, (0 <= d k < 10)%Z) by (intros k; apply Z.mod_pos_bound; lia).
  assert (W : forall k, ascii_of_nat (Z.to_nat (n / 10 ^ k mod 10) + 48) = digit (Z.to_nat (d k))) by (intros k; unfold digit, d; f_equal; lia).
  rewrite !W. 
  replace n with (10 * (10 * (10 * (10 * (10 * (10 * 0 + d 5) + d 4) + d 3) + d 2) + d 1) + d 0)%Z at 1.
  2:{ unfold d. change (10 ^ 0)%Z with 1%Z. change (10 ^ 1)%Z with 10%Z. change (10 ^ 2)%Z with 100%Z. change (10 ^ 3)%Z with 1000%Z.
      change (10 ^ 4)%Z with 10000%Z. change (10 ^ 5)%Z with 100000%Z. Z.div_mod_to_equations. lia. }
  pose proof (B 0%Z); pose proof (B 1%Z); pose proof (B 2%Z); pose proof (B 3%Z); pose proof (B 4%Z); pose proof (B 5%Z).
  change [digit (Z.to_nat (d 5%Z)); digit (Z.to_nat (d 4%Z)); digit (Z.to_nat (d 3%Z)); digit (Z.to_nat (d 2%Z)); digit (Z.to_nat (d 1%Z)); digit (Z.to_nat (d 0%Z))]
    with ((((((([] ++ [digit (Z.to_nat (d 5%Z))]) ++ [digit (Z.to_nat (d 4%Z))]) ++ [digit (Z.to_nat (d 3%Z))]) ++ [digit (Z.to_nat (d 2%Z))]) ++ [digit (Z.to_nat (d 1%Z))]) ++ [digit (Z.to_nat (d 0%Z))])).
  assert (SN : forall ds m k, decimal ds m -> decimal (ds ++ [digit (Z.to_nat (d k))]) (10 * m + d k)).
  { intros ds m k D. rewrite <- (Z2Nat.id (d k)) at 2 by apply B. apply dec_snoc; [exact D|]. specialize (B k). lia. }
  do 6 apply SN. constructor.
Qed.

(** ** reading floating-point numbers *)
Lemma strtod_point sp neg sg ip n fp m :
  Forall (fun c => In c spaces) sp -> sign_text neg sg -> decimal ip n -> decimal fp m -> ip <> [] ->
  strtod (sp ++ sg ++ ip ++ lit "." ++ fp) = Some (with_sign neg (n * 10 ^ Z.of_nat (length fp) + m), (0 - Z.of_nat (length fp))%Z, []).
Proof.
  intros S G D E NE. pose proof (decimal_digits _ _ D) as AD. pose proof (decimal_digits _ _ E) as AE.
  unfold strtod. rewrite (skip_sign sp neg sg); auto.
  2:{ destruct ip as [|c ip]; [destruct (NE eq_refl)|]. inversion AD; subst. left. assumption. }
  rewrite (span_app is_digit ip) by (auto; reflexivity). cbn [lit list_ascii_of_string app Ascii.eqb Bool.eqb].
  pose proof (span_app is_digit fp [] AE I) as SF. rewrite app_nil_r in SF. rewrite SF.
  destruct ip as [|c ip]; [destruct (NE eq_refl)|]. cbn [is_empty app take_exponent].
  change (c :: ip ++ fp) with ((c :: ip) ++ fp). rewrite (decimal_val _ _ (decimal_app _ _ _ _ D E)). reflexivity.
Qed.
Lemma fixed_form neg m : (0 <= m)%Z -> exists sg ip fp, fixed_text neg m = sg ++ ip ++ lit "." ++ fp /\ sign_text neg sg /\
   decimal ip (m / 1000000) /\ ip <> [] /\ decimal fp (m mod 1000000) /\ length fp = 6.
Proof.
  intros H. assert (P : (0 <= m / 1000000)%Z) by (apply Z.div_pos; lia).
  destruct (int_text_form (m / 1000000)) as (sg0 & ip & E & G & D & NE).
  destruct (Z.ltb_spec (m / 1000000) 0) as [|_]; [lia|].
  assert (sg0 = []). { unfold int_text in E. destruct (Z.ltb_spec (m / 1000000) 0) as [|_]; [lia|]. cbn [app] in E.
    inversion G; subst; [|reflexivity]. destruct (abs_text (m / 1000000)) as [D' _]. cbv zeta in D'. rewrite E in D'. apply decimal_digits in D'. inversion D'; subst. discriminate. }
  subst sg0. cbn [app] in E. rewrite Z.abs_eq in D by exact P.
  destruct (six_digits_decimal (m mod 1000000)) as [D6 L6]; [apply Z.mod_pos_bound; lia|].
  unfold fixed_text. rewrite E. destruct neg; eexists _, ip, _; (split; [reflexivity|]); repeat split; auto; constructor.
Qed.
Lemma strtod_fixed neg m : (0 <= m)%Z -> strtod (fixed_text neg m) = Some (with_sign neg m, (-6)%Z, []).
Proof.
  intros H. destruct (fixed_form neg m H) as (sg & ip & fp & -> & G & D & NE & E & L).
  pose proof (strtod_point [] neg sg ip _ fp _ (Forall_nil _) G D E NE) as P. cbn [app] in P. rewrite P, L. repeat f_equal.
  change (10 ^ Z.of_nat 6)%Z with 1000000%Z. rewrite (Z.div_mod m 1000000) at 3 by lia. ring.
Qed.
(** the characters of a printed number *)
Lemma fixed_chars neg m c : (0 <= m)%Z -> In c (fixed_text neg m) -> is_digit c = true \/ c = "."%char \/ c = "-"%char.
Proof.
  intros H I. destruct (fixed_form neg m H) as (sg & ip & fp & E & G & D & NE & D' & L). unfold fixed_text in *.
  apply decimal_digits in D, D'. unfold all_digits in *. rewrite Forall_forall in D, D'.
  assert (K : fixed_text neg m = (if neg then lit "-" else []) ++ int_text (m / 1000000) ++ lit "." ++ six_digits (m mod 1000000)) by reflexivity.
  apply in_app_or in I. destruct I as [I|I].
  - destruct neg; [destruct I as [<-|[]]; auto|destruct I].
  - apply in_app_or in I. destruct I as [I|I].
    + unfold int_text in I. destruct (Z.ltb_spec (m / 1000000) 0) as [X|_]; [assert (0 <= m / 1000000)%Z by (apply Z.div_pos; lia); lia|].
      cbn [app] in I. destruct (abs_text (m / 1000000)) as [DD _]. apply decimal_digits in DD. unfold all_digits in DD. rewrite Forall_forall in DD. auto.
    + apply in_app_or in I. destruct I as [[<-|[]]|I]; [auto|].
      destruct (six_digits_decimal (m mod 1000000)) as [D6 _]; [apply Z.mod_pos_bound; lia|]. apply decimal_digits in D6. unfold all_digits in D6. rewrite Forall_forall in D6. auto.
Qed.
Lemma int_chars z c : In c (int_text z) -> is_digit c = true \/ c = "-"%char.
Proof.
  intros I. destruct (int_text_form z) as (sg & ds & E & G & D & NE). rewrite E in I. apply in_app_or in I. destruct I as [I|I].
  - destruct G eqn:GG; cbn in I; try tauto; try (destruct I as [<-|[]]; auto).
    exfalso. unfold int_text in E. destruct (z <? 0)%Z eqn:Z0; [discriminate|]. cbn [app] in E.
    destruct (abs_text z) as [DD _]. cbv zeta in DD. rewrite E in DD. apply decimal_digits in DD. inversion DD; subst. discriminate.
  - left. apply decimal_digits in D. unfold all_digits in D. rewrite Forall_forall in D. auto.
Qed.

Lemma ends_digit r : ends_number r -> match r with [] => True | c :: _ => is_digit c = false end.
Proof.
  destruct r as [|c r]; [auto|]. intros (H & _). destruct (is_digit c) eqn:E; [|reflexivity]. apply is_digit_iff in E. destruct E as (d & L & ->). destruct (H d L eq_refl).
Qed.
Lemma take_exponent_ok et e r : exponent_text et e -> ends_number r -> take_exponent (et ++ r) = (e, r).
Proof.
  intros X R. destruct X as [|E neg sg es n HE G D NE].
  - cbn [app]. destruct r as [|c r]; [reflexivity|]. destruct R as (_ & _ & R1 & R2). cbn.
    destruct (Ascii.eqb_spec c "e"%char); [contradiction|]. destruct (Ascii.eqb_spec c "E"%char); [contradiction|]. reflexivity.
  - assert (H : take_sign ((sg ++ es) ++ r) = (neg, es ++ r)).
    { pose proof (skip_sign [] neg sg (es ++ r) (Forall_nil _) G) as S. cbn [app] in S. rewrite <- app_assoc.
      pose proof (decimal_digits _ _ D) as AD. destruct es as [|c es]; [destruct (NE eq_refl)|]. inversion AD; subst.
      destruct G; cbn [app lit list_ascii_of_string]; [reflexivity|reflexivity|]. now apply digit_not_sign. }
    cbn [app take_exponent]. replace (Ascii.eqb E "e"%char || Ascii.eqb E "E"%char)%bool with true by (destruct HE as [-> | ->]; reflexivity).
    rewrite H. rewrite span_app by (first [exact (decimal_digits _ _ D) | exact (ends_digit _ R)]).
    destruct es as [|c es]; [destruct (NE eq_refl)|]. cbn [is_empty]. rewrite (decimal_val _ _ D). reflexivity.
Qed.
Lemma strtod_reads t m e : number_text t m e -> exists r, strtod t = Some (m, e, r).
Proof.
  intros [sp neg sg ip n ft k f et x r S G D NE F X R]. exists r. pose proof (decimal_digits _ _ D) as AD.
  unfold strtod. rewrite (skip_sign sp neg sg); auto.
  2:{ destruct ip as [|c ip]; [destruct (NE eq_refl)|]. inversion AD; subst. left. assumption. }
  assert (NX : match et ++ r with [] => True | c :: _ => is_digit c = false /\ c <> "."%char end).
  { destruct X as [|E ng sgx es nx HE _ _ _]; cbn [app].
    - pose proof (ends_digit _ R). destruct r as [|c r]; [auto|]. destruct R as (_ & R & _). auto.
    - destruct HE as [-> | ->]; split; try reflexivity; discriminate. }
  destruct F as [|fp m0 E].
  - cbn [app]. rewrite (span_app is_digit ip (et ++ r)); [|exact AD|destruct (et ++ r) as [|c u]; [auto|exact (proj1 NX)]].
    assert (Y : match et ++ r with c :: t => if Ascii.eqb c "."%char then span is_digit t else ([], et ++ r) | [] => ([], et ++ r) end = ([], et ++ r)).
    { destruct (et ++ r) as [|c u]; [reflexivity|]. destruct (Ascii.eqb_spec c "."%char); [destruct NX; contradiction|reflexivity]. }
    match goal with |- context [match et ++ r with [] => ?A | c :: t => @?B c t end] => replace (match et ++ r with [] => A | c :: t => B c t end) with (@nil ascii, et ++ r) by (symmetry; exact Y) end. rewrite app_nil_r. destruct ip as [|c ip]; [destruct (NE eq_refl)|]. cbn [is_empty]. rewrite (take_exponent_ok _ _ _ X R).
    rewrite (decimal_val _ _ D). cbn [length]. change (10 ^ Z.of_nat 0)%Z with 1%Z. repeat f_equal; unfold signed, with_sign; destruct neg; lia.
  - rewrite <- !app_assoc. rewrite (span_app is_digit ip) by (auto; reflexivity). cbn [lit list_ascii_of_string app Ascii.eqb Bool.eqb].
    rewrite (span_app is_digit fp); [|exact (decimal_digits _ _ E)|destruct (et ++ r) as [|c u]; [auto|exact (proj1 NX)]].
    destruct ip as [|c ip]; [destruct (NE eq_refl)|]. cbn [is_empty app]. rewrite (take_exponent_ok _ _ _ X R).
    change (c :: ip ++ fp) with ((c :: ip) ++ fp). rewrite (decimal_val _ _ (decimal_app _ _ _ _ D E)). reflexivity.
Qed.
