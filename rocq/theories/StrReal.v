(** Reading printed numbers back, in real arithmetic; vectors; case-insensitive comparison. *)
From Coq Require Import Ascii String ZArith Bool Arith Reals Lra List Lia.
From Verif Require Import Base Num RealNum StM StrModel StrSpec StrProofs StrNum.
Import ListNotations.

Lemma stod_fixed neg m : (0 <= m)%Z -> (IZR m / 1000000 <= ndblmax)%R -> stod (fixed_text neg m) = Ok (IZR (with_sign neg m) / 1000000)%R.
Proof.
  intros H B. unfold stod. rewrite strtod_fixed by exact H.
  assert (L : @nlit R _ (with_sign neg m) (-6) = (IZR (with_sign neg m) / 1000000)%R).
  { cbn [nlit RNum]. unfold Rlit, Rdiv. f_equal. change (-6)%Z with (Z.opp 6). rewrite powerRZ_neg'. f_equal. change (10 ^ 6 = 1000000)%R. simpl. lra. }
  rewrite L. cbv zeta.
  assert (A : (Rabs (IZR (with_sign neg m) / 1000000) = IZR m / 1000000)%R).
  { unfold Rdiv. rewrite Rabs_mult, (Rabs_pos_eq (/ 1000000)) by lra. f_equal. unfold with_sign.
    assert (0 <= IZR m)%R by (apply IZR_le; exact H). destruct neg; [rewrite opp_IZR, Rabs_Ropp|]; apply Rabs_pos_eq; assumption. }
  change (nabs (IZR (with_sign neg m) / 1000000)%R) with (Rabs (IZR (with_sign neg m) / 1000000)). rewrite A.
  change (@nltb R _) with Rltb. destruct (Rltb_spec ndblmax (IZR m / 1000000)) as [X|_]; [lra|].
  destruct (Z.eqb_spec (with_sign neg m) 0) as [E|E]; cbn [negb andb]; [reflexivity|].
  destruct (Rltb_spec (IZR m / 1000000) ndblmin) as [X|_]; [|reflexivity]. exfalso.
  assert (1 <= IZR m)%R. { apply IZR_le. unfold with_sign in E. destruct neg; lia. }
  assert (D : (ndblmin <= / 1000000)%R).
  { cbn [ndblmin RNum]. change (-1022)%Z with (Z.opp 1022). rewrite powerRZ_neg'. apply Rinv_le_contravar; [lra|].
    change 1022%Z with (20 + 1002)%Z. rewrite powerRZ_add by lra.
    assert (1 <= powerRZ 2 1002)%R. { change 1002%Z with (Z.of_nat 1002). rewrite <- pow_powerRZ. apply pow_R1_Rle. lra. }
    assert (P : (powerRZ 2 20 = 1048576)%R) by (change (2 ^ 20 = 1048576)%R; simpl; lra). rewrite P. lra. }
  lra.
Qed.

(** ** reading a list of items *)
Lemma split_on_app c a b : ~ In c a -> split_on c (a ++ c :: b) = a :: split_on c b.
Proof.
  induction a as [|x a IH]; intros N; cbn [app split_on].
  - now rewrite Ascii.eqb_refl.
  - destruct (Ascii.eqb_spec x c) as [->|NE]; [destruct N; now left|]. rewrite IH by (intros H; apply N; now right). reflexivity.
Qed.
Lemma split_on_none c a : ~ In c a -> split_on c a = [a].
Proof.
  induction a as [|x a IH]; intros N; cbn [split_on]; [reflexivity|].
  destruct (Ascii.eqb_spec x c) as [->|NE]; [destruct N; now left|]. rewrite IH by (intros H; apply N; now right). reflexivity.
Qed.

Section Items.
  Context {T : Type} {NT : Num T}.
  Definition number_of (v : str) : list T := match stod v with Ok x => [x] | _ => [] end.
  Definition item_block (v : str) : str := tab ++ lit "<item>" ++ v ++ lit "</item>" ++ newline.
  Lemma split_items items : (forall v, In v items -> ~ In lt v /\ ~ In gt v) -> forall pre, ~ In lt pre -> item_number (T := T) pre = [] ->
    (forall u, ~ In lt u -> item_number (T := T) (pre ++ tab) = []) ->
    flat_map item_number (split_on "<"%char (pre ++ flat_map item_block items)) = flat_map number_of items.
  Proof.
    induction items as [|v items IH]; intros OK pre N P P'; cbn [flat_map].
    - rewrite app_nil_r. change "<"%char with lt. rewrite split_on_none by exact N. cbn [flat_map]. now rewrite P.
    - destruct (OK v (or_introl eq_refl)) as [V1 V2].
      unfold item_block at 1.
      replace (pre ++ (tab ++ lit "<item>" ++ v ++ lit "</item>" ++ newline) ++ flat_map item_block items)
        with ((pre ++ tab) ++ lt :: (lit "item>" ++ v) ++ lt :: (lit "/item>" ++ newline) ++ flat_map item_block items)
        by (cbn [lit list_ascii_of_string]; rewrite <- !app_assoc; cbn [app]; rewrite <- ?app_assoc; reflexivity).
      change "<"%char with lt. rewrite split_on_app.
      2:{ rewrite in_app_iff. intros [H|[H|[]]]; [contradiction|discriminate]. }
      rewrite split_on_app.
      2:{ rewrite in_app_iff. intros [H|H]; [|contradiction]. cbn in H. repeat (destruct H as [H|H]; [discriminate|]). destruct H. }
      cbn [flat_map]. rewrite (P' [] (fun x => x)). cbn [app].
      assert (IN : item_number (lit "item>" ++ v) = number_of v).
      { unfold item_number. rewrite (find_first (lit ">") (lit "item>" ++ v) (lit "item") v).
        - cbn [length lit list_ascii_of_string Nat.add app skipn]. reflexivity.
        - split; [reflexivity|]. intros a' r' E. cbn in E.
          destruct a' as [|x1 a']; [discriminate|]. destruct a' as [|x2 a']; [discriminate|]. destruct a' as [|x3 a']; [discriminate|]. destruct a' as [|x4 a']; [discriminate|]. cbn. lia. }
      rewrite IN. f_equal.
      apply (IH (fun w H => OK w (or_intror H)) (lit "/item>" ++ newline)).
      + cbn. intros H. repeat (destruct H as [H|H]; [discriminate|]). destruct H.
      + reflexivity.
      + reflexivity.
  Qed.
  (** reading a written vector gives the numbers that the items denote *)
  Lemma getDoubleVector_generated k items s :
    ~ In lt k -> ~ In gt k -> k <> [] -> k <> lit "item" -> (forall v, In v items -> ~ In lt v /\ ~ In gt v) ->
    generateXmlVector k items = Ok s -> getDoubleVector s k = Ok (flat_map number_of items).
  Proof.
    intros N1 N2 NE NI OK G. unfold generateXmlVector in G. destruct items as [|v0 items0] eqn:EI; [discriminate|]. rewrite <- EI in *. clear EI v0 items0.
    match type of G with Ok ?x = Ok ?y => assert (Es : y = x) by congruence end. subst s. clear G. set (body := newline ++ flat_map item_block items).
    assert (W : start_tag k ++ newline ++ flat_map (fun v : str => tab ++ lit "<item>" ++ v ++ lit "</item>" ++ newline) items ++ end_tag k = opening k ++ body ++ closing k).
    { unfold body. rewrite <- !app_assoc. reflexivity. }
    match goal with |- getDoubleVector ?x _ = _ => replace x with (opening k ++ body ++ closing k) by (symmetry; exact W) end. clear W. unfold getDoubleVector.
    replace (is_empty (opening k ++ body ++ closing k)) with false by reflexivity.
    replace (is_empty k) with false by (destruct k; [congruence|reflexivity]). cbv zeta.
    change (start_tag k) with (opening k). change (end_tag k) with (closing k).
    assert (F1 : first_at (opening k) (opening k ++ body ++ closing k) [] (body ++ closing k)) by (split; [reflexivity|intros; cbn; lia]).
    rewrite (find_first _ _ _ _ F1).
    assert (AB : forall (l : list str) pre, ~ In lt pre -> (forall v, In v l -> ~ In lt v /\ ~ In gt v) -> absent (closing k) (pre ++ flat_map item_block l)).
    { induction l as [|v l IHl]; intros pre NP OKl; cbn [flat_map].
      - rewrite app_nil_r. rewrite closing_cons. now apply absent_no_lt.
      - destruct (OKl v (or_introl eq_refl)) as [V1 V2]. rewrite closing_cons in *. apply absent_app_no_lt; [exact NP|].
        unfold item_block at 1. rewrite <- !app_assoc. apply absent_app_no_lt; [intros [H|[]]; discriminate|].
        change (lit "<item>" ++ v ++ lit "</item>" ++ newline ++ flat_map item_block l) with (lt :: (lit "item>" ++ v ++ lit "</item>" ++ newline ++ flat_map item_block l)).
        apply absent_cons_inv; [intros r E; discriminate|].
        apply absent_app_no_lt; [cbn; intros H; repeat (destruct H as [H|H]; [discriminate|]); destruct H|].
        apply absent_app_no_lt; [exact V1|].
        change (lit "</item>" ++ newline ++ flat_map item_block l) with (lt :: (lit "/item>" ++ newline ++ flat_map item_block l)).
        apply absent_cons_inv.
        + intros r E. cbn in E. injection E as E. rewrite <- app_assoc in E. cbn [app] in E.
          apply NI. clear -E N2.
          destruct k as [|c1 k]; [discriminate E|]. cbn in E. injection E as <- E.
          destruct k as [|c1 k]; [discriminate E|]. cbn in E. injection E as <- E.
          destruct k as [|c1 k]; [discriminate E|]. cbn in E. injection E as <- E.
          destruct k as [|c1 k]; [discriminate E|]. cbn in E. injection E as <- E.
          destruct k as [|c1 k]; [reflexivity|]. cbn in E. injection E as <- E. exfalso. apply N2. do 4 right. left. reflexivity.
        + rewrite app_assoc. apply IHl; [cbn; intros H; repeat (destruct H as [H|H]; [discriminate|]); destruct H|]. intros w H. apply OKl. now right. }
    assert (F2 : first_at (closing k) (body ++ closing k) body []).
    { rewrite <- (app_nil_r (closing k)) at 2. rewrite closing_cons. apply first_after; [now apply no_lt_ctag|]. rewrite <- closing_cons.
      unfold body. apply AB; [intros [H|[]]; discriminate|exact OK]. }
    rewrite (find_first _ _ _ _ (first_closing_skip k _ _ _ N1 F2)).
    assert (LO : length (opening k) = length k + 2) by exact (start_len k).
    destruct (Nat.ltb_spec (@length ascii []) (length (opening k ++ body))) as [_|X]; [|rewrite app_length, LO in X; cbn in X; lia].
    change (@length ascii []) with 0. cbn [Nat.add]. unfold usub at 1. cbn [Nat.leb]. rewrite Nat.sub_0_r, app_length.
    rewrite usub_add by reflexivity. rewrite substr_mid by reflexivity. cbn [bind]. f_equal.
    unfold body. apply split_items; [exact OK|intros [H|[]]; discriminate|reflexivity|reflexivity].
  Qed.
End Items.

(** ** case-insensitive comparison *)
Lemma code_inj a b : code a = code b -> a = b.
Proof. intros H. rewrite <- (ascii_nat_embedding a), <- (ascii_nat_embedding b). unfold code in H. now rewrite H. Qed.
Lemma code_lt a : code a < 256.
Proof. apply nat_ascii_bounded. Qed.
Lemma code_lower c : code (lower c) = if (Nat.leb 65 (code c) && Nat.leb (code c) 90)%bool then code c + 32 else code c.
Proof.
  unfold lower. destruct (Nat.leb 65 (code c) && Nat.leb (code c) 90)%bool eqn:E; [|reflexivity].
  apply andb_true_iff in E. destruct E as [E1 E2]. apply Nat.leb_le in E2. unfold code. apply nat_ascii_embedding. unfold code in E2. lia.
Qed.
Lemma lower_same a b : Ascii.eqb (lower a) (lower b) = true <-> same_letter a b.
Proof.
  rewrite Ascii.eqb_eq. split.
  - intros H. assert (C : code (lower a) = code (lower b)) by (now rewrite H). rewrite !code_lower in C.
    destruct (Nat.leb 65 (code a) && Nat.leb (code a) 90)%bool eqn:A; destruct (Nat.leb 65 (code b) && Nat.leb (code b) 90)%bool eqn:B.
    + left. apply code_inj. lia.
    + right. apply andb_true_iff in A. destruct A as [A1 A2]. apply Nat.leb_le in A1, A2. exists (code a - 65). unfold code in *. lia.
    + right. apply andb_true_iff in B. destruct B as [B1 B2]. apply Nat.leb_le in B1, B2. exists (code b - 65). unfold code in *. lia.
    + left. now apply code_inj.
  - intros [->|(i & L & H)]; [reflexivity|]. apply code_inj. rewrite !code_lower. unfold code. destruct H as [[-> ->]|[-> ->]].
    + destruct (Nat.leb_spec 65 (65 + i)); [|lia]. destruct (Nat.leb_spec (65 + i) 90); [|lia].
      destruct (Nat.leb_spec 65 (97 + i)); [|lia]. destruct (Nat.leb_spec (97 + i) 90); [lia|]. cbn [andb]. lia.
    + destruct (Nat.leb_spec 65 (97 + i)); [|lia]. destruct (Nat.leb_spec (97 + i) 90); [lia|].
      destruct (Nat.leb_spec 65 (65 + i)); [|lia]. destruct (Nat.leb_spec (65 + i) 90); [|lia]. cbn [andb]. lia.
Qed.
Lemma equal_nocase_plain a : forall b, plain a -> plain b -> length a = length b -> exists r, equal_nocase a b = Ok r /\ (r = true <-> same_word a b).
Proof.
  induction a as [|x a IH]; intros [|y b] PA PB L; try discriminate L.
  - exists true. split; [reflexivity|]. split; [constructor|reflexivity].
  - cbn [equal_nocase].
    assert (NX : negative x = false) by (unfold negative, code; apply Nat.leb_gt; apply PA; now left).
    assert (NY : negative y = false) by (unfold negative, code; apply Nat.leb_gt; apply PB; now left).
    rewrite NX, NY. cbn [orb]. destruct (Ascii.eqb (lower x) (lower y)) eqn:E.
    + destruct (IH b) as (r & R & S); [intros c H; apply PA; now right|intros c H; apply PB; now right|cbn in L; lia|].
      exists r. split; [exact R|]. rewrite S. apply lower_same in E. split; [intros H; now constructor|intros H; now inversion H].
    + exists false. split; [reflexivity|]. split; [discriminate|]. intros H. inversion H; subst. apply lower_same in H3. congruence.
Qed.
Lemma str_eqb_eq a : forall b, str_eqb a b = true <-> a = b.
Proof.
  induction a as [|x a IH]; intros [|y b]; cbn.
  - split; reflexivity.
  - split; discriminate.
  - split; discriminate.
  - rewrite andb_true_iff, Ascii.eqb_eq, IH. split; [intros [-> ->]; reflexivity|intros [= -> ->]; split; reflexivity].
Qed.
Lemma lower_word w m : map lower w = w -> (map lower m = w <-> same_word m w).
Proof.
  revert m. induction w as [|x w IH]; intros [|y m] H; cbn in *.
  - split; [constructor|reflexivity].
  - split; [discriminate|intros F; inversion F].
  - split; [discriminate|intros F; inversion F].
  - injection H as Hx Hw. split.
    + intros [= E1 E2]. constructor; [|now apply IH]. apply lower_same. apply Ascii.eqb_eq. now rewrite Hx.
    + intros F. inversion F as [|a b c d S1 S2]; subst. apply lower_same, Ascii.eqb_eq in S1. rewrite S1, Hx. f_equal. now apply IH.
Qed.
Lemma same_letter_sym a b : same_letter a b -> same_letter b a.
Proof. intros [->|(i & L & H)]; [now left|right; exists i; tauto]. Qed.
Lemma same_letter_trans a b c : same_letter a b -> same_letter b c -> same_letter a c.
Proof. rewrite <- !lower_same, !Ascii.eqb_eq. congruence. Qed.
