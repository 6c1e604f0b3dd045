(** C59 for vectors of strings *)
From Coq Require Import Ascii String ZArith Bool Arith List Lia.
From Verif Require Import Base StrModel StrSpec StrProofs.
Import ListNotations.

Lemma closing_in_rest k s a rest c r : ~ In lt k -> first_at (opening k) s a rest -> absent (closing k) a -> first_at (closing k) rest c r ->
  first_at (closing k) s (a ++ opening k ++ c) r.
Proof.
  intros N [E M] A F. pose proof (first_closing_skip k rest c r N F) as [E1 M1]. split.
  - rewrite E, E1. now rewrite <- !app_assoc.
  - intros a' r' E'. destruct (Nat.lt_ge_cases (length a') (length a)) as [L|L].
    + exfalso. rewrite E in E'. rewrite opening_cons in E'. rewrite closing_cons in *. cbn [app] in E'.
      destruct (before_lt (slash :: k ++ [gt]) a ((k ++ [gt]) ++ rest) a' r' (no_lt_ctag k N) E' L) as [q H]. exact (A _ _ H).
    + assert (S : opening k ++ rest = skipn (length a) a' ++ closing k ++ r').
      { rewrite E in E'. assert (H : skipn (length a) (a ++ opening k ++ rest) = skipn (length a) (a' ++ closing k ++ r')) by now rewrite E'.
        rewrite skipn_pre in H. rewrite H, skipn_app. replace (length a - length a') with 0 by lia. reflexivity. }
      apply M1 in S. rewrite skipn_length in S. rewrite app_length. lia.
Qed.
Lemma items_blocks : forall fuel pre s cs, blocks (lit "item") s cs -> length cs < fuel -> forall ts acc, Forall2 (fun c t => plain c /\ despaced c t) cs ts ->
  items_loop fuel (pre ++ s) (option_map (Nat.add (length pre)) (find (lit "<item>") s)) acc = Ok (acc ++ ts).
Proof.
  induction fuel as [|fuel IH]; intros pre s cs B L ts acc F; [lia|].
  assert (NI : ~ In lt (lit "item")) by (cbn; intros I; repeat (destruct I as [I|I]; [discriminate|]); destruct I).
  inversion B as [s0 A|s0 a rest F1 A|s0 a rest c r cs0 F1 F2 B2]; subst; cbn [items_loop].
  - change (opening (lit "item")) with (lit "<item>") in A. rewrite (find_absent _ _ A). cbn [option_map]. inversion F; subst. now rewrite app_nil_r.
  - change (opening (lit "item")) with (lit "<item>") in F1. rewrite (find_first _ _ _ _ F1). cbn [option_map]. inversion F; subst.
    destruct F1 as [-> _]. rewrite app_assoc, find_from_pre by now rewrite app_length.
    change (lit "</item>") with (closing (lit "item")). change (lit "<item>") with (opening (lit "item")).
    rewrite (find_absent _ _ (absent_closing_skip _ _ NI A)). cbn [option_map]. now rewrite app_nil_r.
  - inversion F as [|? t ? ts' [P D] F']; subst. pose proof F1 as F1'. change (opening (lit "item")) with (lit "<item>") in F1'. rewrite (find_first _ _ _ _ F1'). cbn [option_map].
    destruct F1 as [-> _]. rewrite app_assoc. rewrite find_from_pre by now rewrite app_length. change (lit "</item>") with (closing (lit "item")).
    rewrite (find_first _ _ _ _ (first_closing_skip _ _ _ _ NI F2)). cbn [option_map].
    rewrite usub_add by reflexivity. rewrite app_length. change (length (opening (lit "item"))) with 6. rewrite usub_add by reflexivity.
    destruct F2 as [-> _].
    replace ((pre ++ a) ++ opening (lit "item") ++ c ++ closing (lit "item") ++ r) with ((pre ++ a ++ opening (lit "item")) ++ c ++ (closing (lit "item") ++ r)) by now rewrite <- !app_assoc.
    rewrite substr_mid; [|rewrite !app_length; change (length (opening (lit "item"))) with 6; lia|reflexivity]. cbn [bind].
    rewrite (removeSpaces_plain _ _ P D). cbn [bind].
    replace ((pre ++ a ++ opening (lit "item")) ++ c ++ closing (lit "item") ++ r) with ((pre ++ a ++ opening (lit "item") ++ c ++ closing (lit "item")) ++ r) by now rewrite <- !app_assoc.
    rewrite find_from_pre by (rewrite !app_length; change (length (opening (lit "item"))) with 6; change (length (closing (lit "item"))) with 7; lia).
    set (q := pre ++ a ++ opening (lit "item") ++ c ++ closing (lit "item")).
    replace (length pre + length a + (6 + length c) + 7) with (length q) by (unfold q; rewrite !app_length; change (length (opening (lit "item"))) with 6; change (length (closing (lit "item"))) with 7; lia).
    rewrite (IH q r cs0 B2) with (ts := ts'); [|cbn in L; lia|exact F']. now rewrite <- app_assoc.
Qed.
Lemma blocks_length k s cs : blocks k s cs -> length cs <= length s.
Proof.
  induction 1 as [| |s a rest c r cs [-> _] [-> _] B IH]; cbn [length]; [lia|lia|]. rewrite !app_length. change (length (opening k)) with (length (start_tag k)). rewrite start_len. lia.
Qed.

(** the items of the first block of a keyword, without white space, in order *)
Theorem C59_string_vector k s a rest c r cs ts :
  k <> [] -> ~ In "<"%char k -> first_at (opening k) s a rest -> absent (closing k) a -> first_at (closing k) rest c r ->
  blocks (lit "item") c cs -> Forall2 (fun x t => plain x /\ despaced x t) cs ts -> getStringVector s k = Ok ts.
Proof.
  intros K N F1 A F2 B F. unfold getStringVector.
  replace (is_empty s) with false. 2:{ destruct F1 as [-> _]. destruct a; reflexivity. }
  replace (is_empty k) with false by (destruct k; [congruence|reflexivity]). cbv zeta. change (start_tag k) with (opening k). change (end_tag k) with (closing k).
  rewrite (find_first _ _ _ _ F1), (find_first _ _ _ _ (closing_in_rest _ _ _ _ _ _ N F1 A F2)).
  assert (LO : length (opening k) = length k + 2) by exact (start_len k). rewrite !app_length.
  destruct (Nat.ltb_spec (length a) (length a + (length (opening k) + length c))); [|lia]. 
  replace (length a + (length (opening k) + length c)) with ((length a + length (opening k)) + length c) by lia. rewrite usub_add by reflexivity.
  destruct F1 as [-> _]. destruct F2 as [-> _]. replace (a ++ opening k ++ c ++ closing k ++ r) with ((a ++ opening k) ++ c ++ (closing k ++ r)) by now rewrite <- !app_assoc.
  rewrite substr_mid; [|now rewrite app_length|reflexivity]. cbn [bind].
  pose proof (items_blocks (S (length c)) [] c cs B) as HH. cbn [app length] in HH. specialize (HH (le_n_S _ _ (blocks_length _ _ _ B)) ts [] F). cbn [app] in HH.
  replace (option_map (Nat.add 0) (find (lit "<item>") c)) with (find (lit "<item>") c) in HH by (destruct (find (lit "<item>") c); reflexivity). exact HH.
Qed.
Theorem C59_string_vector_missing k s : s <> [] -> k <> [] -> absent (opening k) s \/ absent (closing k) s -> getStringVector s k = Ok [].
Proof.
  intros S K A. unfold getStringVector. replace (is_empty s) with false by (destruct s; [congruence|reflexivity]). replace (is_empty k) with false by (destruct k; [congruence|reflexivity]).
  cbv zeta. change (start_tag k) with (opening k). change (end_tag k) with (closing k).
  destruct A as [A|A]; rewrite (find_absent _ _ A); [reflexivity|]. destruct (find (opening k) s); reflexivity.
Qed.
(** a closing tag anywhere before the block hides the whole block: nothing is read, no error *)
Theorem C59_string_vector_hidden_refuted k a c r : k <> [] -> ~ In "<"%char k -> ~ In "<"%char a ->
  getStringVector (a ++ closing k ++ opening k ++ c ++ closing k ++ r) k = Ok [].
Proof.
  intros K N NA. set (s := a ++ closing k ++ opening k ++ c ++ closing k ++ r). unfold getStringVector. replace (is_empty s) with false by (unfold s; destruct a; reflexivity).
  replace (is_empty k) with false by (destruct k; [congruence|reflexivity]). cbv zeta. change (start_tag k) with (opening k). change (end_tag k) with (closing k).
  assert (F : first_at (closing k) s a (opening k ++ c ++ closing k ++ r)).
  { unfold s. rewrite closing_cons. apply first_after; [now apply no_lt_ctag|]. now apply absent_no_lt. }
  rewrite (find_first _ _ _ _ F). pose proof (find_spec (opening k) s) as P. destruct (find (opening k) s) as [n|]; [|reflexivity].
  destruct P as (a' & r' & En & [E' _]).
  destruct (Nat.ltb_spec n (length a)) as [L|L]; [|reflexivity]. exfalso.
  assert (I : In lt a); [|exact (NA I)]. subst n.
  assert (H : nth_error s (length a') = Some lt) by (rewrite E', nth_error_app2, Nat.sub_diag by lia; reflexivity).
  unfold s in H. rewrite nth_error_app1 in H by lia. now apply nth_error_In in H.
Qed.
Example C59_string_vector_example : getStringVector (lit "<d> <names> <item> a b </item><item>c</item> </names>") (lit "names") = Ok [lit "ab"; lit "c"] /\
  exists a rest c r cs, first_at (opening (lit "names")) (lit "<d> <names> <item> a b </item><item>c</item> </names>") a rest /\ absent (closing (lit "names")) a /\
    first_at (closing (lit "names")) rest c r /\ blocks (lit "item") c cs /\ Forall2 (fun x t => plain x /\ despaced x t) cs [lit "ab"; lit "c"].
Proof.
  split; [reflexivity|].
  exists (lit "<d> "), (lit " <item> a b </item><item>c</item> </names>"), (lit " <item> a b </item><item>c</item> "), [], [lit " a b "; lit "c"].
  assert (FF : forall p s a r, s = a ++ p ++ r -> find p s = Some (length a) -> first_at p s a r).
  { intros p s a r E G. pose proof (find_spec p s) as P. rewrite G in P. destruct P as (a' & r' & L & [E' M]). split; [exact E|].
    intros a2 r2 E2. apply M in E2. lia. }
  split; [|split; [|split; [|split]]].
  - apply FF; reflexivity.
  - apply absent_find. reflexivity.
  - apply FF; reflexivity.
  - eapply blocks_more; [apply (FF _ _ (lit " ") (lit " a b </item><item>c</item> ")); reflexivity|apply (FF _ _ (lit " a b ") (lit "<item>c</item> ")); reflexivity|].
    eapply blocks_more; [apply (FF _ _ [] (lit "c</item> ")); reflexivity|apply (FF _ _ (lit "c") (lit " ")); reflexivity|].
    apply blocks_none. apply absent_find. reflexivity.
  - apply Forall2_cons; [|apply Forall2_cons; [|constructor]]; apply removeSpaces_inv; reflexivity.
Qed.
