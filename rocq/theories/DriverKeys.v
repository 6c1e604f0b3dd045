(** Reading the keywords of a section. *)
From Coq Require Import Ascii String ZArith Bool Arith Reals Lra List Lia.
From Verif Require Import Base Num RealNum StM StrModel StrSpec StrProofs StrNum StrReal KeyModel PropsStr DriverModel DriverSpec DriverText.
Import ListNotations.

(** *** the monad *)
Section M.
  Context {S A B : Type}.
  Implicit Types (s : S).
  Lemma sb_iff (m : SM S A) (k : A -> SM S B) s s' b : sbind m k s = (s', Ok b) <-> exists s1 a, m s = (s1, Ok a) /\ k a s1 = (s', Ok b).
  Proof.
    unfold sbind. split.
    - destruct (m s) as [s1 [a|e|]]; try discriminate. eauto.
    - intros (s1 & a & E & K). now rewrite E.
  Qed.
  Lemma lift_b (r : Res A) (k : A -> SM S B) s s' b : sbind (slift r) k s = (s', Ok b) <-> exists a, r = Ok a /\ k a s = (s', Ok b).
  Proof. unfold sbind, slift. split; [destruct r; try discriminate; eauto|]. intros (a & -> & E). exact E. Qed.
  Lemma tif_b c e (k : unit -> SM S B) s s' b : sbind (sthrow_if c e) k s = (s', Ok b) <-> c = false /\ k tt s = (s', Ok b).
  Proof. unfold sbind, sthrow_if. destruct c; split; try discriminate; try tauto. intros [X _]. discriminate. Qed.
  Lemma get_b (f : S -> A) (k : A -> SM S B) s : sbind (sget f) k s = k (f s) s.
  Proof. reflexivity. Qed.
  Lemma mod_b (f : S -> S) (k : unit -> SM S B) s : sbind (smod f) k s = k tt (f s).
  Proof. reflexivity. Qed.
  Lemma mod_iff (f : S -> S) s s' u : smod f s = (s', Ok u) <-> s' = f s.
  Proof. unfold smod. destruct u. split; [now intros [= <-]|now intros ->]. Qed.
  Lemma lift_iff (r : Res A) s s' a : slift r s = (s', Ok a) <-> s' = s /\ r = Ok a.
  Proof. unfold slift. split; [intros [= <- ->]; auto|now intros [-> ->]]. Qed.
  Lemma tif_iff c e s s' u : sthrow_if c e s = (s', Ok u) <-> c = false /\ s' = s.
  Proof. unfold sthrow_if, sthrow, sret. destruct u, c; split; try discriminate; try (intros [X _]; discriminate). now intros [= <-]. now intros [_ ->]. Qed.
  Lemma when_b c (m : SM S unit) (k : unit -> SM S B) s s' b : sbind (swhen c m) k s = (s', Ok b) <-> if c then sbind m k s = (s', Ok b) else k tt s = (s', Ok b).
  Proof. destruct c; reflexivity. Qed.
End M.
Lemma bind_iff {A B} (r : Res A) (k : A -> Res B) b : bind r k = Ok b <-> exists a, r = Ok a /\ k a = Ok b.
Proof. destruct r; cbn; split; try discriminate; eauto; intros (a' & [=] & E); subst; auto. Qed.

(** *** keyword lists *)
Section K.
  Context (input : str).
  Definition kread (p : string * ktype) : keyword R := fst (kw_read input (new_key (lit (fst p)) (snd p))).
  Definition kres (p : string * ktype) : Res unit := snd (kw_read input (new_key (T := R) (lit (fst p)) (snd p))).
  Lemma read_keys_iff sp l : read_keys input (new_keys sp) = (l, Ok tt) <-> l = map kread sp /\ Forall (fun p => kres p = Ok tt) sp.
  Proof.
    revert l. induction sp as [|p sp IH]; intros l; cbn [new_keys map read_keys].
    - split; [intros [= <-]; auto|now intros [-> _]].
    - fold (new_keys (T := R) sp). unfold kread at 1, kres. destruct (kw_read input (new_key (lit (fst p)) (snd p))) as [k [u|e|]] eqn:E; cbn [fst snd].
      + destruct u. destruct (read_keys input (new_keys sp)) as [t' r] eqn:Q. split.
        * intros [= <- ->]. destruct (proj1 (IH t') eq_refl) as [-> F]. split; [reflexivity|]. constructor; [now rewrite E|exact F].
        * intros [-> F]. inversion F as [|x y X Y]; subst. assert (Z := proj2 (IH (map kread sp)) (conj eq_refl Y)). injection Z as -> ->. reflexivity.
      + split; [discriminate|]. intros [_ F]. inversion F as [|x y X Y]; subst. rewrite E in X. discriminate.
      + split; [discriminate|]. intros [_ F]. inversion F as [|x y X Y]; subst. rewrite E in X. discriminate.
  Qed.
  Lemma kread_fixed p : kw_name (kread p) = lit (fst p) /\ kw_type (kread p) = snd p.
  Proof.
    unfold kread, kw_read, new_key, sbind, sget, sthrow_if, slift, smod, sthrow, sret. cbn [kw_name kw_type]. destruct (is_empty (lit (fst p))); [auto|].
    cbn [kw_unset kw_name kw_type]. destruct (snd p); cbn [fst kw_name kw_type]; auto.
    - destruct (getString _ _) as [v|e|]; cbn [fst kw_name kw_type]; auto. unfold kw_putString. destruct (is_empty v); auto.
    - destruct (getInt _ _) as [v|e|]; cbn [fst kw_name kw_type]; auto. unfold kw_putInt. destruct (Z.eqb _ _); auto.
    - destruct (getDouble _ _) as [v|e|]; cbn [fst kw_name kw_type]; auto. unfold kw_putDouble. destruct (nltb _ _); auto.
    - destruct (getDoubleVector _ _) as [v|e|]; cbn [fst kw_name kw_type]; auto. unfold kw_putDoubles. destruct (is_empty v); auto.
    - destruct (getStringVector _ _) as [v|e|]; cbn [fst kw_name kw_type]; auto. unfold kw_putStrings. destruct (is_empty v); auto.
  Qed.
  Lemma key_find_read sp n : key_find (map kread sp) n = option_map kread (List.find (fun p => str_eqb (lit (fst p)) n) sp).
  Proof.
    unfold key_find. induction sp as [|p sp IH]; [reflexivity|]. cbn [map List.find]. destruct (kread_fixed p) as [-> _]. destruct (str_eqb (lit (fst p)) n); [reflexivity|exact IH].
  Qed.
  Lemma read_string k : lit k <> [] -> match getString input (lit k) with
    | Ok v => kres (k, KString) = Ok tt /\ kw_getString (kread (k, KString)) = Ok v
    | _ => kres (k, KString) <> Ok tt end.
  Proof.
    intros N. unfold kread, kres, kw_read, new_key, sbind, sget, sthrow_if, slift, smod, sthrow, sret. cbn [kw_name kw_type fst snd].
    destruct (lit k) as [|c w] eqn:L; [congruence|]. cbn [is_empty kw_unset kw_name kw_type]. destruct (getString input (c :: w)) as [v|e|]; cbn [fst snd]; [|discriminate|discriminate].
    split; [reflexivity|]. unfold kw_putString. destruct v; reflexivity.
  Qed.
  Lemma read_int k : lit k <> [] -> match getInt input (lit k) with
    | Ok v => kres (k, KInt) = Ok tt /\ kw_getInt (kread (k, KInt)) = Ok v
    | _ => kres (k, KInt) <> Ok tt end.
  Proof.
    intros N. unfold kread, kres, kw_read, new_key, sbind, sget, sthrow_if, slift, smod, sthrow, sret. cbn [kw_name kw_type fst snd].
    destruct (lit k) as [|c w] eqn:L; [congruence|]. cbn [is_empty kw_unset kw_name kw_type]. destruct (getInt input (c :: w)) as [v|e|]; cbn [fst snd]; [|discriminate|discriminate].
    split; [reflexivity|]. unfold kw_putInt. destruct (Z.eqb_spec v (-10000000)); [subst; reflexivity|reflexivity].
  Qed.
  Lemma kres_string k : lit k <> [] -> ~ In lt (lit k) -> (kres (k, KString) = Ok tt <-> exists v, text_value input k v).
  Proof.
    intros N L. pose proof (read_string k N) as H. destruct (getString input (lit k)) as [v|e|] eqn:E.
    - split; [intros _; exists v; now apply string_iff|tauto].
    - split; [tauto|]. intros (v & V). apply (string_iff _ _ _ L) in V. congruence.
    - split; [tauto|]. intros (v & V). apply (string_iff _ _ _ L) in V. congruence.
  Qed.
  Lemma kres_int k : lit k <> [] -> ~ In lt (lit k) -> (kres (k, KInt) = Ok tt <-> exists o, int_value input k o).
  Proof.
    intros N L. pose proof (read_int k N) as H. destruct (getInt input (lit k)) as [v|e|] eqn:E.
    - split; [intros _|tauto]. apply (int_iff _ _ _ L) in E. destruct E as (o & V & _). eauto.
    - split; [tauto|]. intros (o & V). assert (X : getInt input (lit k) = Ok (int_seen o)) by (apply int_iff; eauto). congruence.
    - split; [tauto|]. intros (o & V). assert (X : getInt input (lit k) = Ok (int_seen o)) by (apply int_iff; eauto). congruence.
  Qed.
  Lemma vector_total k : input <> [] -> ~ In lt k -> k <> [] -> isOk (getDoubleVector (T := R) input k) = true.
  Proof.
    intros I N K. unfold getDoubleVector. assert (is_empty input = false) as -> by (destruct input; [congruence|reflexivity]). assert (is_empty k = false) as -> by (destruct k; [congruence|reflexivity]).
    destruct (find (start_tag k) input) as [a|] eqn:F1; [|reflexivity]. destruct (find (end_tag k) input) as [e|] eqn:F2; [|reflexivity].
    destruct (Nat.ltb a e); [|reflexivity].
    pose proof (find_spec (start_tag k) input) as H. rewrite F1 in H.
    unfold substr. assert (Q : Nat.ltb (length input) (a + length (start_tag k)) = false).
    { apply Nat.ltb_ge. destruct (first_or_absent (start_tag k) input) as [(x & r & X)|A].
      - rewrite (find_first _ _ _ _ X) in F1. injection F1 as <-. destruct X as (-> & _). rewrite !app_length. lia.
      - rewrite (find_absent _ _ A) in F1. discriminate. }
    rewrite Q. reflexivity.
  Qed.
  Lemma kres_vector k : lit k <> [] -> ~ In lt (lit k) -> input <> [] -> kres (k, KDoubleVector) = Ok tt.
  Proof.
    intros N L I. pose proof (vector_total (lit k) I L N) as V. unfold kres, kw_read, new_key, sbind, sget, sthrow_if, slift, smod, sthrow, sret. cbn [kw_name kw_type fst snd].
    destruct (lit k) as [|c w] eqn:El; [congruence|]. cbn [is_empty kw_unset kw_name kw_type]. destruct (getDoubleVector input (c :: w)); [reflexivity|discriminate|discriminate].
  Qed.
End K.
(** a key of a list, after a successful reading *)
Lemma key_string_iff input sp k v : Forall (fun p => kres input p = Ok tt) sp -> List.find (fun p => str_eqb (lit (fst p)) (lit k)) sp = Some (k, KString) ->
  lit k <> [] -> ~ In lt (lit k) -> (key_string (map (kread input) sp) k = Ok v <-> text_value input k v).
Proof.
  intros F E N L. unfold key_string. assert (is_empty (map (kread input) sp) = false) as -> by (destruct sp; [discriminate E|reflexivity]).
  rewrite key_find_read, E. cbn [option_map]. rewrite Forall_forall in F. assert (I : In (k, KString) sp) by (now apply List.find_some in E).
  pose proof (read_string input k N) as H. pose proof (F _ I) as K. rewrite <- (string_iff input k v L). destruct (getString input (lit k)) as [w|e|]; [|contradiction|contradiction].
  destruct H as [_ ->]. reflexivity.
Qed.
Lemma key_int_iff input sp k z : Forall (fun p => kres input p = Ok tt) sp -> List.find (fun p => str_eqb (lit (fst p)) (lit k)) sp = Some (k, KInt) ->
  lit k <> [] -> ~ In lt (lit k) -> (key_int (map (kread input) sp) k = Ok z <-> exists o, int_value input k o /\ z = int_seen o).
Proof.
  intros F E N L. unfold key_int. assert (is_empty (map (kread input) sp) = false) as -> by (destruct sp; [discriminate E|reflexivity]).
  rewrite key_find_read, E. cbn [option_map]. rewrite Forall_forall in F. assert (I : In (k, KInt) sp) by (now apply List.find_some in E).
  pose proof (read_int input k N) as H. pose proof (F _ I) as K. rewrite <- (int_iff input k z L). destruct (getInt input (lit k)) as [w|e|]; [|contradiction|contradiction].
  destruct H as [_ ->]. reflexivity.
Qed.
Lemma text_value_unique seg k v v' : text_value seg k v -> text_value seg k v' -> v = v'.
Proof.
  intros [(M & ->)|(c & M & P & D)] [(M' & ->)|(c' & M' & P' & D')]; pose proof (looks_up_unique _ _ _ _ M M') as E; try discriminate; [reflexivity|].
  injection E as <-. rewrite (despaced_fun _ _ D), (despaced_fun _ _ D'). reflexivity.
Qed.
Lemma int_value_unique seg k o o' : ~ In lt (lit k) -> int_value seg k o -> int_value seg k o' -> o = o'.
Proof.
  intros L V V'. assert (E : getInt seg (lit k) = Ok (int_seen o)) by (apply int_iff; eauto). assert (E' : getInt seg (lit k) = Ok (int_seen o')) by (apply int_iff; eauto).
  rewrite E in E'. injection E' as X. rewrite (int_value_seen _ _ _ V), (int_value_seen _ _ _ V'), X. reflexivity.
Qed.
Lemma number_value_unique seg k x y : ~ In lt (lit k) -> number_value seg k x -> number_value seg k y -> x = y.
Proof. intros L V V'. apply (double_iff _ _ _ L) in V. apply (double_iff _ _ _ L) in V'. congruence. Qed.
Lemma key_required_iff input sp k v : Forall (fun p => kres input p = Ok tt) sp -> List.find (fun p => str_eqb (lit (fst p)) (lit k)) sp = Some (k, KString) ->
  lit k <> [] -> ~ In lt (lit k) -> (key_required (map (kread input) sp) k = Ok v <-> required input k v).
Proof.
  intros F E N L. unfold key_required, required. rewrite bind_iff. split.
  - intros (w & K & Q). apply (key_string_iff _ _ _ _ F E N L) in K. destruct w; [discriminate|]. injection Q as <-. split; [exact K|discriminate].
  - intros (V & NE). exists v. split; [now apply (key_string_iff _ _ _ _ F E N L)|]. destruct v; [congruence|reflexivity].
Qed.
