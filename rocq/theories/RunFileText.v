(** The text of the report and of the history file. *)
From Coq Require Import Ascii String ZArith Bool Arith Reals Lra List Lia.
From Verif Require Import Base StM Num RealNum VecModel MatModel MatSpec DesignModel HistModel HistSpec OptModel OptSpec StrModel StrSpec StrProofs StrNum StrReal DriverSpec DriverText ExtModel ExtSpec ExtProofs CsvModel CsvSpec CsvProofs RunFileModel RunFileSpec.
Import ListNotations.

(** *** documents made of tags and plain text *)
Inductive part : Type := Tag (w : str) | Txt (u : str).
Definition flat1 (p : part) : str := match p with Tag w => lt :: w ++ [gt] | Txt u => u end.
Definition flat (l : list part) : str := concat (map flat1 l).
Definition clean (p : part) : Prop := match p with Tag w => ~ In gt w /\ ~ In lt w | Txt u => ~ In lt u end.
Lemma flat_app a b : flat (a ++ b) = flat a ++ flat b.
Proof. unfold flat. now rewrite map_app, concat_app. Qed.
Lemma upto_gt : forall (a b : str) r r', ~ In gt a -> ~ In gt b -> a ++ gt :: r = b ++ gt :: r' -> a = b.
Proof.
  induction a as [|x a IH]; intros [|y b] r r' A B E; cbn in E; [reflexivity| | |].
  - injection E as <- _. destruct B. now left.
  - injection E as -> _. destruct A. now left.
  - injection E as <- E. f_equal. apply (IH b r r'); [| |exact E]; intros I; [apply A|apply B]; now right.
Qed.
Lemma absent_flat w l : ~ In gt w -> (forall p, In p l -> clean p) -> ~ In (Tag w) l -> absent (lt :: w ++ [gt]) (flat l).
Proof.
  intros W. induction l as [|p l IH]; intros C N.
  - apply absent_no_lt. intros [].
  - assert (A : absent (lt :: w ++ [gt]) (flat l)) by (apply IH; [intros q I; apply C; now right|intros I; apply N; now right]).
    pose proof (C p (or_introl eq_refl)) as Cp. change (flat (p :: l)) with (flat1 p ++ flat l). destruct p as [t|u]; cbn [flat1 clean] in *.
    + cbn [app]. apply absent_cons_inv.
      * intros r E. cbn [app] in E. injection E as E. rewrite <- !app_assoc in E. cbn [app] in E. apply upto_gt in E; [|tauto|exact W]. subst t. apply N. now left.
      * apply absent_app_no_lt; [|exact A]. rewrite no_lt_app. split; [tauto|]. intros [H|[]]. discriminate.
    + apply absent_app_no_lt; [exact Cp|exact A].
Qed.
Lemma flat_tag w l : flat (Tag w :: l) = (lt :: w ++ [gt]) ++ flat l.
Proof. reflexivity. Qed.
(** the content of an element *)
Lemma looks_up_part k A B C : ~ In lt k -> ~ In gt k -> (forall p, In p (A ++ B ++ C) -> clean p) ->
  ~ In (Tag k) A -> ~ In (Tag (slash :: k)) B -> ~ In (Tag k) C ->
  looks_up k (flat (A ++ Tag k :: B ++ Tag (slash :: k) :: C)) (Content (flat B)).
Proof.
  intros K1 K2 CL NA NB NC. assert (CA : forall p, In p A -> clean p) by (intros p I; apply CL; apply in_or_app; now left).
  assert (CB : forall p, In p B -> clean p) by (intros p I; apply CL; apply in_or_app; right; apply in_or_app; now left).
  assert (CC : forall p, In p C -> clean p) by (intros p I; apply CL; apply in_or_app; right; apply in_or_app; now right).
  assert (SK : ~ In gt (slash :: k)) by (intros [H|H]; [discriminate|auto]).
  rewrite flat_app, flat_tag, flat_app, flat_tag.
  apply (lk_content k _ (flat A) (flat B ++ (lt :: (slash :: k) ++ [gt]) ++ flat C) (flat B) (flat C)).
  - rewrite opening_cons. apply first_after; [now apply no_lt_tag|now apply absent_flat].
  - rewrite closing_cons. change (slash :: k ++ [gt]) with ((slash :: k) ++ [gt]). apply first_after; [now apply no_lt_ctag|now apply absent_flat].
  - rewrite opening_cons. now apply absent_flat.
Qed.
Lemma missing_part k l : ~ In lt k -> ~ In gt k -> (forall p, In p l -> clean p) -> ~ In (Tag k) l -> looks_up k (flat l) Missing.
Proof. intros K1 K2 C N. constructor. rewrite opening_cons. now apply absent_flat. Qed.

(** *** the vector of an element inside a document *)
Definition item_parts (u : str) : list part := [Txt tab; Tag (lit "item"); Txt u; Tag (lit "/item"); Txt newline].
Lemma flat_items us : flat (flat_map item_parts us) = flat_map item_block us.
Proof. induction us as [|u us IH]; [reflexivity|]. cbn [flat_map]. rewrite flat_app, IH. f_equal. Qed.
Lemma vector_part k us A C : ~ In lt k -> ~ In gt k -> k <> [] -> k <> lit "item" -> k <> lit "/item" -> (forall u, In u us -> ~ In lt u /\ ~ In gt u) ->
  (forall p, In p (A ++ C) -> clean p) -> ~ In (Tag k) A -> ~ In (Tag (slash :: k)) A -> 
  getDoubleVector (T := R) (flat (A ++ Tag k :: (Txt newline :: flat_map item_parts us) ++ Tag (slash :: k) :: C)) k = Ok (flat_map StrReal.number_of us).
Proof.
  intros K1 K2 KE KI KJ U CL NA NS.
  set (B := Txt newline :: flat_map item_parts us).
  assert (EB : flat B = newline ++ flat_map item_block us) by (unfold B; change (flat (Txt newline :: flat_map item_parts us)) with (newline ++ flat (flat_map item_parts us)); now rewrite flat_items).
  assert (CA : forall p, In p A -> clean p) by (intros p I; apply CL; apply in_or_app; now left).
  assert (CB : forall p, In p B -> clean p).
  { intros p [<-|I]; [cbn; intros [H|[]]; discriminate|]. apply in_flat_map in I. destruct I as (u & Iu & I). destruct (U u Iu) as [U1 U2].
    repeat (destruct I as [<-|I]; [cbn; try exact U1; try (split; intros H; repeat (destruct H as [H|H]; [discriminate|]); destruct H); try (intros [H|[]]; discriminate)|]). destruct I. }
  assert (NB : ~ In (Tag (slash :: k)) B).
  { intros [H|I]; [discriminate|]. apply in_flat_map in I. destruct I as (u & Iu & I). unfold item_parts in I. cbn [In] in I.
    destruct I as [I|[I|[I|[I|[I|[]]]]]]; try discriminate I. injection I as I. apply KI. symmetry. exact I. }
  assert (SK : ~ In gt (slash :: k)) by (intros [H|H]; [discriminate|auto]).
  rewrite flat_app, flat_tag, flat_app, flat_tag. set (s := flat A ++ _).
  assert (F1 : first_at (opening k) s (flat A) (flat B ++ (lt :: (slash :: k) ++ [gt]) ++ flat C)).
  { unfold s. rewrite opening_cons. apply first_after; [now apply no_lt_tag|now apply absent_flat]. }
  assert (F2 : first_at (closing k) s (flat A ++ (lt :: k ++ [gt]) ++ flat B) (flat C)).
  { replace s with ((flat A ++ (lt :: k ++ [gt]) ++ flat B) ++ closing k ++ flat C).
    - rewrite closing_cons. apply first_after; [now apply no_lt_ctag|].
      rewrite <- flat_tag, <- flat_app. change (slash :: k ++ [gt]) with ((slash :: k) ++ [gt]). apply absent_flat; [exact SK| |].
      + intros p I. apply in_app_or in I. destruct I as [I|[<-|I]]; [now apply CA|split; assumption|now apply CB].
      + intros I. apply in_app_or in I. destruct I as [I|[I|I]]; [contradiction| |contradiction].
        assert (LL : length k = S (length k)) by (injection I as I; exact (f_equal (@length ascii) I)). lia.
    - unfold s. rewrite closing_cons. change (lt :: slash :: k ++ [gt]) with (lt :: (slash :: k) ++ [gt]). rewrite <- (app_assoc (flat A)), <- (app_assoc (lt :: k ++ [gt])). reflexivity. }
  unfold getDoubleVector. replace (is_empty s) with false. 2:{ unfold s. destruct (flat A); reflexivity. }
  replace (is_empty k) with false by (destruct k; [congruence|reflexivity]). cbv zeta. change (start_tag k) with (opening k). change (end_tag k) with (closing k).
  rewrite (find_first _ _ _ _ F1), (find_first _ _ _ _ F2).
  assert (LO : length (opening k) = length k + 2) by exact (start_len k).
  assert (LP : length (flat A ++ (lt :: k ++ [gt]) ++ flat B) = length (flat A) + (length (opening k) + length (flat B))) by (rewrite !app_length, opening_cons; reflexivity).
  rewrite LP. destruct (Nat.ltb_spec (length (flat A)) (length (flat A) + (length (opening k) + length (flat B)))) as [_|X]; [|lia].
  rewrite usub_add by reflexivity. rewrite usub_add by reflexivity.
  replace s with ((flat A ++ opening k) ++ flat B ++ ((lt :: (slash :: k) ++ [gt]) ++ flat C)) by (unfold s; rewrite opening_cons, <- !app_assoc; reflexivity).
  rewrite substr_mid by (rewrite ?app_length; reflexivity). cbn [bind]. f_equal. rewrite EB.
  apply split_items; [exact U|intros [H|[]]; discriminate|reflexivity|reflexivity].
Qed.

(** *** the report *)
Section Report.
  Context (fixed : nat -> R -> str) (F : forall p x, fixed_text_of p x (fixed p x)).
  Definition vector_parts (k : str) (v : list R) : list part :=
    Tag k :: (Txt newline :: flat_map item_parts (map (fixed 6) v)) ++ [Tag (slash :: k)].
  Definition head_parts (d : design R) : list part :=
    [Tag (lit "GlobalOptimalDesign"); Txt newline; Tag (lit "DesignID"); Txt (int_text (ds_ID d)); Tag (lit "/DesignID"); Txt newline;
     Tag (lit "ObjectiveFunction"); Txt (fixed 6 (ds_f d)); Tag (lit "/ObjectiveFunction"); Txt newline].
  Definition con_parts (d : design R) : list part :=
    match ds_con d with [] => [] | cs => vector_parts (lit "ConstraintValues") cs ++ [Txt newline] end.
  Definition end_parts (d : design R) : list part :=
    [Tag (lit "Feasibility"); Txt (if ds_feas d then lit "YES" else lit "NO"); Tag (lit "/Feasibility"); Txt newline; Tag (lit "/GlobalOptimalDesign"); Txt newline].
  Definition report_parts (d : design R) : list part :=
    head_parts d ++ vector_parts (lit "DesignParameters") (ds_x d) ++ [Txt newline] ++ con_parts d ++ end_parts d.
  Lemma flat_vector k v : v <> [] -> xmlVector fixed k v = Ok (flat (vector_parts k v)).
  Proof.
    intros NE. unfold xmlVector. destruct v as [|x v]; [congruence|]. f_equal. unfold vector_parts. rewrite flat_tag, flat_app, flat_tag.
    change (flat (Txt newline :: flat_map item_parts (map (fixed 6) (x :: v)))) with (newline ++ flat (flat_map item_parts (map (fixed 6) (x :: v)))). rewrite flat_items.
    set (w := x :: v). clearbody w. assert (E : flat_map item_block (map (fixed 6) w) = flat_map (fun x => tab ++ lit "<item>" ++ fixed 6 x ++ lit "</item>" ++ newline) w).
    { induction w as [|y w IH]; [reflexivity|]. cbn [map flat_map]. now rewrite IH. }
    rewrite E. unfold flat at 1. cbn [map concat]. rewrite app_nil_r. rewrite <- app_assoc. reflexivity.
  Qed.
  Lemma report_flat d : ds_x d <> [] -> reportText fixed d = Ok (flat (report_parts d)).
  Proof.
    intros NE. unfold reportText. rewrite flat_vector by exact NE. cbn [bind].
    assert (E : (match ds_con d with [] => Ok [] | cs => v <- xmlVector fixed (lit "ConstraintValues") cs ;; Ok (v ++ newline) end) = Ok (flat (con_parts d))).
    { unfold con_parts. destruct (ds_con d) as [|y ys]; [reflexivity|]. rewrite flat_vector by discriminate. cbn [bind]. f_equal. now rewrite flat_app. }
    rewrite E. cbn [bind]. f_equal. unfold report_parts. rewrite !flat_app.
    set (v := flat (vector_parts _ _)). set (c := flat (con_parts d)). unfold flat, head_parts, end_parts, generateXml, start_tag, end_tag. cbn [map concat flat1].
    rewrite !app_nil_r. change lt with "<"%char. change gt with ">"%char. cbn [lit list_ascii_of_string app]. repeat (rewrite <- app_assoc; cbn [app]). reflexivity.
  Qed.
  Lemma fixed_free p x : ~ In lt (fixed p x) /\ ~ In gt (fixed p x) /\ (forall c, In c (fixed p x) -> nat_of_ascii c < 128 /\ ~ In c spaces).
  Proof.
    destruct (fixed_chars_of _ _ _ (F p x)) as [_ H]. split; [|split].
    - intros I. apply H in I. destruct I as [I|[I|I]]; discriminate I.
    - intros I. apply H in I. destruct I as [I|[I|I]]; discriminate I.
    - intros c I. apply H in I. destruct I as [I|[->| ->]].
      + apply is_digit_iff in I. destruct I as (k & Hk & ->). change (nat_of_ascii (digit k)) with (code (digit k)). rewrite code_digit by exact Hk. split; [lia|].
        intros S. apply space_iff in S. rewrite digit_not_space in S; [discriminate|]. apply is_digit_iff. eauto.
      + split; [cbn; lia|]. intros S. apply space_iff in S. discriminate.
      + split; [cbn; lia|]. intros S. apply space_iff in S. discriminate.
  Qed.
  Lemma int_free z : ~ In lt (int_text z) /\ ~ In gt (int_text z).
  Proof. split; intros I; apply int_chars in I; destruct I as [I|I]; discriminate I. Qed.
  Lemma vector_clean k v p : ~ In lt k -> ~ In gt k -> In p (vector_parts k v) -> clean p.
  Proof.
    intros K1 K2 I. unfold vector_parts in I. destruct I as [<-|I]; [split; assumption|]. apply in_app_or in I. destruct I as [[<-|I]|[<-|[]]].
    - cbn. intros [H|[]]. discriminate.
    - apply in_flat_map in I. destruct I as (u & Iu & I). apply in_map_iff in Iu. destruct Iu as (x & <- & _). destruct (fixed_free 6 x) as (U1 & U2 & _).
      repeat (destruct I as [<-|I]; [cbn; try exact U1; try (split; intros H; repeat (destruct H as [H|H]; [discriminate|]); destruct H); try (intros [H|[]]; discriminate)|]). destruct I.
    - split; intros [H|H]; try discriminate; auto.
  Qed.
  Lemma vector_tags k v w : In (Tag w) (vector_parts k v) -> w = k \/ w = slash :: k \/ w = lit "item" \/ w = lit "/item".
  Proof.
    intros I. unfold vector_parts in I. destruct I as [I|I]; [injection I as <-; auto|]. apply in_app_or in I. destruct I as [[I|I]|[I|[]]]; [discriminate| |injection I as <-; auto].
    apply in_flat_map in I. destruct I as (u & Iu & I). unfold item_parts in I. cbn [In] in I. destruct I as [I|[I|[I|[I|[I|[]]]]]]; try discriminate I; injection I as <-; auto.
  Qed.
  Ltac no_char := cbn; intros H; repeat (destruct H as [H|H]; [discriminate H|]); destruct H.
  Lemma con_clean d p : In p (con_parts d) -> clean p.
  Proof.
    unfold con_parts. destruct (ds_con d) as [|y ys]; [intros []|]. intros I. apply in_app_or in I. destruct I as [I|[<-|[]]].
    - apply (vector_clean (lit "ConstraintValues") (y :: ys)); [no_char|no_char|exact I].
    - no_char.
  Qed.
  Lemma con_tags d w : In (Tag w) (con_parts d) -> w = lit "ConstraintValues" \/ w = lit "/ConstraintValues" \/ w = lit "item" \/ w = lit "/item".
  Proof.
    unfold con_parts. destruct (ds_con d) as [|y ys]; [intros []|]. intros I. apply in_app_or in I. destruct I as [I|[I|[]]]; [|discriminate]. apply vector_tags in I. exact I.
  Qed.
  Lemma head_clean d p : In p (head_parts d) -> clean p.
  Proof.
    destruct (fixed_free 6 (ds_f d)) as (U1 & _). destruct (int_free (ds_ID d)) as (V1 & _). unfold head_parts. cbn [In]. intros I.
    repeat (destruct I as [<-|I]; [cbn [clean]; try exact U1; try exact V1; try (split; no_char); try no_char|]). destruct I.
  Qed.
  Lemma end_clean d p : In p (end_parts d) -> clean p.
  Proof. unfold end_parts. cbn [In]. intros I. repeat (destruct I as [<-|I]; [cbn [clean]; try (split; no_char); try (destruct (ds_feas d); no_char); try no_char|]). destruct I. Qed.
  Lemma all_clean d p : In p (report_parts d) -> clean p.
  Proof.
    unfold report_parts. rewrite !in_app_iff. intros [I|[I|[I|[I|I]]]].
    - now apply (head_clean d).
    - apply (vector_clean (lit "DesignParameters") (ds_x d)); [no_char|no_char|exact I].
    - destruct I as [<-|[]]. no_char.
    - now apply (con_clean d).
    - now apply (end_clean d).
  Qed.
  Lemma items_ok v : item_lines v (flat_map item_block (map (fixed 6) v)).
  Proof.
    induction v as [|x v IH]; [constructor|]. cbn [map flat_map]. unfold item_block at 1.
    replace ((tab ++ lit "<item>" ++ fixed 6 x ++ lit "</item>" ++ newline) ++ flat_map item_block (map (fixed 6) v))
      with (lit "	<item>" ++ fixed 6 x ++ lit "</item>" ++ newline_text ++ flat_map item_block (map (fixed 6) v)) by (rewrite <- !app_assoc; reflexivity).
    constructor; [apply F|exact IH].
  Qed.
  Lemma flat_body us : flat (Txt newline :: flat_map item_parts us) = newline_text ++ flat_map item_block us.
  Proof. change (flat (Txt newline :: flat_map item_parts us)) with (newline ++ flat (flat_map item_parts us)). now rewrite flat_items. Qed.
  Lemma count_text_int i z : z = Z.of_nat i -> count_text i (int_text z).
  Proof.
    intros ->. destruct (int_text_form (Z.of_nat i)) as (sg & ds & E & G & D & NE). rewrite E. destruct (Z.ltb_spec (Z.of_nat i) 0); [lia|].
    rewrite Z.abs_eq in D by lia. unfold int_text in E. destruct (Z.ltb_spec (Z.of_nat i) 0); [lia|]. cbn [app] in E. inversion G; subst; cbn [app] in *.
    - destruct (abs_text (Z.of_nat i)) as [D' _]. apply decimal_digits in D'. cbv zeta in D'. unfold all_digits in D'. rewrite E in D'. inversion D' as [|? ? X]. discriminate X.
    - split; assumption.
  Qed.
  Lemma tag_in_head w d : In (Tag w) (head_parts d) -> w = lit "GlobalOptimalDesign" \/ w = lit "DesignID" \/ w = lit "/DesignID" \/ w = lit "ObjectiveFunction" \/ w = lit "/ObjectiveFunction".
  Proof. unfold head_parts. cbn [In]. intros I. repeat (destruct I as [I|I]; [try discriminate I; injection I as <-; auto 6|]). destruct I. Qed.
  Lemma tag_in_end w d : In (Tag w) (end_parts d) -> w = lit "Feasibility" \/ w = lit "/Feasibility" \/ w = lit "/GlobalOptimalDesign".
  Proof. unfold end_parts. cbn [In]. intros I. repeat (destruct I as [I|I]; [try discriminate I; injection I as <-; auto 6|]). destruct I. Qed.
  Ltac not_tag := let I := fresh in intros I; rewrite ?in_app_iff in I; cbn [In] in I;
    repeat match type of I with _ \/ _ => destruct I as [I|I] | False => destruct I end;
    first [discriminate I | apply vector_tags in I | apply con_tags in I | apply tag_in_head in I | apply tag_in_end in I];
    repeat match type of I with _ \/ _ => destruct I as [I|I] end; discriminate I.
  Lemma con_split d : ds_con d <> [] -> report_parts d = (head_parts d ++ vector_parts (lit "DesignParameters") (ds_x d) ++ [Txt newline]) ++ Tag (lit "ConstraintValues") :: (Txt newline :: flat_map item_parts (map (fixed 6) (ds_con d))) ++ Tag (slash :: lit "ConstraintValues") :: ([Txt newline] ++ end_parts d).
  Proof.
    intros NE. unfold report_parts, con_parts. destruct (ds_con d) as [|y ys]; [congruence|]. set (X := vector_parts (lit "DesignParameters") (ds_x d)). clearbody X.
    unfold vector_parts. repeat (rewrite <- app_assoc; cbn [app]). reflexivity.
  Qed.
  Lemma report_describes d i : ds_ID d = Z.of_nat i -> describes (flat (report_parts d)) i (ds_f d) (ds_x d) (ds_con d) (ds_feas d).
  Proof.
    intros ID. pose proof (all_clean d) as CL. set (V := vector_parts (lit "DesignParameters") (ds_x d) ++ [Txt newline] ++ con_parts d ++ end_parts d).
    assert (EQ : report_parts d = head_parts d ++ V) by reflexivity.
    split; [|split; [|split; [|split]]].
    - exists (int_text (ds_ID d)). split; [|now apply count_text_int].
      replace (report_parts d) with ([Tag (lit "GlobalOptimalDesign"); Txt newline] ++ Tag (lit "DesignID") :: [Txt (int_text (ds_ID d))] ++ Tag (slash :: lit "DesignID") ::
        ([Txt newline; Tag (lit "ObjectiveFunction"); Txt (fixed 6 (ds_f d)); Tag (lit "/ObjectiveFunction"); Txt newline] ++ V)) by reflexivity.
      replace (Content (int_text (ds_ID d))) with (Content (flat [Txt (int_text (ds_ID d))])) by (unfold flat; cbn [map concat flat1]; now rewrite app_nil_r).
      apply looks_up_part; [no_char|no_char| |not_tag|not_tag|unfold V; not_tag].
      intros p I. apply CL. rewrite EQ. unfold head_parts. rewrite !in_app_iff in *. cbn [In] in *. tauto.
    - exists (fixed 6 (ds_f d)). split; [|apply F].
      replace (report_parts d) with ([Tag (lit "GlobalOptimalDesign"); Txt newline; Tag (lit "DesignID"); Txt (int_text (ds_ID d)); Tag (lit "/DesignID"); Txt newline] ++
        Tag (lit "ObjectiveFunction") :: [Txt (fixed 6 (ds_f d))] ++ Tag (slash :: lit "ObjectiveFunction") :: ([Txt newline] ++ V)) by reflexivity.
      replace (Content (fixed 6 (ds_f d))) with (Content (flat [Txt (fixed 6 (ds_f d))])) by (unfold flat; cbn [map concat flat1]; now rewrite app_nil_r).
      apply looks_up_part; [no_char|no_char| |not_tag|not_tag|unfold V; not_tag].
      intros p I. apply CL. rewrite EQ. unfold head_parts. rewrite !in_app_iff in *. cbn [In] in *. tauto.
    - exists (flat_map item_block (map (fixed 6) (ds_x d))). split; [|apply items_ok]. rewrite <- flat_body.
      replace (report_parts d) with (head_parts d ++ Tag (lit "DesignParameters") :: (Txt newline :: flat_map item_parts (map (fixed 6) (ds_x d))) ++ Tag (slash :: lit "DesignParameters") :: ([Txt newline] ++ con_parts d ++ end_parts d)).
      2:{ unfold report_parts, vector_parts. cbn [app]. do 2 f_equal. rewrite <- app_assoc. reflexivity. }
      apply looks_up_part; [no_char|no_char| |not_tag| |not_tag].
      + intros p I. apply CL. unfold report_parts, vector_parts. rewrite !in_app_iff in *. cbn [In] in *. rewrite !in_app_iff in *. cbn [In]. tauto.
      + intros [H|I]; [discriminate|]. apply in_flat_map in I. destruct I as (u & _ & I). unfold item_parts in I. cbn [In] in I. destruct I as [I|[I|[I|[I|[I|[]]]]]]; discriminate I.
    - destruct (ds_con d) as [|y ys] eqn:EC; cbn [is_empty].
      + apply missing_part; [no_char|no_char|exact CL|]. unfold report_parts, con_parts. rewrite EC. not_tag.
      + rewrite <- EC. exists (flat_map item_block (map (fixed 6) (ds_con d))). split; [|apply items_ok]. rewrite <- flat_body.
        replace (report_parts d) with ((head_parts d ++ vector_parts (lit "DesignParameters") (ds_x d) ++ [Txt newline]) ++ Tag (lit "ConstraintValues") :: (Txt newline :: flat_map item_parts (map (fixed 6) (ds_con d))) ++ Tag (slash :: lit "ConstraintValues") :: ([Txt newline] ++ end_parts d)).
        2:{ symmetry. apply con_split. now rewrite EC. }
        apply looks_up_part; [no_char|no_char| |not_tag| |not_tag].
        * intros p I. apply CL. rewrite con_split by (now rewrite EC). revert I. do 4 (rewrite ?in_app_iff; cbn [In]). tauto.
        * intros [H|I]; [discriminate|]. apply in_flat_map in I. destruct I as (u & _ & I). unfold item_parts in I. cbn [In] in I. destruct I as [I|[I|[I|[I|[I|[]]]]]]; discriminate I.
    - replace (report_parts d) with ((head_parts d ++ vector_parts (lit "DesignParameters") (ds_x d) ++ [Txt newline] ++ con_parts d) ++ Tag (lit "Feasibility") :: [Txt (if ds_feas d then lit "YES" else lit "NO")] ++ Tag (slash :: lit "Feasibility") :: [Txt newline; Tag (lit "/GlobalOptimalDesign"); Txt newline]).
      2:{ unfold report_parts. rewrite <- !app_assoc. reflexivity. }
      replace (Content (if ds_feas d then lit "YES" else lit "NO")) with (Content (flat [Txt (if ds_feas d then lit "YES" else lit "NO")])) by (unfold flat; cbn [map concat flat1]; now rewrite app_nil_r).
      apply looks_up_part; [no_char|no_char| |not_tag|not_tag|not_tag].
      intros p I. apply CL. unfold report_parts, end_parts. rewrite !in_app_iff in *. cbn [In] in *. tauto.
  Qed.
  (** reading the vectors of a report *)
  Lemma read_items v : (forall x, In x v -> in_range x) -> Forall2 (rounds 6) v (flat_map StrReal.number_of (map (fixed 6) v)).
  Proof.
    induction v as [|x v IH]; intros B; [constructor|]. cbn [map flat_map]. destruct (fixed_reads 6 x _ ltac:(lia) (F 6 x)) as (y & E & RR); [apply B; now left|].
    unfold StrReal.number_of at 1. rewrite E. cbn [app]. constructor; [exact RR|]. apply IH. intros z I. apply B. now right.
  Qed.
  Lemma report_vectors d : (forall x, In x (ds_x d ++ ds_con d) -> in_range x) ->
    exists xs cs, getDoubleVector (T := R) (flat (report_parts d)) (lit "DesignParameters") = Ok xs /\ Forall2 (rounds 6) (ds_x d) xs /\
      getDoubleVector (T := R) (flat (report_parts d)) (lit "ConstraintValues") = Ok cs /\ Forall2 (rounds 6) (ds_con d) cs.
  Proof.
    intros B. pose proof (all_clean d) as CL.
    assert (FR : forall v u, In u (map (fixed 6) v) -> ~ In lt u /\ ~ In gt u) by (intros v u I; apply in_map_iff in I; destruct I as (x & <- & _); destruct (fixed_free 6 x) as (A1 & A2 & _); auto).
    exists (flat_map StrReal.number_of (map (fixed 6) (ds_x d))), (flat_map StrReal.number_of (map (fixed 6) (ds_con d))).
    split; [|split; [apply read_items; intros x I; apply B, in_or_app; now left|split; [|apply read_items; intros x I; apply B, in_or_app; now right]]].
    - replace (report_parts d) with (head_parts d ++ Tag (lit "DesignParameters") :: (Txt newline :: flat_map item_parts (map (fixed 6) (ds_x d))) ++ Tag (slash :: lit "DesignParameters") :: ([Txt newline] ++ con_parts d ++ end_parts d)).
      2:{ unfold report_parts, vector_parts. cbn [app]. do 2 f_equal. rewrite <- app_assoc. reflexivity. }
      apply vector_part; [no_char|no_char|discriminate|discriminate|discriminate|apply FR| |not_tag|not_tag].
      intros p I. apply CL. unfold report_parts, vector_parts. rewrite !in_app_iff in *. cbn [In] in *. rewrite !in_app_iff in *. cbn [In]. tauto.
    - destruct (ds_con d) as [|y ys] eqn:EC.
      + cbn [map flat_map]. assert (A : absent (opening (lit "ConstraintValues")) (flat (report_parts d))).
        { rewrite opening_cons. apply absent_flat; [no_char|exact CL|]. unfold report_parts, con_parts. rewrite EC. not_tag. }
        unfold getDoubleVector. rewrite (find_absent _ _ A : find (start_tag (lit "ConstraintValues")) _ = None).
        replace (is_empty (flat (report_parts d))) with false by reflexivity. reflexivity.
      + rewrite <- EC. replace (report_parts d) with ((head_parts d ++ vector_parts (lit "DesignParameters") (ds_x d) ++ [Txt newline]) ++ Tag (lit "ConstraintValues") :: (Txt newline :: flat_map item_parts (map (fixed 6) (ds_con d))) ++ Tag (slash :: lit "ConstraintValues") :: ([Txt newline] ++ end_parts d)).
        2:{ symmetry. apply con_split. now rewrite EC. }
        apply vector_part; [no_char|no_char|discriminate|discriminate|discriminate|apply FR| |not_tag|not_tag].
        intros p I. apply CL. rewrite con_split by (now rewrite EC). revert I. do 4 (rewrite ?in_app_iff; cbn [In]). tauto.
  Qed.
End Report.

(** *** the history table *)
Section Table.
  Context (fixed : nat -> R -> str) (F : forall p x, fixed_text_of p x (fixed p x)).
  Lemma joined_line l : l <> [] -> comma_line l (joined (lit ",") l).
  Proof.
    induction l as [|a l IH]; intros NE; [congruence|]. cbn [joined]. destruct l as [|b l]; [constructor|]. constructor. apply IH. discriminate.
  Qed.
  Lemma table_ok hd (m : mat R) : hd <> [] -> 0 < ncols m -> table_text hd (rows m) (tableText fixed 6 hd m).
  Proof.
    intros NE C. exists (joined (lit ",") hd), (map (fun r => joined (lit ",") (map (fixed 6) r)) (rows m)). split; [now apply joined_line|]. split.
    - assert (L : forall r, In r (rows m) -> r <> []). { intros r I. unfold rows in I. apply in_map_iff in I. destruct I as (i & <- & _). intros E. apply (f_equal (@length R)) in E. rewrite map_length, seq_length in E. cbn in E. lia. }
      induction (rows m) as [|r rs IH]; [constructor|]. cbn [map]. constructor; [|apply IH; intros q I; apply L; now right].
      exists (map (fixed 6) r). split; [clear -F; induction r; constructor; auto|]. apply joined_line. destruct r; [destruct (L [] (or_introl eq_refl) eq_refl)|discriminate].
    - unfold tableText. destruct hd as [|h hs]; [congruence|]. cbn [is_empty]. rewrite <- app_assoc. f_equal. f_equal. f_equal. unfold rows. rewrite !map_map. reflexivity.
  Qed.
  Lemma header_ok pn cn d : (pn = [] \/ length pn = d) -> exists hd, header pn cn d = Ok hd /\ column_names pn cn d hd /\ length hd = d + 1 + length cn + 2 /\ hd <> [].
  Proof.
    intros H. unfold header. destruct pn as [|p0 pn'].
    - cbn [is_empty negb andb]. eexists. split; [reflexivity|]. split; [|split].
      + exists (map (fun i => lit "x" ++ int_text (Z.of_nat (S i))) (seq 0 d)). split; [reflexivity|]. split; [now rewrite map_length, seq_length|]. cbn [is_empty]. intros i Hi.
        exists (int_text (Z.of_nat (S i))). split; [now apply count_text_int|].
        rewrite (nth_indep _ [] ((fun i => lit "x" ++ int_text (Z.of_nat (S i))) 0)) by (now rewrite map_length, seq_length). rewrite (map_nth (fun i => lit "x" ++ int_text (Z.of_nat (S i)))). now rewrite seq_nth by exact Hi.
      + rewrite !app_length, map_length, seq_length. cbn. lia.
      + intros E. apply (f_equal (@length str)) in E. rewrite !app_length in E. cbn in E. lia.
    - destruct H as [H|H]; [discriminate|]. cbn [is_empty negb andb]. apply Nat.eqb_eq in H as H'. rewrite H'. cbn [negb]. eexists. split; [reflexivity|]. split; [|split].
      + exists (p0 :: pn'). split; [reflexivity|]. split; [exact H|]. reflexivity.
      + rewrite !app_length. unfold str in *. cbn [length] in *. lia.
      + discriminate.
  Qed.
End Table.

(** *** reading the table back *)
Lemma comma_pieces l t : comma_line l t -> (forall a, In a l -> ~ In ","%char a /\ a <> []) -> pieces ","%char t = l.
Proof.
  induction 1 as [a|a l t C IH]; intros H.
  - destruct (H a (or_introl eq_refl)) as [N NE]. now apply pieces_last.
  - destruct (H a (or_introl eq_refl)) as [N NE]. cbn [lit list_ascii_of_string app]. rewrite pieces_app by exact N. f_equal. apply IH. intros b I. apply H. now right.
Qed.
Lemma comma_chars l t c : comma_line l t -> In c t -> c = ","%char \/ exists a, In a l /\ In c a.
Proof.
  induction 1 as [a|a l t C IH]; intros I.
  - right. exists a. split; [now left|exact I].
  - cbn [lit list_ascii_of_string app] in I. apply in_app_or in I. destruct I as [I|[<-|I]]; [right; exists a; split; [now left|exact I]|now left|].
    destruct (IH I) as [->|(b & Ib & Ic)]; [now left|]. right. exists b. split; [now right|exact Ic].
Qed.
Lemma line_reads r t : number_line r t -> (forall x, In x r -> in_range x) -> ~ In nl t /\ exists q, readRow (T := R) (pieces ","%char t) = Ok q /\ Forall2 (rounds 6) r q.
Proof.
  intros (cells & FC & C) B. split.
  - intros I. destruct (comma_chars _ _ _ C I) as [E|(a & Ia & Ic)]; [discriminate|].
    assert (Q : exists x, fixed_text_of 6 x a). { clear - FC Ia. induction FC; [destruct Ia|]. destruct Ia as [<-|Ia]; eauto. }
    destruct Q as (x & Q). apply fixed_separators in Q. tauto.
  - rewrite (comma_pieces _ _ C).
    2:{ intros a Ia. assert (Q : exists x, fixed_text_of 6 x a). { clear - FC Ia. induction FC; [destruct Ia|]. destruct Ia as [<-|Ia]; eauto. }
        destruct Q as (x & Q). apply fixed_separators in Q. tauto. }
    clear C. induction FC as [|x a r cells Fx FC IH]; cbn [readRow]; [exists []; split; [reflexivity|constructor]|].
    destruct (fixed_reads 6 x a ltac:(lia) Fx) as (y & E & RR); [apply B; now left|]. rewrite E. cbn [bind]. destruct IH as (q & -> & FR); [intros z I; apply B; now right|].
    cbn [bind]. exists (y :: q). split; [reflexivity|now constructor].
Qed.
Lemma Forall2_len2 {A B} (P : A -> B -> Prop) l l' : Forall2 P l l' -> length l = length l'.
Proof. induction 1; cbn; congruence. Qed.
Lemma table_reads cols rs t w : table_text cols rs t -> (forall a, In a cols -> ~ In newline_char a) -> rs <> [] -> (forall r, In r rs -> length r = w) ->
  (forall r x, In r rs -> In x r -> in_range x) -> exists m qs, csvMatrix (T := R) true t = Ok m /\ has_rows m qs /\ ncols m = w /\ Forall2 (Forall2 (rounds 6)) rs qs.
Proof.
  intros (h & ls & C & FL & ->) HN NE W B.
  assert (H0 : ~ In nl h). { intros I. destruct (comma_chars _ _ _ C I) as [E|(a & Ia & Ic)]; [discriminate|]. exact (HN a Ia Ic). }
  unfold csvMatrix. cbv zeta. change newline_text with [nl]. cbn [app]. rewrite pieces_app by exact H0. cbn [tl].
  assert (Q : (forall l, In l ls -> ~ In nl l) /\ exists qs, readRows (T := R) ls = Ok qs /\ Forall2 (Forall2 (rounds 6)) rs qs).
  { clear NE W. induction FL as [|r l rs ls L FL IH]; [split; [intros ? []|exists []; split; [reflexivity|constructor]]|].
    destruct (line_reads r l L) as (N & q & E & RR); [intros x I; apply (B r); [now left|exact I]|]. destruct IH as (NN & qs & E2 & R2); [intros r' x I; apply B; now right|].
    split; [intros l' [<-|I]; auto|]. cbn [readRows]. rewrite E. cbn [bind]. rewrite E2. cbn [bind]. exists (q :: qs). split; [reflexivity|now constructor]. }
  destruct Q as (NN & qs & E & RR). pose proof (pieces_concat nl ls [] NN) as P. rewrite !app_nil_r in P.
  assert (P' : pieces nl (concat (map (fun l => l ++ [nl]) ls)) = ls) by exact P.
  match goal with |- context [pieces nl ?u] => replace (pieces nl u) with ls by (symmetry; exact P') end. rewrite E. cbn [bind].
  assert (LW : forall q, In q qs -> length q = w).
  { clear - RR W. induction RR as [|r q rs qs H RR IH]; [intros ? []|]. intros q' [<-|I]; [|apply IH; auto; intros r' I'; apply W; now right]. rewrite <- (Forall2_len2 _ _ _ H). apply W. now left. }
  assert (NQ : qs <> []) by (intros ->; inversion RR; subst; congruence).
  assert (FM : exists m, fillMatrix qs = Ok m).
  { unfold fillMatrix. destruct qs as [|q0 qs']; [congruence|]. replace (forallb _ _) with true; [eauto|]. symmetry. apply forallb_forall. intros q I. apply Nat.eqb_eq. rewrite (LW q I), (LW q0); [reflexivity|now left]. }
  destruct FM as (m & FM). pose proof (proj1 (fillMatrix_iff qs m) FM) as (_ & HM). exists m, qs. split; [exact FM|]. split; [exact HM|]. split; [|exact RR].
  destruct HM as (_ & M2 & _). destruct qs as [|q0 qs']; [congruence|]. rewrite <- (M2 q0), (LW q0); [reflexivity|now left|now left].
Qed.
