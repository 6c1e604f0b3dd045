(** Lemmas about searching texts. *)
From Coq Require Import Ascii String ZArith Bool Arith List Lia.
From Verif Require Import Base Num StrModel StrSpec.
Import ListNotations.

Lemma prefixb_app p s : prefixb p (p ++ s) = true.
Proof. induction p; cbn; [reflexivity|]. rewrite Ascii.eqb_refl. exact IHp. Qed.
Lemma prefixb_split p : forall s, prefixb p s = true -> exists r, s = p ++ r.
Proof.
  induction p as [|a p IH]; intros s H; cbn in *.
  - exists s. reflexivity.
  - destruct s as [|b s]; [discriminate|]. apply andb_true_iff in H. destruct H as [H1 H2].
    apply Ascii.eqb_eq in H1. subst b. destruct (IH _ H2) as [r ->]. exists r. reflexivity.
Qed.
Lemma prefixb_false p s : prefixb p s = false -> forall r, s <> p ++ r.
Proof. intros H r ->. rewrite prefixb_app in H. discriminate. Qed.

Lemma absent_cons p c s : absent p (c :: s) -> absent p s.
Proof. intros H a r ->. exact (H (c :: a) r eq_refl). Qed.

Lemma find_spec p s :
  match find p s with
  | Some i => exists a r, length a = i /\ first_at p s a r
  | None => absent p s
  end.
Proof.
  induction s as [|c s IH]; cbn [find].
  - destruct (prefixb p []) eqn:P.
    + destruct (prefixb_split _ _ P) as [r Hr]. exists [], r. repeat split; [exact Hr|]. intros; cbn; lia.
    + intros a r E. symmetry in E. apply app_eq_nil in E. destruct E as [_ E]. symmetry in E. exact (prefixb_false _ _ P _ E).
  - destruct (prefixb p (c :: s)) eqn:P.
    + destruct (prefixb_split _ _ P) as [r Hr]. exists [], r. repeat split; [exact Hr|]. intros; cbn; lia.
    + destruct (find p s) as [i|]; cbn [option_map].
      * destruct IH as (a & r & L & -> & M). exists (c :: a), r. repeat split; [cbn; lia|].
        intros a' r' E. destruct a' as [|c' a'].
        { exfalso. exact (prefixb_false _ _ P _ E). }
        cbn in E. injection E as -> E. cbn. apply M in E. lia.
      * intros a r E. destruct a as [|c' a]; [exact (prefixb_false _ _ P _ E)|].
        cbn in E. injection E as -> E. exact (IH _ _ E).
Qed.
Lemma first_unique p s a r a' r' : first_at p s a r -> first_at p s a' r' -> a = a' /\ r = r'.
Proof.
  intros [E M] [E' M']. assert (L : length a = length a').
  { apply M in E'. apply M' in E. lia. }
  rewrite E in E'. clear E M M'. revert a' L E'. induction a as [|c a IH]; intros [|c' a'] L E; try discriminate L; cbn in *.
  - split; [reflexivity|]. now apply app_inv_head in E.
  - injection E as -> E. destruct (IH a' ltac:(lia) E) as [-> ->]. split; reflexivity.
Qed.
Lemma find_first p s a r : first_at p s a r -> find p s = Some (length a).
Proof.
  intros F. pose proof (find_spec p s) as S. destruct (find p s) as [i|].
  - destruct S as (a' & r' & L & F'). destruct (first_unique _ _ _ _ _ _ F F') as [-> _]. now rewrite L.
  - destruct F as [E _]. destruct (S _ _ E).
Qed.
Lemma find_absent p s : absent p s -> find p s = None.
Proof.
  intros A. pose proof (find_spec p s) as S. destruct (find p s) as [i|]; [|reflexivity].
  destruct S as (a & r & _ & E & _). destruct (A _ _ E).
Qed.
Lemma absent_find p s : find p s = None -> absent p s.
Proof. intros E. pose proof (find_spec p s) as S. now rewrite E in S. Qed.
Lemma first_or_absent p s : (exists a r, first_at p s a r) \/ absent p s.
Proof. pose proof (find_spec p s) as S. destruct (find p s); [left|right; exact S]. destruct S as (a & r & _ & F). now exists a, r. Qed.
Lemma not_absent p s : ~ absent p s -> exists a r, first_at p s a r.
Proof. intros N. destruct (first_or_absent p s); [assumption|contradiction]. Qed.
Lemma first_not_absent p s a r : first_at p s a r -> ~ absent p s.
Proof. intros [E _] A. exact (A _ _ E). Qed.

Lemma skipn_pre {A} (a b : list A) : skipn (length a) (a ++ b) = b.
Proof. induction a; cbn; auto. Qed.
Lemma find_from_pre p pre t n : n = length pre -> find_from p (pre ++ t) n = option_map (Nat.add n) (find p t).
Proof.
  intros ->. unfold find_from. rewrite app_length, skipn_pre.
  destruct (Nat.ltb_spec (length pre + length t) (length pre)); [lia|reflexivity].
Qed.
Lemma firstn_pre {A} (a b : list A) : firstn (length a) (a ++ b) = a.
Proof. induction a; cbn; [reflexivity|now f_equal]. Qed.
Lemma substr_mid pre c post n m : n = length pre -> m = length c -> substr (pre ++ c ++ post) n (Some m) = Ok c.
Proof.
  intros -> ->. unfold substr. rewrite !app_length. destruct (Nat.ltb_spec (length pre + (length c + length post)) (length pre)); [lia|].
  rewrite skipn_pre, firstn_pre. reflexivity.
Qed.
Lemma usub_add a b n : n = a -> usub (a + b) n = Some b.
Proof. intros ->. unfold usub. destruct (Nat.leb_spec a (a + b)); [|lia]. f_equal. lia. Qed.

Lemma start_len k : length (start_tag k) = length k + 2.
Proof. unfold start_tag. rewrite !app_length. cbn. lia. Qed.
Lemma end_len k : length (end_tag k) = length k + 3.
Proof. unfold end_tag. rewrite !app_length. cbn. lia. Qed.

(** ** extraction *)
Lemma extract_content a k rest c r s :
  first_at (opening k) s a rest -> first_at (closing k) rest c r -> absent (opening k) rest -> extractContentBetweenKeys s k = Ok c.
Proof.
  intros F1 F2 A. unfold extractContentBetweenKeys. change (start_tag k) with (opening k). change (end_tag k) with (closing k).
  rewrite (find_first _ _ _ _ F1). destruct F1 as [E1 _]. subst s. rewrite app_assoc.
  rewrite (find_from_pre _ (a ++ opening k)) by (now rewrite app_length). rewrite (find_first _ _ _ _ F2). cbn [option_map].
  rewrite (find_from_pre _ (a ++ opening k)) by (now rewrite app_length). rewrite (find_absent _ _ A). cbn [option_map].
  rewrite usub_add by reflexivity. destruct F2 as [-> _]. apply substr_mid; [now rewrite app_length|reflexivity].
Qed.
Lemma extract_fails k s :
  absent (opening k) s \/ (exists a rest, first_at (opening k) s a rest /\ (absent (closing k) rest \/ ~ absent (opening k) rest)) ->
  extractContentBetweenKeys s k = Throw RuntimeError.
Proof.
  intros H. unfold extractContentBetweenKeys. change (start_tag k) with (opening k). change (end_tag k) with (closing k).
  destruct H as [A|(a & rest & F & H)].
  - now rewrite (find_absent _ _ A).
  - rewrite (find_first _ _ _ _ F). destruct F as [E _]. subst s. rewrite app_assoc.
    rewrite !(find_from_pre _ (a ++ opening k)) by (now rewrite app_length).
    destruct H as [H|H].
    + now rewrite (find_absent _ _ H).
    + destruct (find (closing k) rest); cbn [option_map]; [|reflexivity].
      destruct (not_absent _ _ H) as (a' & r' & F'). rewrite (find_first _ _ _ _ F'). reflexivity.
Qed.

Lemma extract_loop_blocks k : forall n pre s acc, length s < n ->
  exists cs, blocks k s cs /\
    extract_loop n (pre ++ s) (opening k) (closing k) (option_map (Nat.add (length pre)) (find (opening k) s)) acc = Ok (acc ++ cs).
Proof.
  induction n as [|n IH]; intros pre s acc L; [lia|]. cbn [extract_loop].
  destruct (first_or_absent (opening k) s) as [(a & rest & F)|A].
  2:{ exists []. split; [now constructor|]. rewrite (find_absent _ _ A). cbn. now rewrite app_nil_r. }
  rewrite (find_first _ _ _ _ F). cbn [option_map]. pose proof F as [E _].
  assert (W : pre ++ s = (pre ++ a ++ opening k) ++ rest) by (rewrite E, <- !app_assoc; reflexivity).
  rewrite W. rewrite (find_from_pre _ (pre ++ a ++ opening k)) by (rewrite !app_length; lia).
  destruct (first_or_absent (closing k) rest) as [(c & r & G)|A].
  2:{ exists []. split; [now apply (blocks_open k s a rest)|]. rewrite (find_absent _ _ A). cbn. now rewrite app_nil_r. }
  rewrite (find_first _ _ _ _ G). cbn [option_map]. pose proof G as [E' _].
  rewrite usub_add by reflexivity. 
  assert (SB : substr ((pre ++ a ++ opening k) ++ rest) (length pre + length a + length (opening k)) (Some (length c)) = Ok c).
  { rewrite E'. apply substr_mid; [rewrite !app_length; lia|reflexivity]. }
  rewrite SB. cbn [bind].
  set (pre' := pre ++ a ++ opening k ++ c ++ closing k).
  assert (W' : (pre ++ a ++ opening k) ++ rest = pre' ++ r) by (unfold pre'; rewrite E', <- !app_assoc; reflexivity).
  rewrite W'. rewrite (find_from_pre _ pre') by (unfold pre'; rewrite !app_length; lia).
  replace (length pre + length a + length (opening k) + length c + length (closing k)) with (length pre') by (unfold pre'; rewrite !app_length; lia).
  assert (L' : length r < n).
  { subst s. subst rest. rewrite !app_length in L. pose proof (end_len k). unfold end_tag in *. unfold closing in L. lia. }
  destruct (IH pre' r (acc ++ [c]) L') as (cs & B & R). exists (c :: cs). split.
  - now apply (blocks_more k s a rest c r cs).
  - rewrite R. rewrite <- app_assoc. reflexivity.
Qed.
Lemma extract_blocks k s : exists cs, blocks k s cs /\ extractContents s k = Ok cs.
Proof.
  destruct (extract_loop_blocks k (S (length s)) [] s [] ltac:(lia)) as (cs & B & R). exists cs. split; [exact B|].
  cbn [app length] in R. unfold extractContents. change (start_tag k) with (opening k). change (end_tag k) with (closing k).
  rewrite <- R. f_equal. destruct (find (opening k) s); reflexivity.
Qed.
Lemma blocks_unique k s cs : blocks k s cs -> forall cs', blocks k s cs' -> cs = cs'.
Proof.
  induction 1 as [s A|s a rest F A|s a rest c r cs F G B IH]; intros cs' B'; inversion B' as [s' A'|s' a' rest' F' A'|s' a' rest' c' r' cs'' F' G' B'']; subst; auto.
  - destruct (first_not_absent _ _ _ _ F' A).
  - destruct (first_unique _ _ _ _ _ _ F F') as [_ <-]. destruct (first_not_absent _ _ _ _ G' A).
  - destruct (first_not_absent _ _ _ _ F A').
  - destruct (first_unique _ _ _ _ _ _ F F') as [_ <-]. destruct (first_not_absent _ _ _ _ G A').
  - destruct (first_unique _ _ _ _ _ _ F F') as [_ <-]. destruct (first_unique _ _ _ _ _ _ G G') as [<- <-]. f_equal. now apply IH.
Qed.

(** ** tags without '<' inside *)
Definition lt : ascii := "<"%char.
Definition gt : ascii := ">"%char.
Definition slash : ascii := "/"%char.

Lemma no_lt_app (a b : str) : ~ In lt (a ++ b) <-> ~ In lt a /\ ~ In lt b.
Proof. rewrite in_app_iff. tauto. Qed.
(** a pattern that has '<' only at its start cannot straddle the beginning of another tag *)
Lemma before_lt p g t a r : ~ In lt p -> g ++ lt :: t = a ++ (lt :: p) ++ r -> length a < length g -> exists r', g = a ++ (lt :: p) ++ r'.
Proof.
  revert a. induction g as [|c g IH]; intros a N E L; [cbn in L; lia|].
  destruct a as [|c' a].
  - cbn in E. injection E as -> E. clear IH L. cbn.
    enough (H : exists r', g = p ++ r') by (destruct H as [r' ->]; now exists r').
    revert g E. induction p as [|x p IHp]; intros g E; [now exists g|].
    destruct g as [|y g]; cbn in E.
    + injection E as E _. destruct N. left. now symmetry.
    + injection E as -> E. destruct (IHp ltac:(intros H; apply N; now right) g E) as [r' ->]. now exists r'.
  - cbn in E. injection E as -> E. destruct (IH a N E ltac:(cbn in L; lia)) as [r' ->]. now exists r'.
Qed.
Lemma first_after p g t : ~ In lt p -> absent (lt :: p) g -> first_at (lt :: p) (g ++ (lt :: p) ++ t) g t.
Proof.
  intros N A. split; [reflexivity|]. intros a r E. destruct (Nat.le_gt_cases (length g) (length a)) as [|L]; [assumption|].
  change (g ++ lt :: p ++ t = a ++ (lt :: p) ++ r) in E. destruct (before_lt _ _ _ _ _ N E L) as [r' H]. destruct (A _ _ H).
Qed.
Lemma absent_no_lt p g : ~ In lt g -> absent (lt :: p) g.
Proof. intros N a r ->. apply N. rewrite in_app_iff. right. left. reflexivity. Qed.
Lemma opening_cons k : opening k = lt :: (k ++ [gt]).
Proof. reflexivity. Qed.
Lemma closing_cons k : closing k = lt :: (slash :: k ++ [gt]).
Proof. reflexivity. Qed.
Lemma no_lt_tag k : ~ In lt k -> ~ In lt (k ++ [gt]).
Proof. intros N. rewrite no_lt_app. split; [exact N|]. intros [H|[]]. discriminate. Qed.
Lemma no_lt_ctag k : ~ In lt k -> ~ In lt (slash :: k ++ [gt]).
Proof. intros N [H|H]; [discriminate|]. exact (no_lt_tag k N H). Qed.

Lemma shift_eq {A} (c d : A) (k : list A) : forall x y, length x = length y -> c :: k ++ x = k ++ d :: y -> c = d.
Proof.
  revert c. induction k as [|a k IH]; intros c x y L E; cbn in E.
  - injection E as ->. reflexivity.
  - injection E as -> E. exact (IH a x y L E).
Qed.
(** an opening tag is never at a closing tag and conversely *)
Lemma tag_clash k x y : opening k ++ x = closing k ++ y -> False.
Proof.
  rewrite opening_cons, closing_cons. cbn [app]. intros E. injection E as E. rewrite <- !app_assoc in E. cbn [app] in E.
  enough (H : slash = gt) by discriminate H.
  assert (G : forall (k : str) c d (x y : str), k ++ d :: x = c :: k ++ y -> c = d).
  { clear. induction k as [|a k IH]; intros c d x y E; cbn in E.
    - injection E as ->. reflexivity.
    - injection E as -> E. exact (IH _ _ _ _ E). }
  exact (G k slash gt x (gt :: y) E).
Qed.
Lemma absent_cons_inv p c s : (forall r, c :: s <> p ++ r) -> absent p s -> absent p (c :: s).
Proof. intros N A a r E. destruct a as [|c' a]; [exact (N r E)|]. cbn in E. injection E as _ E. exact (A _ _ E). Qed.
Lemma absent_app_no_lt p g s : ~ In lt g -> absent (lt :: p) s -> absent (lt :: p) (g ++ s).
Proof.
  intros N A. induction g as [|c g IH]; [exact A|]. cbn. apply absent_cons_inv.
  - intros r E. cbn in E. injection E as -> _. apply N. now left.
  - apply IH. intros H. apply N. now right.
Qed.
Lemma first_app_no_lt p g s a r : ~ In lt g -> first_at (lt :: p) s a r -> first_at (lt :: p) (g ++ s) (g ++ a) r.
Proof.
  intros N [-> M]. split; [now rewrite app_assoc|]. induction g as [|c g IH]; intros a' r' E; cbn in *; [exact (M _ _ E)|].
  destruct a' as [|c' a']; cbn in *.
  - injection E as -> _. destruct N. now left.
  - injection E as -> E. apply IH in E; [lia|tauto].
Qed.
(** skipping the opening tag when looking for the closing tag *)
Lemma first_closing_skip k s c r : ~ In lt k -> first_at (closing k) s c r -> first_at (closing k) (opening k ++ s) (opening k ++ c) r.
Proof.
  intros N F. rewrite opening_cons. change (lt :: k ++ [gt]) with ([lt] ++ (k ++ [gt])). rewrite <- !app_assoc.
  assert (H : first_at (closing k) ((k ++ [gt]) ++ s) ((k ++ [gt]) ++ c) r) by (rewrite closing_cons in *; apply first_app_no_lt; [now apply no_lt_tag|exact F]).
  rewrite <- !app_assoc in H. destruct H as [E M]. split.
  - cbn [app]. rewrite E at 1. cbn [app]. reflexivity.
  - intros a' r' E'. destruct a' as [|x a'].
    + exfalso. apply (tag_clash k s r'). rewrite opening_cons. cbn [app] in *. rewrite <- app_assoc. exact E'.
    + cbn in E'. injection E' as _ E'. apply M in E'. rewrite !app_length in *. cbn [length] in *. lia.
Qed.
Lemma absent_closing_skip k s : ~ In lt k -> absent (closing k) s -> absent (closing k) (opening k ++ s).
Proof.
  intros N A. rewrite opening_cons. cbn [app]. apply absent_cons_inv.
  - intros r E. apply (tag_clash k s r). exact E.
  - rewrite closing_cons in *. apply absent_app_no_lt; [now apply no_lt_tag|exact A].
Qed.
Lemma absent_opening_skip k s : ~ In lt k -> (absent (opening k) (closing k ++ s) <-> absent (opening k) s).
Proof.
  intros N. split.
  - intros A a r ->. apply (A (closing k ++ a) r). now rewrite <- app_assoc.
  - intros A. rewrite closing_cons. cbn [app]. apply absent_cons_inv.
    + intros r E. symmetry in E. exact (tag_clash k r s E).
    + rewrite opening_cons in *. change (slash :: (k ++ [gt]) ++ s) with ((slash :: k ++ [gt]) ++ s). apply absent_app_no_lt; [now apply no_lt_ctag|exact A].
Qed.
Lemma looks_up_total k s : exists l, looks_up k s l.
Proof.
  destruct (first_or_absent (opening k) s) as [(a & rest & F)|A]; [|exists Missing; now constructor].
  destruct (first_or_absent (closing k) rest) as [(c & r & G)|A]; [|exists Unclosed; now apply (lk_unclosed k s a rest)].
  destruct (first_or_absent (opening k) r) as [(a' & r' & H)|A].
  - exists Repeated. apply (lk_repeated k s a rest c r F G). exact (first_not_absent _ _ _ _ H).
  - exists (Content c). now apply (lk_content k s a rest c r).
Qed.
Lemma looks_up_unique k s l l' : looks_up k s l -> looks_up k s l' -> l = l'.
Proof.
  intros H H'.
  destruct H as [A|a rest F A|a rest c r F G R|a rest c r F G R]; destruct H' as [A'|a' rest' F' A'|a' rest' c' r' F' G' R'|a' rest' c' r' F' G' R'];
    try reflexivity; try (exfalso; exact (first_not_absent _ _ _ _ F' A)); try (exfalso; exact (first_not_absent _ _ _ _ F A'));
    destruct (first_unique _ _ _ _ _ _ F F') as [_ <-];
    try (exfalso; exact (first_not_absent _ _ _ _ G' A)); try (exfalso; exact (first_not_absent _ _ _ _ G A'));
    destruct (first_unique _ _ _ _ _ _ G G') as [<- <-]; try contradiction; reflexivity.
Qed.

(** the common frame of getDoubleValueFromXML, getStringValueFromXML and getIntegerValueFromXML *)
Definition get_frame {A} (xml key : str) (dflt : A) (len : nat -> nat -> option nat) (conv : str -> Res A) : Res A :=
  match find (start_tag key) xml with
  | None => Ok dflt
  | Some a =>
      match find_from (end_tag key) xml a with
      | None => Throw InvalidArgument
      | Some e =>
          match find_from (start_tag key) xml e with
          | Some _ => Throw InvalidArgument
          | None => v <- substr xml (a + length key + 2) (len e a) ;; conv v
          end
      end
  end.
Lemma get_frame_lookup {A} (s k : str) (d : A) len conv l :
  ~ In lt k -> (forall a m, len (a + (length k + 2 + m)) a = Some m) ->
  looks_up k s l ->
  get_frame s k d len conv =
    match l with Missing => Ok d | Unclosed => Throw InvalidArgument | Repeated => Throw InvalidArgument | Content c => conv c end.
Proof.
  intros N LEN H. unfold get_frame. change (start_tag k) with (opening k). change (end_tag k) with (closing k).
  assert (LO : length (opening k) = length k + 2) by exact (start_len k).
  destruct H as [M|a rest F M|a rest c r F G R|a rest c r F G R].
  - now rewrite (find_absent _ _ M).
  - rewrite (find_first _ _ _ _ F). destruct F as [-> _]. rewrite find_from_pre by reflexivity.
    rewrite (find_absent _ _ (absent_closing_skip _ _ N M)). reflexivity.
  - rewrite (find_first _ _ _ _ F). destruct F as [-> _]. rewrite find_from_pre by reflexivity.
    rewrite (find_first _ _ _ _ (first_closing_skip _ _ _ _ N G)). cbn [option_map]. destruct G as [-> _].
    replace (a ++ opening k ++ c ++ closing k ++ r) with ((a ++ opening k ++ c) ++ closing k ++ r) by (rewrite <- !app_assoc; reflexivity).
    rewrite find_from_pre by (now rewrite !app_length).
    assert (R' : ~ absent (opening k) (closing k ++ r)) by (now rewrite absent_opening_skip).
    destruct (not_absent _ _ R') as (a' & r' & F'). rewrite (find_first _ _ _ _ F'). reflexivity.
  - rewrite (find_first _ _ _ _ F). destruct F as [-> _]. rewrite find_from_pre by reflexivity.
    rewrite (find_first _ _ _ _ (first_closing_skip _ _ _ _ N G)). cbn [option_map]. destruct G as [-> _].
    replace (a ++ opening k ++ c ++ closing k ++ r) with ((a ++ opening k ++ c) ++ closing k ++ r) by (rewrite <- !app_assoc; reflexivity).
    rewrite find_from_pre by (now rewrite !app_length). rewrite (find_absent _ _ (proj2 (absent_opening_skip k r N) R)). cbn [option_map].
    replace (length a + length (opening k ++ c)) with (length a + (length k + 2 + length c)) by (rewrite app_length, LO; lia).
    rewrite LEN. replace ((a ++ opening k ++ c) ++ closing k ++ r) with ((a ++ opening k) ++ c ++ closing k ++ r) by (rewrite <- !app_assoc; reflexivity).
    rewrite substr_mid by (rewrite ?app_length; lia). reflexivity.
Qed.

(** ** characters *)
Lemma space_iff c : is_space c = true <-> In c spaces.
Proof.
  unfold spaces. split.
  - intros H. assert (K : In (code c) [32; 9; 10; 11; 12; 13]).
    { unfold is_space in H. apply orb_true_iff in H. destruct H as [H|H].
      - apply Nat.eqb_eq in H. now left.
      - apply andb_true_iff in H. destruct H as [H1 H2]. apply Nat.leb_le in H1, H2. cbn. lia. }
    rewrite <- (ascii_nat_embedding c). apply in_map. exact K.
  - intros H. cbn in H. repeat (destruct H as [<-|H]; [reflexivity|]). destruct H.
Qed.
Lemma despaced_filter s : despaced s (filter (fun c => negb (is_space c)) s).
Proof.
  induction s as [|c s IH]; cbn; [constructor|]. destruct (is_space c) eqn:E; cbn.
  - apply ds_drop; [now apply space_iff|exact IH].
  - apply ds_keep; [|exact IH]. intros H. apply space_iff in H. congruence.
Qed.
Lemma despaced_fun s t : despaced s t -> t = filter (fun c => negb (is_space c)) s.
Proof.
  induction 1 as [|c s t H D IH|c s t H D IH]; cbn; [reflexivity| |].
  - apply space_iff in H. rewrite H. exact IH.
  - destruct (is_space c) eqn:E; [apply space_iff in E; contradiction|]. cbn. now f_equal.
Qed.
Lemma plain_negative s : plain s <-> existsb negative s = false.
Proof.
  unfold plain, negative, code. split.
  - intros H. destruct (existsb _ s) eqn:E; [|reflexivity]. apply existsb_exists in E. destruct E as (c & I & L). apply Nat.leb_le in L. apply H in I. lia.
  - intros H c I. destruct (Nat.lt_ge_cases (nat_of_ascii c) 128) as [|L]; [assumption|]. exfalso. apply Nat.leb_le in L.
    assert (X : existsb (fun c => 128 <=? nat_of_ascii c) s = true) by (apply existsb_exists; now exists c). congruence.
Qed.
Lemma removeSpaces_plain s t : plain s -> despaced s t -> removeSpaces s = Ok t.
Proof. intros P D. unfold removeSpaces. rewrite (proj1 (plain_negative s) P). now rewrite (despaced_fun _ _ D). Qed.
Lemma removeSpaces_inv s t : removeSpaces s = Ok t -> plain s /\ despaced s t.
Proof.
  unfold removeSpaces. destruct (existsb negative s) eqn:E; [discriminate|]. intros [= <-]. split; [now apply plain_negative|apply despaced_filter].
Qed.
