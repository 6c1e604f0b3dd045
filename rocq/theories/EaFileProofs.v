(** Lemmas about the population files. *)
From Coq Require Import Ascii String ZArith Bool Arith Reals Lra List Lia.
From Verif Require Import Base StM Num RealNum VecModel MatModel MatSpec StrModel StrSpec StrProofs StrNum StrReal DriverSpec DriverText ExtModel ExtSpec ExtProofs CsvModel CsvSpec CsvProofs
  DriverDemo PropsStr EaModel EaProofs EaFileModel EaFileSpec.
Import ListNotations.

(** *** cells *)
Lemma cells_nonempty s l : cells_of s l -> l <> []. Proof. intros []; discriminate. Qed.
Lemma until_last a : ~ In ","%char a -> until_comma a = (a, None).
Proof.
  induction a as [|c a IH]; intros H; cbn [until_comma]; [reflexivity|]. destruct (Ascii.eqb_spec c ","%char) as [->|]; [destruct H; now left|].
  rewrite IH by (intros I; apply H; now right). reflexivity.
Qed.
Lemma until_more a r : ~ In ","%char a -> until_comma (a ++ ","%char :: r) = (a, Some r).
Proof.
  induction a as [|c a IH]; intros H; cbn [app until_comma]; [reflexivity|]. destruct (Ascii.eqb_spec c ","%char) as [->|]; [destruct H; now left|].
  rewrite IH by (intros I; apply H; now right). reflexivity.
Qed.
Lemma cells_exist s : exists l, cells_of s l.
Proof.
  induction s as [|c s (l & IH)]; [exists [[]]; constructor; intros []|].
  destruct (ascii_dec c ","%char) as [->|N]. { exists ([] :: l). apply (cells_more [] s l); [intros []|exact IH]. }
  destruct IH as [a H|a r l H C].
  - exists [c :: a]. constructor. intros [E|I]; [congruence|auto].
  - exists ((c :: a) :: l). apply (cells_more (c :: a) r l); [|exact C]. intros [E|I]; [congruence|auto].
Qed.
Lemma cells_fun s l l' : cells_of s l -> cells_of s l' -> l = l'.
Proof.
  intros H. revert l'. induction H as [a H|a r l H C IH]; intros l' H'.
  - apply until_last in H. destruct H' as [b B|b s k B K]; [reflexivity|]. rewrite (until_more _ _ B) in H. discriminate.
  - pose proof (until_more a r H) as U. inversion H' as [b B|b s k B K E]; subst.
    + rewrite (until_last _ B) in U. discriminate.
    + pose proof (until_more b s B) as U'. rewrite E in U'. rewrite U in U'. injection U' as -> ->. f_equal. auto.
Qed.
(** where a stream stands: the cells it has not given yet *)
Definition stands (c : cursor) (l : list str) : Prop := match fst c with None => l = [] | Some s => cells_of s l end.
Lemma next_stands c l : stands c l -> stands (next_cell c) (tl l) /\ snd (next_cell c) = hd (snd c) l.
Proof.
  unfold stands, next_cell. destruct c as [[s|] t]; cbn [fst snd].
  - intros [a H|a r k H C]; [rewrite (until_last _ H)|rewrite (until_more _ _ H)]; cbn; auto.
  - intros ->. cbn. auto.
Qed.
Lemma hd_token l k t : l <> [] -> (k = 0 \/ t = token l (k - 1)) -> hd t (skipn k l) = token l k.
Proof.
  intros NE H. unfold token in *. destruct (le_lt_dec (length l) k) as [L|L].
  - rewrite skipn_all2 by exact L. cbn. destruct H as [->|H]; [destruct l; [congruence|cbn in L; lia]|]. rewrite (nth_overflow l _ L). rewrite H.
    destruct (le_lt_dec (length l) (k - 1)) as [L'|L']; [now apply nth_overflow|]. assert (k = length l) by lia. subst k.
    destruct (exists_last NE) as (m & x & ->). rewrite last_last, app_length, Nat.add_sub. now rewrite app_nth2, Nat.sub_diag by lia.
  - clear H. revert k L. generalize (last l []). induction l as [|a l IH]; intros d k L; [cbn in L; lia|]. destruct k; [reflexivity|]. cbn [skipn nth]. cbn in L.
    destruct l as [|b l]; [cbn in L; lia|]. apply IH; [discriminate|lia].
Qed.
(** after [k] tokens *)
Definition after (l : list str) (k : nat) (c : cursor) : Prop := stands c (skipn k l) /\ (k = 0 \/ snd c = token l (k - 1)).
Lemma after_start s l : cells_of s l -> after l 0 (Some s, []). Proof. split; [exact H|auto]. Qed.
Lemma after_next l k c : l <> [] -> after l k c -> after l (S k) (next_cell c) /\ snd (next_cell c) = token l k.
Proof.
  intros NE [SD T]. apply next_stands in SD. destruct SD as [SD E]. rewrite (hd_token l k (snd c) NE T) in E. split; [|exact E]. split.
  - replace (skipn (S k) l) with (tl (skipn k l)); [exact SD|]. clear. revert l. induction k as [|k IH]; intros l; [destruct l; reflexivity|]. destruct l; [reflexivity|]. cbn [skipn]. apply IH.
  - right. rewrite E. f_equal. lia.
Qed.
Lemma read_cell_ok {A} (parse : str -> Res A) l k c v c' : l <> [] -> after l k c ->
  (read_cell parse c = Ok (v, c') <-> token l k <> [] /\ parse (token l k) = Ok v /\ c' = next_cell c).
Proof.
  intros NE AF. destruct (after_next l k c NE AF) as [_ E]. unfold read_cell. cbv zeta. rewrite E. split.
  - destruct (token l k) eqn:TK; [discriminate|]. cbn [is_empty]. destruct (parse _) as [w|x|]; cbn [bind]; try discriminate. intros [= <- <-]. repeat split; auto. discriminate.
  - intros (N & P & ->). destruct (token l k); [congruence|]. cbn [is_empty]. rewrite P. reflexivity.
Qed.
Lemma read_cells_ok l d : l <> [] -> forall k c (g : list R), after l k c ->
  (read_cells d c = Ok g <-> length g = d /\ forall j, j < d -> token l (k + j) <> [] /\ stod (token l (k + j)) = Ok (nth j g 0%R)).
Proof.
  intros NE. induction d as [|d IH]; intros k c g AF; cbn [read_cells].
  - split. { intros [= <-]. split; [reflexivity|lia]. } intros [L _]. destruct g; [reflexivity|discriminate].
  - destruct (after_next l k c NE AF) as [AN _]. split.
    + destruct (read_cell stod c) as [[v c']|x|] eqn:E; cbn [bind]; try discriminate. apply (read_cell_ok _ l k) in E; auto. destruct E as (N & P & ->). cbn [fst snd].
      destruct (read_cells d (next_cell c)) as [r|x|] eqn:E; cbn [bind]; try discriminate. intros [= <-]. apply (IH (S k)) in E; auto. destruct E as [L E]. split; [cbn; congruence|].
      intros [|j] J; [rewrite Nat.add_0_r; auto|]. cbn [nth]. replace (k + S j) with (S k + j) by lia. apply E. lia.
    + intros [L H]. destruct g as [|v g]; [discriminate|]. destruct (H 0 ltac:(lia)) as [N P]. rewrite Nat.add_0_r in N, P. cbn [nth] in P.
      replace (read_cell stod c) with (Ok (v, next_cell c)) by (symmetry; apply (read_cell_ok stod l k); auto). cbn [bind fst snd].
      replace (read_cells d (next_cell c)) with (Ok g); [reflexivity|]. symmetry. apply (IH (S k)); auto. split; [cbn in L; lia|]. intros j J. specialize (H (S j) ltac:(lia)). replace (S k + j) with (k + S j) by lia. exact H.
Qed.
Lemma stoi_integer t z : stoi t = Ok z <-> integer_text t z.
Proof.
  split.
  - intros H. apply stoi_inv in H. destruct H as (sp & neg & sg & ds & n & r & -> & S & G & D & NE & ND & -> & B). constructor; auto.
  - intros [sp neg sg ds n r S G D NE ND B]. rewrite (stoi_reads sp neg sg ds n r S G D NE ND). destruct (Z.ltb_spec (with_sign neg n) int_min) as [X|_]; [unfold int_min in X; lia|]. destruct (Z.ltb_spec int_max (with_sign neg n)) as [X|_]; [unfold int_max in X; lia|]. reflexivity.
Qed.
(** a line is read as an individual exactly when it holds that individual *)
Lemma read_ind_iff d line (i : ind R) : read_ind d line = Ok i <-> row_of d line i.
Proof.
  destruct (cells_exist line) as (l & C). pose proof (cells_nonempty _ _ C) as NE. pose proof (after_start _ _ C) as A0.
  pose proof (after_next _ _ _ NE A0) as [A1 _]. pose proof (after_next _ _ _ NE A1) as [A2 _]. pose proof (after_next _ _ _ NE A2) as [A3 _].
  pose proof (after_next _ _ _ NE A3) as [A4 _]. pose proof (after_next _ _ _ NE A4) as [A5 _]. unfold read_ind. split.
  - destruct (read_cell stoi _) as [[z c1]|x|] eqn:E0; cbn [bind]; try discriminate. apply (read_cell_ok _ l 0) in E0; auto. destruct E0 as (N0 & P0 & ->). cbn [fst snd].
    destruct (read_cell stod _) as [[o c2]|x|] eqn:E1; cbn [bind]; try discriminate. apply (read_cell_ok _ l 1) in E1; auto. destruct E1 as (N1 & P1 & ->). cbn [fst snd].
    destruct (read_cell stod _) as [[f c3]|x|] eqn:E2; cbn [bind]; try discriminate. apply (read_cell_ok _ l 2) in E2; auto. destruct E2 as (N2 & P2 & ->). cbn [fst snd].
    destruct (read_cell stod _) as [[r c4]|x|] eqn:E3; cbn [bind]; try discriminate. apply (read_cell_ok _ l 3) in E3; auto. destruct E3 as (N3 & P3 & ->). cbn [fst snd].
    destruct (read_cell stod _) as [[e c5]|x|] eqn:E4; cbn [bind]; try discriminate. apply (read_cell_ok _ l 4) in E4; auto. destruct E4 as (N4 & P4 & ->). cbn [fst snd].
    destruct (read_cells d _) as [g|x|] eqn:E5; cbn [bind]; try discriminate. apply (read_cells_ok l d NE 5) in E5; auto. destruct E5 as (L & G).
    unfold ind_initGenes. cbn [i_dim iset_id ind_new]. rewrite L, Nat.eqb_refl. cbn [negb bind]. unfold ind_setRep. change (@nleb R _) with Rleb. cbn [n0 n1 RNum].
    destruct (Rleb_spec r 0) as [X|R0]; [discriminate|]. destruct (Rleb_spec 1 r) as [X|R1]; [discriminate|]. cbn [bind]. unfold ind_setDeath. change (@nltb R _) with Rltb. cbn [n0 n1 RNum].
    destruct (Rltb_spec e 0) as [X|D0]; [discriminate|]. destruct (Rltb_spec 1 e) as [X|D1]; [discriminate|]. cbn [iset_genes iset_obj iset_fit iset_id ind_new i_id i_dim i_genes i_obj i_fit i_rep i_death].
    intros [= <-]. exists l, z. cbn [i_id i_dim i_genes i_obj i_fit i_rep i_death].
    split; [exact C|]. split. { intros k K. destruct k as [|[|[|[|[|k]]]]]; auto. destruct (G k ltac:(lia)); auto. }
    split; [now apply stoi_integer|]. split. { apply Z2Nat.id. apply Z.mod_pos_bound. lia. }
    split; [now apply stod_number_of|]. split; [now apply stod_number_of|]. split; [now apply stod_number_of|]. split; [lra|]. split; [now apply stod_number_of|]. split; [lra|].
    split; [reflexivity|]. split; [exact L|]. intros k K. destruct (G k K). now apply stod_number_of.
  - intros (l' & z & C' & N & P0 & ID & P1 & P2 & P3 & RB & P4 & DB & DM & L & G). rewrite (cells_fun _ _ _ C' C) in *. clear C' l'.
    apply stoi_integer in P0. apply stod_number_of in P1, P2, P3, P4.
    replace (read_cell stoi (Some line, [])) with (Ok (z, next_cell (Some line, []))) by (symmetry; apply (read_cell_ok stoi l 0); auto; repeat split; auto; apply N; lia). cbn [bind fst snd].
    rewrite (proj2 (read_cell_ok stod l 1 _ (i_obj i) _ NE A1) (conj (N 1 ltac:(lia)) (conj P1 eq_refl))). cbn [bind fst snd].
    rewrite (proj2 (read_cell_ok stod l 2 _ (i_fit i) _ NE A2) (conj (N 2 ltac:(lia)) (conj P2 eq_refl))). cbn [bind fst snd].
    rewrite (proj2 (read_cell_ok stod l 3 _ (i_rep i) _ NE A3) (conj (N 3 ltac:(lia)) (conj P3 eq_refl))). cbn [bind fst snd].
    rewrite (proj2 (read_cell_ok stod l 4 _ (i_death i) _ NE A4) (conj (N 4 ltac:(lia)) (conj P4 eq_refl))). cbn [bind fst snd].
    rewrite (proj2 (read_cells_ok l d NE 5 _ (i_genes i) A5)). 2:{ split; [exact L|]. intros j J. split; [apply N; lia|]. apply stod_number_of. now apply G. }
    cbn [bind]. unfold ind_initGenes. cbn [i_dim iset_id ind_new]. rewrite L, Nat.eqb_refl. cbn [negb bind]. unfold ind_setRep. change (@nleb R _) with Rleb. cbn [n0 n1 RNum].
    destruct (Rleb_spec (i_rep i) 0) as [X|R0]; [lra|]. destruct (Rleb_spec 1 (i_rep i)) as [X|R1]; [lra|]. cbn [bind]. unfold ind_setDeath. change (@nltb R _) with Rltb. cbn [n0 n1 RNum].
    destruct (Rltb_spec (i_death i) 0) as [X|D0]; [lra|]. destruct (Rltb_spec 1 (i_death i)) as [X|D1]; [lra|]. cbn [iset_genes iset_obj iset_fit iset_id ind_new i_id i_dim i_genes i_obj i_fit i_rep i_death].
    rewrite <- ID, Nat2Z.id. destruct i; cbn in *; subst; reflexivity.
Qed.

(** *** numbers in scientific notation *)
Lemma sci_chars x t : scientific_text_of x t -> t <> [] /\ ~ In ","%char t /\ ~ In nl t.
Proof.
  intros (d & fp & f & eneg & es & e & D & DF & LF & DE & LE & -> & _). apply decimal_digits in DF, DE. unfold all_digits in *. rewrite Forall_forall in DF, DE.
  assert (K : forall c, In c ((if Rltb x 0 then lit "-" else []) ++ [digit d] ++ lit "." ++ fp ++ lit "e" ++ (if eneg then lit "-" else lit "+") ++ es) ->
    is_digit c = true \/ In c (lit "-+.e")).
  { intros c J. repeat (apply in_app_or in J; destruct J as [J|J]); auto.
    - destruct (Rltb x 0); [right; destruct J as [<-|[]]; cbn; auto|destruct J].
    - left. destruct J as [<-|[]]. apply is_digit_iff. eauto.
    - right. destruct J as [<-|[]]. cbn. auto.
    - right. destruct J as [<-|[]]. cbn. auto.
    - right. destruct eneg; destruct J as [<-|[]]; cbn; auto. }
  split. { intros E. apply app_eq_nil in E. destruct E as [_ E]. discriminate. }
  split; intros I; apply K in I; destruct I as [I|I]; try discriminate I; cbn in I; repeat (destruct I as [I|I]; [discriminate I|]); destruct I.
Qed.
Lemma sci_reads x t : scientific_text_of x t -> printable x -> exists y, stod t = Ok y /\ ten_digits_of x y.
Proof.
  intros (d & fp & f & eneg & es & e & D & DF & LF & DE & LE & -> & H) B.
  set (neg := Rltb x 0). set (M := (Z.of_nat d * 1000000000 + f)%Z) in *. set (E := (with_sign eneg e - 9)%Z) in *.
  pose proof (decimal_bound _ _ DF) as FB. rewrite LF in FB. change (10 ^ Z.of_nat 9)%Z with 1000000000%Z in FB.
  assert (NT : number_text ((if neg then lit "-" else []) ++ [digit d] ++ lit "." ++ fp ++ lit "e" ++ (if eneg then lit "-" else lit "+") ++ es) (with_sign neg M) E).
  { pose proof (number_is [] neg (if neg then lit "-" else []) [digit d] (Z.of_nat d) (lit "." ++ fp) 9 f (lit "e" ++ (if eneg then lit "-" else lit "+") ++ es) (with_sign eneg e) []) as Q.
    rewrite app_nil_r in Q. cbn [app lit list_ascii_of_string] in *. change (10 ^ Z.of_nat 9)%Z with 1000000000%Z in Q. apply Q; clear Q.
    - constructor.
    - destruct neg; constructor.
    - apply (dec_snoc [] 0 d); [constructor|exact D].
    - discriminate.
    - rewrite <- LF. apply (fr_some fp f DF).
    - apply (ex_some "e"%char eneg (if eneg then lit "-" else lit "+") es e); auto; [destruct eneg; constructor|]. intros ->. cbn in LE. lia.
    - exact I. }
  assert (P : (0 < powerRZ 10 E)%R) by (apply powerRZ_lt; lra).
  assert (M0 : (0 <= M)%Z) by (unfold M; lia).
  assert (AB : (Rabs (IZR (with_sign neg M) * powerRZ 10 E) = IZR M * powerRZ 10 E)%R).
  { rewrite Rabs_mult, (Rabs_pos_eq (powerRZ 10 E)) by lra. f_equal. rewrite <- abs_IZR. f_equal. unfold with_sign. destruct neg; lia. }
  exists (IZR (with_sign neg M) * powerRZ 10 E)%R.
  destruct H as [[X0 Z0]|[DP H]].
  - assert (W : with_sign neg M = 0%Z) by (unfold with_sign; destruct neg; lia). split; [|left; rewrite W, X0; split; lra]. apply stod_number; [exact NT| |now left]. rewrite W, Rmult_0_l, Rabs_R0.
    pose proof (range_max 0%R) as RM. rewrite Rabs_R0 in RM. apply RM. lra.
  - assert (MB : (1000000000 <= M < 10000000000)%Z) by (unfold M; lia).
    assert (MR : (1000000000 <= IZR M)%R) by (apply IZR_le; lia).
    assert (H' : (- (powerRZ 10 E / 2) <= IZR M * powerRZ 10 E - Rabs x <= powerRZ 10 E / 2)%R) by (apply Rabs_le_between; exact H).
    assert (XP : (0 < Rabs x)%R) by nra. destruct B as [->|[B1 B2]]; [rewrite Rabs_R0 in XP; lra|].
    split.
    + apply stod_number; [exact NT| |right]; rewrite AB; nra.
    + right. exists (with_sign neg M), E. split; [unfold with_sign; destruct neg; lia|]. split; [reflexivity|].
      unfold with_sign, neg. destruct (Rltb_spec x 0) as [X|X].
      * rewrite Rabs_left in H' by exact X. rewrite opp_IZR. apply Rabs_le. lra.
      * rewrite Rabs_pos_eq in H' by lra. apply Rabs_le. lra.
Qed.
Lemma ten_close x y : ten_digits_of x y -> (Rabs (x - y) <= / 2000000000 * Rabs y)%R.
Proof.
  intros [[-> ->]|(M & E & B & -> & H)]. { rewrite Rminus_0_r, Rabs_R0. lra. }
  eapply Rle_trans; [exact H|]. rewrite Rabs_mult. assert (P : (0 < powerRZ 10 E)%R) by (apply powerRZ_lt; lra). rewrite (Rabs_right (powerRZ 10 E)) by lra.
  rewrite <- abs_IZR. assert (L : (1000000000 <= IZR (Z.abs M))%R) by (apply IZR_le; lia). nra.
Qed.
Lemma ten_pos x y : ten_digits_of x y -> (0 < x)%R -> (0 < y)%R.
Proof. intros H X. apply ten_close in H. apply Rabs_le_between in H. unfold Rabs in H. destruct (Rcase_abs y); nra. Qed.
Lemma ten_nonneg x y : ten_digits_of x y -> (0 <= x)%R -> (0 <= y)%R.
Proof. intros H [X|X]; [left; eauto using ten_pos|]. apply ten_close in H. apply Rabs_le_between in H. unfold Rabs in H. destruct (Rcase_abs y); nra. Qed.
Lemma ten_below_one x y : ten_digits_of x y -> (0 <= x <= 1 - / 1000000000)%R -> (y < 1)%R.
Proof. intros H [X0 X1]. pose proof (ten_nonneg _ _ H X0). apply ten_close in H. apply Rabs_le_between in H. rewrite (Rabs_pos_eq y) in H by assumption. lra. Qed.
Lemma ten_one x y : ten_digits_of x y -> (0 <= x <= 1)%R -> (y <= 1)%R.
Proof.
  intros H [X0 X1]. pose proof (ten_nonneg _ _ H X0) as Y0. destruct (Rle_lt_dec y 1) as [L|L]; [exact L|exfalso].
  destruct H as [[-> ->]|(M & E & B & EY & H)]; [lra|]. assert (P : (0 < powerRZ 10 E)%R) by (apply powerRZ_lt; lra).
  apply Rabs_le_between in H. assert (MP : (0 < IZR M)%R) by (subst y; nra). apply lt_IZR in MP. rewrite Z.abs_eq in B by lia.
  assert (ML : (1000000000 <= IZR M < 10000000000)%R) by (split; [apply IZR_le|apply IZR_lt]; lia).
  destruct (Z_lt_le_dec E (-9)) as [EL|EL].
  - assert (Q : (powerRZ 10 E <= powerRZ 10 (-10))%R) by (apply powerRZ_le_mono; lia). assert (V : powerRZ 10 (-10) = (/ 10000000000)%R) by (change (-10)%Z with (- Z.of_nat 10)%Z; rewrite powerRZ_neg', <- pow_powerRZ, <- IZR_pow10; reflexivity). rewrite V in Q. subst y. nra.
  - destruct (Z_lt_le_dec E 1) as [EU|EU].
    + assert (CE : exists k, (E = - Z.of_nat k)%Z /\ k <= 9) by (exists (Z.to_nat (- E)); lia). destruct CE as (k & -> & K).
      rewrite powerRZ_neg' in *. rewrite <- pow_powerRZ in *. pose proof (pow10_pos k) as T. set (T' := (10 ^ k)%R) in *.
      assert (EY' : (y * T' = IZR M)%R) by (subst y; field; lra).
      assert (ET : T' = IZR (10 ^ Z.of_nat k)) by (unfold T'; now rewrite IZR_pow10).
      assert (MG : (10 ^ Z.of_nat k < M)%Z). { apply lt_IZR. rewrite <- ET, <- EY'. nra. }
      assert (MG' : (T' + 1 <= IZR M)%R). { rewrite ET, <- plus_IZR. apply IZR_le. lia. }
      assert (PT : (/ T' * T' = 1)%R) by (field; lra). assert (H1 : (y - x <= / T' / 2)%R) by lra. assert (H2 : ((y - x) * T' <= / T' / 2 * T')%R) by (apply Rmult_le_compat_r; lra).
      assert (H3 : (x * T' <= 1 * T')%R) by (apply Rmult_le_compat_r; lra). lra.
    + assert (Q : (powerRZ 10 1 <= powerRZ 10 E)%R) by (apply powerRZ_le_mono; lia). rewrite powerRZ_1 in Q. assert (H1 : (1000000000 * powerRZ 10 E <= IZR M * powerRZ 10 E)%R) by (apply Rmult_le_compat_r; lra). lra.
Qed.

(** *** a whole file *)
Lemma cells_joined l : l <> [] -> (forall a, In a l -> ~ In ","%char a) -> cells_of (joined (lit ",") l) l.
Proof.
  induction l as [|a l IH]; [congruence|]. intros _ H. destruct l as [|b l]. { constructor. apply H. now left. }
  change (joined (lit ",") (a :: b :: l)) with (a ++ ","%char :: joined (lit ",") (b :: l)). constructor; [apply H; now left|]. apply IH; [discriminate|]. intros c I. apply H. now right.
Qed.
Lemma joined_cons a b l : joined (lit ",") (a :: b :: l) = a ++ lit "," ++ joined (lit ",") (b :: l). Proof. reflexivity. Qed.
Lemma joined_tail a l : joined (lit ",") (a :: l) = a ++ concat (map (fun g => lit "," ++ g) l).
Proof. revert a. induction l as [|b l IH]; intros a; [now rewrite app_nil_r|]. rewrite joined_cons, IH. cbn [map concat]. now rewrite <- app_assoc. Qed.
Section Written.
  Context (scientific : R -> str) (SC : forall x, scientific_text_of x (scientific x)).
  Definition texts (i : ind R) : list str := int_text (Z.of_nat (i_id i)) :: scientific (i_obj i) :: scientific (i_fit i) :: scientific (i_rep i) :: scientific (i_death i) :: map scientific (i_genes i).
  Lemma ind_line_texts i : ind_line scientific i = joined (lit ",") (texts i) ++ newline.
  Proof.
    unfold texts, ind_line. rewrite !joined_cons, joined_tail, !map_map. rewrite <- !app_assoc. do 9 f_equal.
  Qed.
  Lemma texts_ok i a : In a (texts i) -> a <> [] /\ ~ In ","%char a /\ ~ In nl a.
  Proof.
    intros [<-|I].
    - destruct (int_text_nat (Z.of_nat (i_id i)) ltac:(lia)) as [_ NE]. split; [exact NE|]. split; intros J; apply int_chars in J; destruct J as [J|J]; discriminate J.
    - assert (exists x, a = scientific x) as (x & ->). { repeat (destruct I as [<-|I]; [eauto|]). apply in_map_iff in I. destruct I as (x & <- & _). eauto. }
      exact (sci_chars _ _ (SC x)).
  Qed.
  Lemma line_plain i : ~ In nl (joined (lit ",") (texts i)).
  Proof. intros I. apply in_joined in I. destruct I as [[I|[]]|(a & J & I)]; [discriminate I|]. apply texts_ok in J. tauto. Qed.
  Lemma token_texts i k : token (texts i) k = nth k (texts i) (last (texts i) []). Proof. reflexivity. Qed.
  Lemma line_row d i : keepable d i -> exists j, row_of d (joined (lit ",") (texts i)) j /\ same_to_ten_digits i j.
  Proof.
    intros (ID & L & PG & PO & PF & PR & PD & RB & DB).
    destruct (sci_reads _ _ (SC (i_obj i)) PO) as (o & O1 & O2). destruct (sci_reads _ _ (SC (i_fit i)) PF) as (f & F1 & F2).
    destruct (sci_reads _ _ (SC (i_rep i)) PR) as (r & R1 & R2). destruct (sci_reads _ _ (SC (i_death i)) PD) as (e & D1 & D2).
    assert (G : exists gs, length gs = d /\ Forall2 ten_digits_of (i_genes i) gs /\ forall k, k < d -> stod (nth k (map scientific (i_genes i)) []) = Ok (nth k gs 0%R)).
    { clear - PG L SC. revert d L PG. induction (i_genes i) as [|g l IH]; intros d L PG. { exists []. cbn in L. subst. repeat split; [constructor|lia]. }
      destruct (IH (length l) eq_refl) as (gs & LG & F & N). { intros g' I. apply PG. now right. } destruct (sci_reads _ _ (SC g)) as (y & Y1 & Y2). { apply PG. now left. }
      exists (y :: gs). cbn in L. subst d. split; [cbn; congruence|]. split; [now constructor|]. intros [|k] K; [exact Y1|]. cbn [map nth]. apply N. lia. }
    destruct G as (gs & LG & G1 & G2). exists (mkI (i_id i) (length (i_genes i)) gs o f r e). split.
    - exists (texts i), (Z.of_nat (i_id i)). cbn [i_id i_dim i_genes i_obj i_fit i_rep i_death].
      assert (LT : length (texts i) = 5 + d) by (unfold texts; cbn [length]; rewrite map_length; lia).
      assert (TK : forall k, k < 5 + d -> token (texts i) k = nth k (texts i) []) by (intros k K; unfold token; apply nth_indep; lia).
      split. { apply cells_joined; [discriminate|]. intros a I. apply texts_ok in I. tauto. }
      split. { intros k K. rewrite TK by exact K. assert (I : In (nth k (texts i) []) (texts i)) by (apply nth_In; lia). apply texts_ok in I. tauto. }
      rewrite !TK by lia. cbn [texts nth].
      split. { apply stoi_integer. apply stoi_int_text. unfold int_min, int_max. lia. }
      split. { symmetry. apply Z.mod_small. lia. }
      split; [now apply stod_number_of|]. split; [now apply stod_number_of|]. split; [now apply stod_number_of|].
      split. { split; [apply (ten_pos _ _ R2); lra|apply (ten_below_one _ _ R2); lra]. }
      split; [now apply stod_number_of|]. split. { split; [apply (ten_nonneg _ _ D2); lra|apply (ten_one _ _ D2); lra]. }
      split; [exact L|]. split; [exact LG|]. intros k K. rewrite TK by lia. cbn [Nat.add]. unfold texts. cbn [nth]. apply stod_number_of. now apply G2.
    - repeat split; cbn [i_id i_dim i_genes i_obj i_fit i_rep i_death]; auto.
  Qed.
  Lemma header_plain d : exists h, pop_header d = h ++ newline /\ ~ In nl h.
  Proof.
    unfold pop_header. eexists (_ ++ _). rewrite <- app_assoc. split; [reflexivity|]. intros I. apply in_app_or in I. destruct I as [I|I].
    - cbn in I. repeat (destruct I as [I|I]; [discriminate I|]). destruct I.
    - apply in_concat in I. destruct I as (x & X & I). apply in_map_iff in X. destruct X as (k & <- & _). apply in_app_or in I. destruct I as [I|I].
      + cbn in I. repeat (destruct I as [I|I]; [discriminate I|]). destruct I.
      + apply int_chars in I. destruct I as [I|I]; discriminate I.
  Qed.
  Lemma file_lines d is : exists h, pieces nl (pop_header d ++ concat (map (ind_line scientific) is)) = h :: map (fun i => joined (lit ",") (texts i)) is.
  Proof.
    destruct (header_plain d) as (h & -> & H). exists h. rewrite <- app_assoc. change (newline ++ ?t) with (nl :: t). rewrite pieces_app by exact H. f_equal.
    assert (E : concat (map (ind_line scientific) is) = concat (map (fun a => a ++ [nl]) (map (fun i => joined (lit ",") (texts i)) is)) ++ []).
    { rewrite app_nil_r, map_map. f_equal. apply map_ext. intros i. apply ind_line_texts. }
    rewrite E, pieces_concat; [now rewrite app_nil_r|]. intros a I. apply in_map_iff in I. destruct I as (i & <- & _). apply line_plain.
  Qed.
End Written.
(** reading lines adds the individuals of the readable lines before the first unreadable one *)
Lemma add_dim (p q : pop R) i : pop_add p i = Ok q -> p_dim q = p_dim p.
Proof. intros H. apply add_eq in H. subst q. unfold pop_minmax. destruct (_ <! _); destruct (_ <! _); reflexivity. Qed.
Lemma add_ok (p : pop R) i : i_dim i = p_dim p -> pop_add p i = Ok (pop_minmax (i_obj i) (i_id i) (pset_inds (p_inds p ++ [i]) p)).
Proof. intros E. unfold pop_add. rewrite E, Nat.eqb_refl. reflexivity. Qed.
Lemma row_dim d l i : row_of d l i -> i_dim i = d.
Proof. intros (? & ? & H). tauto. Qed.
Lemma read_lines_rows ls : forall (p : pop R) is, Forall2 (row_of (p_dim p)) ls is -> exists q, pop_addGroup p is = Ok q /\ read_lines ls p = (q, Ok tt).
Proof.
  induction ls as [|l ls IH]; intros p is F; inversion F as [|? i ? is' H F']; subst; cbn [read_lines pop_addGroup]; [eexists; split; reflexivity|].
  rewrite (add_ok p i (row_dim _ _ _ H)). cbn [bind]. set (q := pop_minmax _ _ _).
  assert (A : pop_add p i = Ok q) by (apply add_ok; exact (row_dim _ _ _ H)). pose proof (add_dim _ _ _ A) as DQ. rewrite <- DQ in F'. destruct (IH q is' F') as (q' & A' & R'). exists q'. split; [exact A'|].
  unfold sbind at 1, sget. unfold sbind at 1, slift at 1. apply read_ind_iff in H. rewrite H. unfold sbind at 1, slift. rewrite A. unfold sbind, smod. exact R'.
Qed.
Lemma read_lines_fail ls l rest : forall (p : pop R) is, Forall2 (row_of (p_dim p)) ls is -> (forall i, ~ row_of (p_dim p) l i) ->
  exists q x, pop_addGroup p is = Ok q /\ read_lines (ls ++ l :: rest) p = (q, x) /\ x = match read_ind (p_dim p) l with Throw e => Throw e | _ => UB end.
Proof.
  induction ls as [|l0 ls IH]; intros p is F N; inversion F as [|? i ? is' H F']; subst; cbn [app read_lines pop_addGroup].
  - eexists p, _. split; [reflexivity|]. split; [|reflexivity]. unfold sbind at 1, sget. unfold sbind at 1, slift at 1. destruct (read_ind (p_dim p) l) as [i|e|] eqn:E; [|reflexivity|reflexivity]. apply read_ind_iff in E. destruct (N i E).
  - rewrite (add_ok p i (row_dim _ _ _ H)). cbn [bind]. set (q := pop_minmax _ _ _).
    assert (A : pop_add p i = Ok q) by (apply add_ok; exact (row_dim _ _ _ H)). pose proof (add_dim _ _ _ A) as DQ. rewrite <- DQ in F'. destruct (IH q is' F') as (q' & x & A' & R' & X'). { intros j. rewrite DQ. apply N. }
    exists q', x. split; [exact A'|]. split; [|now rewrite <- DQ].
    unfold sbind at 1, sget. unfold sbind at 1, slift at 1. apply read_ind_iff in H. rewrite H. unfold sbind at 1, slift. rewrite A. unfold sbind, smod. exact R'.
Qed.
(** the exceptions of an unreadable line *)
Lemma stod_throws t : (exists x : R, stod t = Ok x) \/ stod (T := R) t = Throw InvalidArgument \/ stod (T := R) t = Throw OutOfRange.
Proof. unfold stod. destruct (strtod t) as [[[m e] r]|]; [|auto]. cbv zeta. destruct (_ <! _); [auto|]. destruct (_ && _)%bool; eauto. Qed.
Lemma stoi_throws t : (exists z, stoi t = Ok z) \/ stoi t = Throw InvalidArgument \/ stoi t = Throw OutOfRange.
Proof. unfold stoi. destruct (take_sign _). destruct (span _ _). destruct (is_empty _); [auto|]. cbv zeta. destruct (_ || _)%bool; eauto. Qed.
Definition reading_error (x : exn) : Prop := x = RuntimeError \/ x = InvalidArgument \/ x = OutOfRange.
Lemma read_cell_throws {A} (parse : str -> Res A) c : (forall t, (exists x, parse t = Ok x) \/ parse t = Throw InvalidArgument \/ parse t = Throw OutOfRange) ->
  (exists v, read_cell parse c = Ok v) \/ exists x, read_cell parse c = Throw x /\ reading_error x.
Proof.
  intros P. unfold read_cell, reading_error. cbv zeta. destruct (is_empty _); [eauto|]. destruct (P (snd (next_cell c))) as [(x & ->)|[-> | ->]]; cbn [bind]; eauto 6.
Qed.
Lemma read_cells_throws d : forall c, (exists v : list R, read_cells d c = Ok v) \/ exists x, read_cells (T := R) d c = Throw x /\ reading_error x.
Proof.
  induction d as [|d IH]; intros c; cbn [read_cells]; [eauto|]. destruct (read_cell_throws stod c stod_throws) as [(v & ->)|(x & -> & X)]; cbn [bind]; [|eauto].
  destruct (IH (snd v)) as [(r & ->)|(x & -> & X)]; cbn [bind]; eauto.
Qed.
Lemma read_ind_throws d l : (exists i : ind R, read_ind d l = Ok i) \/ exists x, read_ind (T := R) d l = Throw x /\ reading_error x.
Proof.
  unfold read_ind.
  destruct (read_cell_throws stoi (Some l, []) stoi_throws) as [(v0 & ->)|(x & -> & X)]; cbn [bind]; [|eauto].
  destruct (read_cell_throws stod (snd v0) stod_throws) as [(v1 & ->)|(x & -> & X)]; cbn [bind]; [|eauto].
  destruct (read_cell_throws stod (snd v1) stod_throws) as [(v2 & ->)|(x & -> & X)]; cbn [bind]; [|eauto].
  destruct (read_cell_throws stod (snd v2) stod_throws) as [(v3 & ->)|(x & -> & X)]; cbn [bind]; [|eauto].
  destruct (read_cell_throws stod (snd v3) stod_throws) as [(v4 & ->)|(x & -> & X)]; cbn [bind]; [|eauto].
  destruct (read_cells_throws d (snd v4)) as [(g & ->)|(x & -> & X)]; cbn [bind]; [|eauto].
  unfold ind_initGenes, ind_setRep, ind_setDeath, reading_error.
  repeat (match goal with |- context [if ?b then _ else _] => destruct b end; cbn [bind]; [eauto 6|]). eauto.
Qed.

(** ** Every number has a text in scientific notation *)
Section Show.
  Open Scope R_scope.
  Definition show_exponent (e : Z) : str := if (e <? 100)%Z then digits 2 e else int_text e.
  Definition show_digits (neg : bool) (M e : Z) : str :=
    (if neg then lit "-" else []) ++ [digit (Z.to_nat (M / 1000000000))] ++ lit "." ++ digits 9 (M mod 1000000000) ++ lit "e" ++ (if (e <? 0)%Z then lit "-" else lit "+") ++ show_exponent (Z.abs e).
  Definition show_scientific (x : R) : str :=
    if Reqb x 0 then show_digits false 0 0 else
    let e := Int_part (ln (Rabs x) / ln 10) in let M := Int_part (Rabs x / powerRZ 10 (e - 9) + / 2) in
    if (M <? 10000000000)%Z then show_digits (Rltb x 0) M e else show_digits (Rltb x 0) 1000000000 (e + 1).
  Lemma show_exponent_ok e : (0 <= e)%Z -> decimal (show_exponent e) e /\ (2 <= length (show_exponent e))%nat.
  Proof.
    intros H. unfold show_exponent. destruct (Z.ltb_spec e 100) as [L|L].
    - destruct (digits_ok 2 e) as [D E]; [cbn; lia|]. rewrite E. auto.
    - destruct (int_text_nat e H) as [D _]. split; [exact D|]. remember (int_text e) as t eqn:T. clear T. destruct D as [|s n d Ds Hd]; [lia|]. destruct Ds as [|s n d' Ds Hd']; [lia|]. rewrite !app_length. cbn. lia.
  Qed.
  Lemma show_digits_ok x M e : (1000000000 <= M < 10000000000)%Z -> Rabs (IZR M * powerRZ 10 (e - 9) - Rabs x) <= powerRZ 10 (e - 9) / 2 -> scientific_text_of x (show_digits (Rltb x 0) M e).
  Proof.
    intros B C. assert (Q : (1 <= M / 1000000000 < 10)%Z). { split; [apply Z.div_le_lower_bound; lia|apply Z.div_lt_upper_bound; lia]. }
    destruct (digits_ok 9 (M mod 1000000000)) as [D L]; [apply Z.mod_pos_bound; lia|]. destruct (show_exponent_ok (Z.abs e)) as [DE LE]; [lia|].
    exists (Z.to_nat (M / 1000000000)), (digits 9 (M mod 1000000000)), (M mod 1000000000)%Z, (e <? 0)%Z, (show_exponent (Z.abs e)), (Z.abs e).
    split; [lia|]. split; [exact D|]. split; [exact L|]. split; [exact DE|]. split; [exact LE|]. split; [reflexivity|]. cbv zeta. right. split; [lia|].
    rewrite Z2Nat.id by lia. replace (M / 1000000000 * 1000000000 + M mod 1000000000)%Z with M by (rewrite (Z.div_mod M 1000000000) at 1 by lia; ring).
    replace (with_sign (e <? 0)%Z (Z.abs e)) with e; [exact C|]. unfold with_sign. destruct (Z.ltb_spec e 0); lia.
  Qed.
  Lemma show_scientific_ok x : scientific_text_of x (show_scientific x).
  Proof.
    unfold show_scientific. destruct (Reqb_spec x 0) as [->|NZ].
    - exists 0%nat, (digits 9 0), 0%Z, false, (digits 2 0), 0%Z. destruct (digits_ok 9 0) as [D L]; [cbn; lia|]. destruct (digits_ok 2 0) as [D' L']; [cbn; lia|].
      split; [lia|]. split; [exact D|]. split; [exact L|]. split; [exact D'|]. split; [rewrite L'; lia|]. split; [|left; split; reflexivity].
      destruct (Rltb_spec 0 0) as [X|X]; [lra|reflexivity].
    - cbv zeta. pose proof (Rabs_pos_lt x NZ) as P. set (e := Int_part (ln (Rabs x) / ln 10)). pose proof (base_Int_part (ln (Rabs x) / ln 10)) as [B1 B2]. fold e in B1, B2.
      assert (L10 : 0 < ln 10). { rewrite <- ln_1. apply ln_increasing; lra. }
      assert (LX : Rabs x = Rpower 10 (ln (Rabs x) / ln 10)). { unfold Rpower. replace (ln (Rabs x) / ln 10 * ln 10) with (ln (Rabs x)) by (field; lra). now rewrite exp_ln. }
      assert (G1 : powerRZ 10 e <= Rabs x). { rewrite powerRZ_Rpower, LX by lra. apply Rle_Rpower; lra. }
      assert (G2 : Rabs x < powerRZ 10 (e + 1)). { rewrite powerRZ_Rpower, LX by lra. apply Rpower_lt; [lra|]. rewrite plus_IZR. lra. }
      set (u := powerRZ 10 (e - 9)). assert (U : 0 < u) by (apply powerRZ_lt; lra).
      assert (E9 : powerRZ 10 e = 1000000000 * u). { unfold u. replace e with ((e - 9) + 9)%Z at 1 by lia. rewrite powerRZ_add by lra. replace (powerRZ 10 9) with 1000000000; [ring|]. change 9%Z with (Z.of_nat 9). rewrite <- pow_powerRZ. simpl. ring. }
      assert (E10 : powerRZ 10 (e + 1) = 10000000000 * u). { rewrite powerRZ_add, E9 by lra. change (powerRZ 10 1) with (10 * 1). ring. }
      set (y := Rabs x / u + / 2). set (M := Int_part y). pose proof (base_Int_part y) as [C1 C2]. fold M in C1, C2.
      assert (YX : Rabs x = (y - / 2) * u). { unfold y. field. lra. }
      assert (Y1 : 1000000000 + / 2 <= y). { apply (Rmult_le_reg_r u); [exact U|]. nra. } assert (Y2 : y < 10000000000 + / 2). { apply (Rmult_lt_reg_r u); [exact U|]. nra. }
      assert (M1 : (1000000000 <= M)%Z). { apply Z.lt_succ_r, lt_IZR. rewrite succ_IZR. lra. } assert (M2 : (M <= 10000000000)%Z). { apply Z.lt_succ_r, lt_IZR. rewrite succ_IZR. lra. }
      destruct (Z.ltb_spec M 10000000000) as [LM|LM].
      + apply show_digits_ok; [lia|]. fold u. rewrite YX. replace (IZR M * u - (y - / 2) * u) with ((IZR M - y + / 2) * u) by ring. rewrite Rabs_mult, (Rabs_pos_eq u) by lra.
        assert (Rabs (IZR M - y + / 2) <= / 2) by (apply Rabs_le; lra). nra.
      + assert (EM : M = 10000000000%Z) by lia. apply show_digits_ok; [lia|]. replace (e + 1 - 9)%Z with (e - 9 + 1)%Z by lia. rewrite powerRZ_add by lra. fold u. change (powerRZ 10 1) with (10 * 1).
        rewrite YX, EM in *. replace (1000000000 * (u * (10 * 1)) - (y - / 2) * u) with ((10000000000 - y + / 2) * u) by ring. rewrite Rabs_mult, (Rabs_pos_eq u) by lra.
        assert (Rabs (10000000000 - y + / 2) <= / 2) by (apply Rabs_le; lra). nra.
  Qed.
End Show.
