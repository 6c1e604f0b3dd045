(** C98-C99: population files and warm starts of the evolutionary optimiser. *)
From Coq Require Import Ascii String ZArith Bool Arith Reals Lra List Lia.
From Verif Require Import Base StM Num RealNum NumFloat RSpec VecModel MatModel MatSpec StrModel StrSpec StrProofs StrNum StrReal DriverSpec DriverText ExtModel ExtSpec ExtProofs CsvModel CsvSpec CsvProofs
  DriverDemo PropsStr EaModel EaProofs EaRun EaReal EaDemo PropsEa EaFileModel EaFileSpec EaFileProofs EaWarm.
Import ListNotations.

(** ** C98: what a population file means *)
Lemma addGroup_state (p q : pop R) is : pop_addGroup p is = Ok q -> p_inds q = p_inds p ++ is /\ p_dim q = p_dim p.
Proof.
  intros H. split; [exact (addGroup_inds _ _ _ H)|]. refine (addGroup_ind (fun q => p_dim q = p_dim p) is p q eq_refl _ H). intros q0 i q1 E _ A. apply add_dim in A. congruence.
Qed.
(** a file is read into a population exactly when all lines after the first hold individuals of its dimension; they are its members then *)
Theorem C98_meaning name fs (p0 : pop R) is : name <> [] ->
  ((exists q, pop_readFromCSV name fs p0 = (q, Ok tt) /\ p_inds q = is) <->
   exists t header lines, fs name = Some t /\ cut newline_char t (header :: lines) /\ Forall2 (row_of (p_dim p0)) lines is).
Proof.
  intros NE. unfold pop_readFromCSV, sbind at 1, sthrow_if. destruct name as [|c0 name]; [congruence|]. cbn [is_empty]. unfold sret. split.
  - intros (q & H & E). destruct (fs (c0 :: name)) as [t|]; [|discriminate]. unfold sbind, smod in H. destruct (pieces nl t) as [|h ls] eqn:P; [discriminate|].
    assert (K : forall k, k <= length ls -> exists is, Forall2 (row_of (p_dim p0)) (firstn k ls) is).
    { induction k as [|k IH]; intros K; [exists []; constructor|]. destruct IH as (is' & F); [lia|].
      assert (L : k < length ls) by lia. destruct (nth_error ls k) as [l|] eqn:EL; [|apply nth_error_None in EL; lia].
      assert (SP : ls = firstn k ls ++ l :: skipn (S k) ls). { rewrite <- (firstn_skipn k ls) at 1. f_equal. clear - EL. revert k EL. induction ls as [|a ls IH]; intros [|k] EL; cbn in *; try congruence. apply IH. exact EL. }
      destruct (read_ind_throws (p_dim p0) l) as [(i & RI)|(x & RI & _)].
      - exists (is' ++ [i]). replace (firstn (S k) ls) with (firstn k ls ++ [l]). { apply Forall2_app; [exact F|]. constructor; [|constructor]. now apply read_ind_iff. }
        symmetry. clear - EL. revert k EL. induction ls as [|a ls IH]; intros [|k] EL; cbn in *; try congruence. f_equal. apply IH. exact EL.
      - exfalso. destruct (read_lines_fail (firstn k ls) l (skipn (S k) ls) (pset_inds [] p0) is' F) as (q' & y & _ & RL & Y). { intros i R0. apply read_ind_iff in R0. cbn [p_dim pset_inds] in R0. congruence. }
        rewrite <- SP in RL. rewrite RL in H. cbn [p_dim pset_inds] in Y. rewrite RI in Y. congruence. }
    destruct (K (length ls) (le_n _)) as (is' & F). rewrite firstn_all in F.
    destruct (read_lines_rows ls (pset_inds [] p0) is' F) as (q' & A & RL). rewrite RL in H. assert (q' = q) by congruence. subst q'. apply addGroup_inds in A. cbn in A.
    exists t, h, ls. split; [reflexivity|]. split; [now apply cut_pieces|]. congruence.
  - intros (t & h & ls & -> & C & F). apply cut_pieces in C. change newline_char with nl in C. unfold sbind, smod. rewrite C. destruct (read_lines_rows ls (pset_inds [] p0) is F) as (q & A & RL). exists q. split; [exact RL|]. apply addGroup_inds in A. exact A.
Qed.
Print Assumptions C98_meaning.
(** otherwise the members are the individuals of the lines before the first unreadable one, and the exception is one of three *)
Theorem C98_unreadable_line name fs (p0 : pop R) t header lines l rest is : name <> [] -> fs name = Some t -> cut newline_char t (header :: lines ++ l :: rest) ->
  Forall2 (row_of (p_dim p0)) lines is -> (forall i, ~ row_of (p_dim p0) l i) ->
  exists q x, pop_readFromCSV name fs p0 = (q, Throw x) /\ p_inds q = is /\ (x = RuntimeError \/ x = InvalidArgument \/ x = OutOfRange).
Proof.
  intros NE E C F N. unfold pop_readFromCSV, sbind at 1, sthrow_if. destruct name as [|c0 name]; [congruence|]. cbn [is_empty]. unfold sret. rewrite E. apply cut_pieces in C. change newline_char with nl in C. unfold sbind, smod. rewrite C.
  destruct (read_lines_fail lines l rest (pset_inds [] p0) is F N) as (q & y & A & RL & Y). cbn [p_dim pset_inds] in Y. destruct (read_ind_throws (p_dim p0) l) as [(i & RI)|(x & RI & X)]; [apply read_ind_iff in RI; destruct (N i RI)|].
  rewrite RI in Y. exists q, x. rewrite RL, Y. split; [reflexivity|]. apply addGroup_inds in A. split; [exact A|exact X].
Qed.
Print Assumptions C98_unreadable_line.
(** without a name or a file nothing changes; an empty file empties the population *)
Theorem C98_no_file name fs (p0 : pop R) :
  pop_readFromCSV [] fs p0 = (p0, Throw InvalidArgument) /\
  (name <> [] -> fs name = None -> pop_readFromCSV name fs p0 = (p0, Throw RuntimeError)) /\
  (name <> [] -> fs name = Some [] -> exists q, pop_readFromCSV name fs p0 = (q, Throw RuntimeError) /\ p_inds q = []).
Proof.
  split; [reflexivity|]. split; intros NE E; unfold pop_readFromCSV, sbind at 1, sthrow_if; (destruct name as [|c0 name]; [congruence|]); cbn [is_empty]; unfold sret; rewrite E; [reflexivity|]. eexists. split; reflexivity.
Qed.
Print Assumptions C98_no_file.

Section Texts.
  Context (writable : str -> bool) (scientific : R -> str) (SC : forall x, scientific_text_of x (scientific x)).
  Definition refused (p : pop R) name : option exn :=
    if is_empty name then Some InvalidArgument else if Nat.eqb (p_dim p) 0 then Some InvalidArgument else if writable name then None else Some RuntimeError.
  (** a population without a dimension, a file without a name or one that cannot be opened: refused, nothing is written *)
  Theorem C98_write_refused name (p : pop R) fs :
    (name = [] \/ p_dim p = 0 -> pop_writeToCSV writable scientific name p fs = (fs, Throw InvalidArgument)) /\
    (name <> [] -> p_dim p <> 0 -> writable name = false -> pop_writeToCSV writable scientific name p fs = (fs, Throw RuntimeError)).
  Proof.
    unfold pop_writeToCSV, sbind, sthrow_if. split.
    - intros [->|E]; [reflexivity|]. destruct (is_empty name); [reflexivity|]. rewrite E. reflexivity.
    - intros NE D W. destruct name as [|c name]; [congruence|]. cbn [is_empty]. unfold sret at 1. apply Nat.eqb_neq in D. rewrite D, W. reflexivity.
  Qed.
  (** what is written and read back *)
  Theorem C98_round_trip name (p : pop R) fs : name <> [] -> p_dim p <> 0 -> writable name = true -> (forall i, In i (p_inds p) -> keepable (p_dim p) i) ->
    exists fs', pop_writeToCSV writable scientific name p fs = (fs', Ok tt) /\ (forall other, other <> name -> fs' other = fs other) /\
    forall p0, p_dim p0 = p_dim p -> exists q, pop_readFromCSV name fs' p0 = (q, Ok tt) /\ Forall2 same_to_ten_digits (p_inds p) (p_inds q).
  Proof.
    intros NE D W K. unfold pop_writeToCSV, sbind, sthrow_if. destruct (is_empty name) eqn:EN; [destruct name; [congruence|discriminate]|]. apply Nat.eqb_neq in D. rewrite D, W. cbn [negb]. unfold sret, smod.
    eexists. split; [reflexivity|]. split. { intros o O. now apply put_other. }
    intros p0 DP. destruct (file_lines scientific SC (p_dim p) (p_inds p)) as (h & FL).
    assert (ROWS : exists is, Forall2 (row_of (p_dim p0)) (map (fun i => joined (lit ",") (texts scientific i)) (p_inds p)) is /\ Forall2 same_to_ten_digits (p_inds p) is).
    { rewrite DP. clear FL. induction (p_inds p) as [|i l IH]; [exists []; split; constructor|]. destruct IH as (is & A & B). { intros j I. apply K. now right. }
      destruct (line_row scientific SC (p_dim p) i) as (j & J1 & J2). { apply K. now left. } exists (j :: is). split; constructor; auto. }
    destruct ROWS as (is & A & B). destruct (proj2 (C98_meaning name (put name (pop_header (p_dim p) ++ concat (map (ind_line scientific) (p_inds p))) fs) p0 is NE)) as (q & Q1 & Q2).
    { eexists _, h, _. split; [apply put_same|]. split; [apply cut_pieces; exact FL|exact A]. }
    exists q. rewrite Q2. auto.
  Qed.
  (** an individual whose reproduction probability has not been computed is written, but such a file cannot be read *)
  Theorem C98_unrated_refuted name (p : pop R) fs i : name <> [] -> p_dim p <> 0 -> writable name = true ->
    In i (p_inds p) -> keepable (p_dim p) (mkI (i_id i) (i_dim i) (i_genes i) (i_obj i) (i_fit i) (/ 2)%R (i_death i)) -> i_rep i = 0%R ->
    exists fs', pop_writeToCSV writable scientific name p fs = (fs', Ok tt) /\
    forall p0 q : pop R, p_dim p0 = p_dim p -> pop_readFromCSV name fs' p0 <> (q, Ok tt).
  Proof.
    intros NE D W I K RP. unfold pop_writeToCSV, sbind, sthrow_if. destruct (is_empty name) eqn:EN; [destruct name; [congruence|discriminate]|]. apply Nat.eqb_neq in D. rewrite D, W. cbn [negb]. unfold sret, smod.
    eexists. split; [reflexivity|]. intros p0 q DP H.
    destruct (file_lines scientific SC (p_dim p) (p_inds p)) as (h & FL).
    destruct (proj1 (C98_meaning name (put name (pop_header (p_dim p) ++ concat (map (ind_line scientific) (p_inds p))) fs) p0 (p_inds q) NE)) as (t & h' & ls & T & C & F); [eauto|].
    rewrite put_same in T. injection T as <-. apply cut_pieces in C. change newline_char with nl in C. pose proof (eq_trans (eq_sym FL) C) as Q. injection Q as _ <-.
    apply in_split in I. destruct I as (a & b & E). rewrite E, map_app in F. cbn [map] in F. apply Forall2_app_inv_l in F. destruct F as (is1 & is2 & _ & F & _). inversion F as [|? j ? ? R0 _]; subst.
    destruct R0 as (cells & z & CE & _ & _ & _ & _ & _ & NR & RB & _).
    assert (cells = texts scientific i). { refine (cells_fun _ _ _ CE (cells_joined (texts scientific i) _ _)); [discriminate|]. intros x X. apply (texts_ok scientific SC) in X. tauto. } subst cells.
    assert (TK : token (texts scientific i) 3 = scientific (i_rep i)) by reflexivity. rewrite TK in NR. apply stod_number_of in NR. destruct (sci_reads _ _ (SC (i_rep i))) as (y & Y1 & Y2); [left; exact RP|].
    assert (y = i_rep j) by congruence. subst y. rewrite RP in Y2. apply ten_close in Y2. apply Rabs_le_between in Y2. rewrite (Rabs_pos_eq (i_rep j)) in Y2 by lra. lra.
  Qed.
End Texts.
Print Assumptions C98_write_refused.
Print Assumptions C98_round_trip.
Print Assumptions C98_unrated_refuted.

(** a line that ends too early is accepted: its last number is taken for all the missing genes *)
Definition one_file (name t : str) : files := fun x => if list_eq_dec Ascii.ascii_dec x name then Some t else None.
Definition restart : str := lit "restart.csv".
Definition short_text : str := lit "ID,ObjectiveFunctionValue,Fitness,ReproductionProbability,DeathProbability,Gene_0,Gene_1,Gene_2" ++ newline ++ lit "4,1.5,1,0.5,0.25,7" ++ newline.
Theorem C98_missing_genes_refuted : exists q : pop F, pop_readFromCSV restart (one_file restart short_text) (pop_new 3) = (q, Ok tt) /\
  p_inds q = [mkI 4 3 [FofZ 7; FofZ 7; FofZ 7] (Flit 15 (-1)) (FofZ 1) (Flit 5 (-1)) (Flit 25 (-2))].
Proof. eexists. split; vm_compute; reflexivity. Qed.
Print Assumptions C98_missing_genes_refuted.
(** reading into a population that has been used keeps its old extremes: no best individual is found afterwards *)
Definition two_text : str := lit "ID,ObjectiveFunctionValue,Fitness,ReproductionProbability,DeathProbability,Gene_0" ++ newline ++ lit "0,1.5,1,0.5,0.25,1.5" ++ newline ++ lit "1,1,1,0.5,0.25,1" ++ newline.
Definition used : pop F := mkP [mkI 9 1 [FofZ 0] (FofZ (-5)) (FofZ 0) (FofZ 0) (FofZ 0)] (FofZ (-5)) (FofZ (-5)) 9 9 1.
Theorem C98_used_population_refuted : (exists p, pop_add (pop_new 1) (mkI 9 1 [FofZ 0] (FofZ (-5)) (FofZ 0) (FofZ 0) (FofZ 0)) = Ok p /\ p_idmin p = 9 /\
  exists q, pop_readFromCSV restart (one_file restart two_text) p = (q, Ok tt) /\ map i_obj (p_inds q) = [Flit 15 (-1); FofZ 1] /\ p_min q = FofZ (-5) /\ pop_best q = Throw AssertFail) /\
  exists q i, pop_readFromCSV restart (one_file restart two_text) (pop_new 1) = (q, Ok tt) /\ pop_best q = Ok i /\ i_obj i = FofZ 1.
Proof. split; [eexists; split; [vm_compute; reflexivity|]; split; [reflexivity|]; eexists; split; [vm_compute; reflexivity|]; split; [vm_compute; reflexivity|]; split; vm_compute; reflexivity|]. eexists _, _. split; [vm_compute; reflexivity|]. split; vm_compute; reflexivity. Qed.
Print Assumptions C98_used_population_refuted.

(** ** C99: runs that continue from a file *)
Section WarmFiles.
  Context (writable : str -> bool) (scientific : R -> str) (SC : forall x, scientific_text_of x (scientific x)).
  (** the population of a completed run is written and read back *)
  Theorem C99_restart_file c us ws e name fs : ea_optimize c us ws (ea_new (c_dim c)) = Ok (Some e) -> (Z.of_nat (e_total e) <= 2147483647)%Z ->
    (forall i, In i (p_inds (e_hist e)) -> printable (i_obj i)) -> (forall i g, In i (p_inds (e_pop e)) -> In g (i_genes i) -> printable g) -> name <> [] -> writable name = true ->
    exists fs', ea_writeWarm writable scientific (Some name) e fs = (fs', Ok tt) /\ (forall other, other <> name -> fs' other = fs other) /\
    exists e1, ea_readWarm (Some name) fs' (ea_new (c_dim c)) = (e1, Ok tt) /\ e_init e1 = true /\ e_total e1 = 0 /\ p_inds (e_hist e1) = [] /\ Forall2 same_to_ten_digits (p_inds (e_pop e)) (p_inds (e_pop e1)).
  Proof.
    intros H TL PF PG NE W. destruct (final_kept c us ws e H TL PF PG) as [DM KP].
    assert (DZ : c_dim c <> 0). { apply run_checked in H. intros Z. unfold ec_check in H. rewrite Z in H. ok_steps H. }
    destruct (C98_round_trip writable scientific SC name (e_pop e) fs NE) as (fs' & W1 & W2 & W3); [congruence|exact W|rewrite DM; exact KP|].
    exists fs'. unfold ea_writeWarm, any_to_runtime. rewrite W1. split; [reflexivity|]. split; [exact W2|]. destruct (W3 (pop_new (c_dim c))) as (q & Q1 & Q2); [cbn; congruence|].
    unfold ea_readWarm, any_to_runtime. cbn [e_pop ea_new]. rewrite Q1. eexists. split; [reflexivity|]. cbn. auto.
  Qed.
  (** without a file name, or when the population cannot be written, the caller gets one kind of exception and no file is touched *)
  Theorem C99_write_refused file (e : ea R) fs : (file = None \/ exists name, file = Some name /\ (name = [] \/ p_dim (e_pop e) = 0 \/ writable name = false)) ->
    ea_writeWarm writable scientific file e fs = (fs, Throw RuntimeError).
  Proof.
    intros [->|(name & -> & H)]; [reflexivity|]. unfold ea_writeWarm, any_to_runtime, pop_writeToCSV, sbind, sthrow_if. destruct (is_empty name) eqn:EN; [reflexivity|]. cbn [sret].
    destruct (Nat.eqb (p_dim (e_pop e)) 0) eqn:ED; [reflexivity|]. destruct H as [->|[H|H]]; [discriminate|rewrite H in ED; discriminate|]. rewrite H. reflexivity.
  Qed.
End WarmFiles.
Print Assumptions C99_restart_file.
Print Assumptions C99_write_refused.
(** a completed warm-started run: numbers of individuals, their origin, the stopping rule and the solution reported *)
Theorem C99_warm_run c file fs ws e : ea_optimizeWarm c file fs ws (ea_new (c_dim c)) = Ok (Some e) ->
  exists name p1 g s, file = Some name /\ pop_readFromCSV name fs (pop_new (c_dim c)) = (p1, Ok tt) /\ 1 <= g <= c_gens c /\
    length (p_inds (e_pop e)) + g * c_deaths c = length (p_inds p1) + g * c_new c /\ e_total e = g * c_new c /\
    (g = c_gens c \/ c_max c <= g * c_new c) /\ (forall j, 1 <= j < g -> j * c_new c < c_max c) /\
    map i_id (p_inds (e_hist e)) = seq 0 (g * c_new c) /\
    (forall i, In i (p_inds (e_hist e)) -> inside c (i_genes i) /\ c_f c (i_genes i) = Ok (i_obj i)) /\
    (forall i, In i (p_inds (e_pop e)) -> exists j, In j (p_inds p1 ++ p_inds (e_hist e)) /\ i_id j = i_id i /\ i_genes j = i_genes i /\ i_obj j = i_obj i) /\
    ea_solution e = Ok s /\ In s (p_inds (e_pop e)) /\
    ((forall j, In j (p_inds p1 ++ p_inds (e_hist e)) -> (i_obj j < ndblmax)%R) -> NoDup (map i_id (p_inds (e_pop e))) -> forall j, In j (p_inds (e_pop e)) -> (i_obj s <= i_obj j)%R).
Proof.
  intros H. destruct (warm_run _ _ _ _ _ H) as (name & p1 & g & s & F & RD & G & B & ST & LT & SO). exists name, p1, g, s. split; [exact F|]. split; [exact RD|]. split; [exact G|].
  split; [exact (wb_pop _ _ _ _ _ B)|]. split; [exact (wb_total _ _ _ _ _ B)|]. split; [exact ST|]. split; [exact LT|]. split; [exact (wb_ids _ _ _ _ _ B)|].
  split; [intros i I; exact (wb_sound _ _ _ _ _ B i I)|]. pose proof SO as SO'. unfold ea_solution, pop_best in SO'. apply get_spec in SO'. destruct SO' as (a & b & E & ID & _).
  assert (SI : In s (p_inds (e_pop e))). { rewrite E. apply in_or_app. cbn. auto. }
  split. { intros i I. apply (wb_in _ _ _ _ _ B) in I. destruct I as [I|I]; apply in_core in I; destruct I as (j & J & C); injection C as C1 C2 C3; exists j; (split; [apply in_or_app; auto|auto]). }
  split; [exact SO|]. split; [exact SI|]. intros FN ND j J.
  destruct (wb_ext _ _ _ _ _ B) as ((M1 & _ & M3) & _).
  - intros i I. change (Rltb (i_obj i) ndblmax = true). destruct (Rltb_spec (i_obj i) ndblmax) as [L|L]; [reflexivity|exfalso]. specialize (FN i ltac:(apply in_or_app; auto)). lra.
  - intros i I. change (Rltb (i_obj i) ndblmax = true). destruct (Rltb_spec (i_obj i) ndblmax) as [L|L]; [reflexivity|exfalso]. specialize (FN i ltac:(apply in_or_app; auto)). lra.
  - destruct M3 as (w & W1 & W2 & W3); [intros Z; rewrite Z in J; destruct J|]. assert (w = s).
    { clear - ND W1 SI W2 ID. rewrite <- ID in W2. revert ND W1 SI W2. generalize (p_inds (e_pop e)). induction l as [|x l IH]; cbn; [tauto|]. intros ND [->|W] [->|I] Q; auto; inversion ND as [|? ? N1 N2]; subst.
      - exfalso. apply N1. rewrite Q. now apply in_map.
      - exfalso. apply N1. rewrite <- Q. now apply in_map.
      - auto. }
    subst w. specialize (M1 j J). change (Rltb (i_obj j) (p_min (e_pop e)) = false) in M1. destruct (Rltb_spec (i_obj j) (p_min (e_pop e))); [discriminate|]. lra.
Qed.
Print Assumptions C99_warm_run.
(** a warm start without a file name, or from a file that cannot be read, ends with a runtime error and runs nothing; the settings are checked first *)
Lemma read_total name fs (p : pop R) q : pop_readFromCSV name fs p <> (q, UB).
Proof.
  unfold pop_readFromCSV, sbind at 1, sthrow_if. destruct (is_empty name); [discriminate|]. unfold sret. destruct (fs name) as [t|]; [|discriminate]. unfold sbind, smod. destruct (pieces nl t) as [|h ls]; [discriminate|].
  generalize (pset_inds [] p). induction ls as [|l ls IH]; intros p0; [discriminate|]. cbn [read_lines]. unfold sbind, sget, slift, smod. destruct (read_ind_throws (p_dim p0) l) as [(i & RI)|(x & RI & _)]; rewrite RI; [|discriminate].
  apply read_ind_iff in RI. unfold pop_add. destruct (negb _) eqn:N; [discriminate|]. apply IH.
Qed.
Theorem C99_warm_refused (c : econf R) file fs ws e0 :
  (forall x, ec_check c = Throw x -> ea_optimizeWarm c file fs ws e0 = Throw x) /\
  (ec_check c = Ok tt -> (forall name q, file = Some name -> pop_readFromCSV name fs (e_pop e0) <> (q, Ok tt)) -> ea_optimizeWarm c file fs ws e0 = Throw RuntimeError).
Proof.
  unfold ea_optimizeWarm. split.
  - intros x ->. reflexivity.
  - intros -> N. cbn [bind]. destruct file as [name|]; [|reflexivity]. unfold ea_readWarm, any_to_runtime. cbn [e_pop]. destruct (pop_readFromCSV name fs (e_pop e0)) as [q [u|x|]] eqn:E; [|reflexivity|destruct (read_total _ _ _ _ E)].
    destruct u. destruct (N name q eq_refl E).
Qed.
Print Assumptions C99_warm_refused.
(** the children are numbered from zero again: when the file holds the same identifiers the solution reported need not be the best, here it is the worst *)
Theorem C99_identifiers_refuted : exists e s, ea_optimizeWarm (f64 0 1) (Some restart) (one_file restart two_text) (ws64 (FofZ 0) (FofZ 0)) (ea_new 1) = Ok (Some e) /\ ea_solution e = Ok s /\
  map i_id (p_inds (e_pop e)) = [0; 1; 0] /\ map i_obj (p_inds (e_pop e)) = [Flit 15 (-1); FofZ 1; FofZ 0] /\ i_obj s = Flit 15 (-1).
Proof. eexists _, _. split; [vm_compute; reflexivity|]. split; [vm_compute; reflexivity|]. split; [vm_compute; reflexivity|]. split; vm_compute; reflexivity. Qed.
Print Assumptions C99_identifiers_refuted.
(** individuals of the file are neither evaluated nor compared with the bounds: here one outside of [0,2], with a made-up objective value, is the solution *)
Definition outside_text : str := lit "header" ++ newline ++ lit "10,1.5,1,0.5,0.25,1.5" ++ newline ++ lit "11,-3,1,0.5,0.25,5" ++ newline.
Theorem C99_outside_refuted : exists e s, ea_optimizeWarm (f64 0 1) (Some restart) (one_file restart outside_text) (ws64 (FofZ 0) (FofZ 0)) (ea_new 1) = Ok (Some e) /\ ea_solution e = Ok s /\
  i_genes s = [FofZ 5] /\ i_obj s = FofZ (-3).
Proof. eexists _, _. split; [vm_compute; reflexivity|]. split; [vm_compute; reflexivity|]. split; vm_compute; reflexivity. Qed.
Print Assumptions C99_outside_refuted.

(** concrete cases *)
Example C98_example : exists fs', pop_writeToCSV (fun _ => true) show_scientific restart (mkP [mkI 3 2 [(1 / 3)%R; (-2)%R] (5 / 2)%R 1%R (/ 4)%R 0%R] (5 / 2)%R (5 / 2)%R 3 3 2) (fun _ => None) = (fs', Ok tt) /\
  exists q i, pop_readFromCSV restart fs' (pop_new 2) = (q, Ok tt) /\ p_inds q = [i] /\ i_id i = 3 /\ ten_digits_of (1 / 3) (nth 0 (i_genes i) 0%R).
Proof.
  pose proof dbl_small as DS. pose proof dbl_big as DB. assert (PR : forall x, (/ 10 <= Rabs x <= 10)%R -> printable x). { intros x H. right. lra. }
  destruct (C98_round_trip (fun _ => true) show_scientific show_scientific_ok restart (mkP [mkI 3 2 [(1 / 3)%R; (-2)%R] (5 / 2)%R 1%R (/ 4)%R 0%R] (5 / 2)%R (5 / 2)%R 3 3 2) (fun _ => None)) as (fs' & W & _ & RD); try (cbn; congruence).
  - intros i [<-|[]]. split; [cbn; lia|]. split; [reflexivity|]. cbn [i_genes i_obj i_fit i_rep i_death]. split; [intros g [<-|[<-|[]]]; apply PR; [rewrite Rabs_pos_eq; lra|rewrite Rabs_left; lra]|].
    split; [apply PR; rewrite Rabs_pos_eq; lra|]. split; [apply PR; rewrite Rabs_pos_eq; lra|]. split; [apply PR; rewrite Rabs_pos_eq; lra|]. split; [left; reflexivity|]. lra.
  - exists fs'. split; [exact W|]. destruct (RD (pop_new 2)) as (q & Q & F); [reflexivity|]. cbn [p_inds] in F. inversion F as [|? i ? l S N E1 E2]; subst. inversion N; subst. exists q, i. split; [exact Q|]. split; [congruence|].
    destruct S as (S1 & _ & S3 & _). split; [exact S1|]. cbn [i_genes] in S3. inversion S3; subst. cbn. assumption.
Qed.
Definition wdemo : econf R := mkEC 1 [0%R] [2%R] true (1 / 10)%R 2 1 0 1 100 (fun v => Ok (nth 0 v 0%R)).
Definition wdemo_ws (k : nat) : genDraw R := mkG (fun _ => mkCh 0%R [(3 / 4)%R] (fun _ => 0%R) (fun _ => 0%R) (fun _ => 1%R)) (fun _ => 0%R).
Definition wdemo_text : str := lit "header" ++ newline ++ lit "5,0,1,0.5,0.5,0" ++ newline ++ lit "6,1,1,0.5,0.5,1" ++ newline.
Definition wa : ind R := mkI 5 1 [0%R] 0%R 1%R (/ 2)%R (/ 2)%R.
Definition wb : ind R := mkI 6 1 [1%R] 1%R 1%R (/ 2)%R (/ 2)%R.
Definition wc : ind R := mkI 0 1 [(1 / 2)%R] (1 / 2)%R 0%R 0%R 0%R.
Lemma wdemo_read : exists p1, pop_readFromCSV restart (one_file restart wdemo_text) (pop_new 1) = (p1, Ok tt) /\ p1 = mkP [wa; wb] 0%R 1%R 5 6 1.
Proof.
  assert (RA : row_of 1 (lit "5,0,1,0.5,0.5,0") wa).
  { exists [lit "5"; lit "0"; lit "1"; lit "0.5"; lit "0.5"; lit "0"], 5%Z. split; [apply (cells_joined [lit "5"; lit "0"; lit "1"; lit "0.5"; lit "0.5"; lit "0"]); [discriminate|]; intros a [<-|[<-|[<-|[<-|[<-|[<-|[]]]]]]]; cbn; intuition discriminate|].
    split; [intros k K; do 6 (destruct k as [|k]; [discriminate|]); lia|]. split; [apply stoi_integer; reflexivity|]. split; [reflexivity|]. unfold token; cbn [nth i_obj i_fit i_rep i_death i_genes i_dim wa].
    split; [eapply number_simple; [vm_compute; reflexivity|cbn; lra|left; split; [reflexivity|lra]]|]. split; [eapply number_simple; [vm_compute; reflexivity|cbn; lra|right; left; lra]|].
    split; [eapply number_simple; [vm_compute; reflexivity|unfold powerRZ; change (Pos.to_nat 1) with 1; cbn; lra|right; left; lra]|]. split; [lra|].
    split; [eapply number_simple; [vm_compute; reflexivity|unfold powerRZ; change (Pos.to_nat 1) with 1; cbn; lra|right; left; lra]|]. split; [lra|]. split; [reflexivity|]. split; [reflexivity|].
    intros [|k] K; [|lia]. eapply number_simple; [vm_compute; reflexivity|cbn; lra|left; split; [reflexivity|cbn; lra]]. }
  assert (RB : row_of 1 (lit "6,1,1,0.5,0.5,1") wb).
  { exists [lit "6"; lit "1"; lit "1"; lit "0.5"; lit "0.5"; lit "1"], 6%Z. split; [apply (cells_joined [lit "6"; lit "1"; lit "1"; lit "0.5"; lit "0.5"; lit "1"]); [discriminate|]; intros a [<-|[<-|[<-|[<-|[<-|[<-|[]]]]]]]; cbn; intuition discriminate|].
    split; [intros k K; do 6 (destruct k as [|k]; [discriminate|]); lia|]. split; [apply stoi_integer; reflexivity|]. split; [reflexivity|]. unfold token; cbn [nth i_obj i_fit i_rep i_death i_genes i_dim wb].
    split; [eapply number_simple; [vm_compute; reflexivity|cbn; lra|right; left; lra]|]. split; [eapply number_simple; [vm_compute; reflexivity|cbn; lra|right; left; lra]|].
    split; [eapply number_simple; [vm_compute; reflexivity|unfold powerRZ; change (Pos.to_nat 1) with 1; cbn; lra|right; left; lra]|]. split; [lra|].
    split; [eapply number_simple; [vm_compute; reflexivity|unfold powerRZ; change (Pos.to_nat 1) with 1; cbn; lra|right; left; lra]|]. split; [lra|]. split; [reflexivity|]. split; [reflexivity|].
    intros [|k] K; [|lia]. eapply number_simple; [vm_compute; reflexivity|cbn; lra|right; left; cbn; lra]. }
  unfold pop_readFromCSV, sbind at 1, sthrow_if. cbn [is_empty restart lit]. unfold sret. change (one_file restart wdemo_text _) with (Some wdemo_text). unfold sbind at 1, smod.
  change (pieces nl wdemo_text) with [lit "header"; lit "5,0,1,0.5,0.5,0"; lit "6,1,1,0.5,0.5,1"]. cbv iota.
  destruct (read_lines_rows [lit "5,0,1,0.5,0.5,0"; lit "6,1,1,0.5,0.5,1"] (pset_inds [] (pop_new 1)) [wa; wb]) as (q & A & RL); [repeat constructor; assumption|].
  exists q. split; [exact RL|]. pose proof DM_big. pose proof Dm_small. unfold pop_new, pset_inds in A. cbn [p_min p_max p_idmin p_idmax p_dim pop_addGroup] in A. change (@ndblmax R RNum) with DM in A. change (@ndblmin R RNum) with Dm in A.
  rewrite add_eq' in A by reflexivity. cbn [app bind] in A. change (i_obj wa) with 0%R in A. rewrite minmax_lo in A by lra. rewrite add_eq' in A by reflexivity. cbn [app bind] in A. change (i_obj wb) with 1%R in A. rewrite minmax_hi in A by lra. cbn [bind] in A. injection A as <-. reflexivity.
Qed.
Lemma wdemo_child : ea_child wdemo (mkP [wa; wb] 0%R 1%R 5 6 1) 0 (g_births (wdemo_ws 0) 0) = Ok (Some (mkI 0 1 [(1 / 2)%R] 0%R 0%R 0%R 0%R)).
Proof.
  unfold ea_child, pop_parents, pop_pickRep. cbn [p_inds length Nat.ltb Nat.leb]. unfold wdemo_ws, g_births, ch_mother, ch_father, ch_z, ch_u, ch_m. cbn [roulette i_rep wa wb]. cbn [nltb nadd n0 RNum].
  rewrite (proj2 (Rltb_true 0 (0 + / 2))) by lra. cbn [bind pop_father]. unfold pop_pickRep. cbn [p_inds roulette i_rep wa wb]. cbn [nltb nadd n0 RNum].
  rewrite (proj2 (Rltb_false (3 / 4) (0 + / 2))) by lra. rewrite (proj2 (Rltb_true (3 / 4) (0 + / 2 + / 2))) by lra.
  cbn [bind i_id wa wb Nat.eqb option_map c_bset wdemo negb]. unfold ea_crossOver. cbn [i_id i_genes wa wb Nat.eqb length negb].
  unfold ea_mutate, vec_randomBetween. cbn [c_mutp c_bset c_lo c_up wdemo negb length Nat.eqb seq existsb].
  cbn [nleb nltb n0 n1 RNum]. rewrite (proj2 (Rleb_false (1 / 10) 0)) by lra. rewrite (proj2 (Rleb_false 1 (1 / 10))) by lra. cbn [orb].
  unfold vget. cbn [nth]. cbn [nltb n0 RNum]. rewrite (proj2 (Rltb_false 2 0)) by lra. cbn [orb bind].
  cbn [vbuild map seq length Nat.ltb Nat.leb andb]. cbn [bind]. cbn [vbuild map seq length Nat.ltb Nat.leb andb orb c_dim].
  rewrite (proj2 (Rltb_false 1 (1 / 10))) by lra. cbn [nth].
  assert (normal_between 0 1 0 = 1 / 2)%R as ->. { unfold normal_between. cbn [nadd nmul nsub ndiv nabs nofZ n0 n1 neqb RNum]. rewrite Rmult_0_l. lra. }
  assert (clamp 0 2 (1 / 2) = 1 / 2)%R as ->. { unfold clamp. cbn [nltb RNum]. rewrite (proj2 (Rltb_false (1 / 2) 0)) by lra. rewrite (proj2 (Rltb_false 2 (1 / 2))) by lra. reflexivity. }
  reflexivity.
Qed.
Example C99_example : exists e s, ea_optimizeWarm wdemo (Some restart) (one_file restart wdemo_text) wdemo_ws (ea_new 1) = Ok (Some e) /\ ea_solution e = Ok s /\ i_obj s = 0%R /\ map i_id (p_inds (e_pop e)) = [5; 6; 0].
Proof.
  destruct wdemo_read as (p1 & RD & E1). subst p1. pose proof DM_big as D1. pose proof Dm_small as D2.
  unfold ea_optimizeWarm. change (ec_check wdemo) with (@Ok unit tt). cbn [bind]. unfold ea_readWarm, any_to_runtime. cbn [e_pop e_gen e_rem e_hist e_total e_init ea_new]. rewrite RD. cbn [c_gens wdemo ea_loop bind].
  unfold ea_generation, ea_births. cbn [c_new wdemo Nat.eqb e_init negb e_pop e_total e_gen e_hist e_rem]. unfold ea_children. cbn [c_new wdemo loopR bind Nat.add]. rewrite wdemo_child. cbn [bind option_map app mapR].
  unfold ea_call at 1. cbn [c_dim wdemo Nat.eqb i_genes length negb c_f bind]. cbn [nth]. change (iset_obj (1 / 2)%R (mkI 0 1 [(1 / 2)%R] 0%R 0%R 0%R 0%R)) with wc. cbn [pop_addGroup bind].
  rewrite add_eq' by reflexivity. change (i_obj wc) with (1 / 2)%R. change (i_id wc) with 0. rewrite minmax_none by lra. cbn [bind app].
  assert (AN : exists q, pop_add (pop_new 1) wc = Ok q). { unfold pop_new. rewrite add_eq' by reflexivity. eauto. } destruct AN as (pc & AC). rewrite AC. cbn [bind].
  destruct (update_demo (mkP [wa; wb; wc] 0%R 1%R 5 6 1)) as (q & Q1 & _ & Q3 & Q4 & Q5 & Q6); [reflexivity|cbn; lra|cbn; lia|exists wb; cbn; auto|intros j [<-|[<-|[<-|[]]]]; cbn; lra|].
  cbn [e_pop e_gen e_rem e_hist e_total e_init]. rewrite Q1. cbn [bind]. unfold ea_deaths. cbn [c_deaths wdemo loopR bind e_pop].
  destruct (cores_3 _ _ _ _ Q3) as (x & y & z & X0 & X1 & X2 & X3). unfold extremes in Q4. injection Q4 as M1 M2 M3 M4. cbn [p_min p_max p_idmin p_idmax] in *. injection X1 as X11 _ X13. injection X2 as X21 _ X23. injection X3 as X31 _ X33.
  destruct (update_demo q) as (r & R1 & _ & R3 & R4 & _ & _); [exact M1|rewrite M2; lra|rewrite X0; cbn; lia|exists y; rewrite X0, M2; cbn; auto|rewrite X0, M2; intros j [<-|[<-|[<-|[]]]]; rewrite ?X13, ?X23, ?X33; lra|].
  rewrite R1. cbn [bind e_total e_gen e_rem e_hist e_init]. cbn [c_max wdemo Nat.leb Nat.add bind].
  rewrite Q3 in R3. destruct (cores_3 _ _ _ _ R3) as (u & v & w & U0 & U1 & U2 & U3). injection U1 as U11 _ U13. injection U2 as U21 _ U23. injection U3 as U31 _ U33.
  assert (BS : pop_best (pop_recompute r) = Ok u).
  { unfold pop_best, pop_recompute. rewrite U0. cbn [fold_left]. change (@ndblmax R RNum) with DM. change (@ndblmin R RNum) with Dm. rewrite U11, U13, U21, U23, U31, U33. rewrite minmax_lo by lra. rewrite minmax_hi by lra. rewrite minmax_none by lra.
    unfold pop_get, pop_order. cbn [p_idmin p_inds find_id]. rewrite U11. reflexivity. }
  unfold ea_solution at 1. cbn [e_pop]. rewrite BS. cbn [bind]. eexists _, u. split; [reflexivity|]. split; [exact BS|]. split; [exact U13|]. cbn [e_pop]. rewrite recompute_inds, U0. cbn. now rewrite U11, U21, U31.
Qed.
Example C99_restart_example : exists (e : ea R) fs' (e1 : ea R), ea_optimize demo demo_us demo_ws (ea_new 1) = Ok (Some e) /\ ea_writeWarm (fun _ => true) show_scientific (Some restart) e (fun _ => None) = (fs', Ok tt) /\
  ea_readWarm (Some restart) fs' (ea_new 1) = (e1, Ok tt) /\ map i_id (p_inds (e_pop e1)) = [1; 2].
Proof.
  destruct demo_run as (e & H & CP & CH). exists e. pose proof dbl_small as DS. pose proof dbl_big as DB.
  assert (P0 : printable 0) by now left. assert (P1 : printable 1) by (right; rewrite Rabs_pos_eq; lra). assert (P2 : printable (1 / 2)) by (right; rewrite Rabs_pos_eq; lra).
  destruct (C99_restart_file (fun _ => true) show_scientific show_scientific_ok demo demo_us demo_ws e restart (fun _ => None) H) as (fs' & W & _ & e1 & RD & _ & _ & _ & F).
  - destruct (book_run demo demo_us demo_ws 1 e H) as (g & G & B & _). rewrite (bk_total _ _ _ _ B). cbn [demo c_gens c_size c_new] in *. lia.
  - intros i I. apply cores_in in I. rewrite CH in I. destruct I as [I|[I|[I|[]]]]; injection I as _ _ <-; assumption.
  - intros i g I Ig. apply cores_in in I. rewrite CP in I. destruct I as [I|[I|[]]]; injection I as _ Eg _; rewrite <- Eg in Ig; destruct Ig as [<-|[]]; assumption.
  - discriminate.
  - reflexivity.
  - exists fs', e1. split; [exact H|]. split; [exact W|]. split; [exact RD|].
    assert (M : map i_id (p_inds (e_pop e1)) = map i_id (p_inds (e_pop e))) by (apply (forall2_map_eq same_to_ten_digits i_id i_id); [intros a b S; exact (proj1 S)|exact F]). rewrite M, (cores_ids (e_pop e)), CP. reflexivity.
Qed.
