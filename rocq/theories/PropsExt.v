(** C88: functions evaluated by external programs. *)
From Coq Require Import Ascii String ZArith Bool Arith Reals Lra List Lia.
From Verif Require Import Base StM Num RealNum VecModel StrModel StrSpec StrNum DriverModel DriverDemo ExtModel ExtSpec ExtProofs.
Import ListNotations.
Local Open Scope R_scope.

Section C88.
  Context (prog : str -> files -> option (files * Z)) (writable : str -> bool) (shown : R -> str).
  Notation evaluate := (evaluateExternally prog writable shown).
  Notation evaluateConstraint := (evaluateConstraintExternally prog writable shown).

  (** the command a program is started with *)
  Theorem C88_command exe cmd : command_of exe cmd <-> cmd = executionCommand exe.
  Proof. exact (command_iff exe cmd). Qed.

  (** when an evaluation gives a value: the program was started after the design had been written and ended with the exit code 0, and
      the value is the number its output file starts with *)
  Theorem C88_value dim d x fs fs' v : evaluate dim d x fs = (fs', Ok v) <->
    length x = dim /\ od_dv d <> [] /\ writable (od_dv d) = true /\ od_out d <> [] /\
    (exists t, fs' (od_out d) = Some t /\ first_number t v) /\
    ((od_exe d = [] /\ fs' = put (od_dv d) (number_lines (map shown x)) fs) \/
     (od_exe d <> [] /\ prog (executionCommand (od_exe d)) (put (od_dv d) (number_lines (map shown x)) fs) = Some (fs', 0%Z))).
  Proof.
    rewrite eval_split. split.
    - destruct (ran prog writable shown dim d x fs) as [f [[]|e|]] eqn:R; try (intros [=]; fail). apply ran_ok in R.
      destruct (readOutput (od_out d) 1 f) as [f' [[|w l]|e|]] eqn:O; try (intros [=]; fail). apply read_output_one in O. destruct O as (N & -> & t & w' & F & FN & [= -> ->]).
      intros [= <- <-]. destruct R as (L & D & W & C). repeat split; auto. eauto.
    - intros (L & D & W & N & (t & F & FN) & C).
      assert (R : ran prog writable shown dim d x fs = (fs', Ok tt)). { apply ran_ok. auto. }
      rewrite R. assert (O : readOutput (od_out d) 1 fs' = (fs', Ok [v])). { apply read_output_one. repeat split; auto. eauto. } now rewrite O.
  Qed.

  (** a program that cannot be started, reports an error, leaves no output or an output not starting with a number never gives a value:
      the evaluation throws runtime_error *)
  Theorem C88_failures dim d x fs : length x = dim -> od_dv d <> [] -> writable (od_dv d) = true -> od_out d <> [] -> od_exe d <> [] ->
    match prog (executionCommand (od_exe d)) (put (od_dv d) (number_lines (map shown x)) fs) with
    | None => True
    | Some (fs', c) => c <> 0%Z \/ fs' (od_out d) = None \/ exists t, fs' (od_out d) = Some t /\ forall v, ~ first_number t v
    end -> snd (evaluate dim d x fs) = Throw RuntimeError.
  Proof.
    intros L D W N E H. rewrite eval_split. destruct (ran prog writable shown dim d x fs) as [f r] eqn:R.
    assert (Q : r = Ok tt \/ r <> Ok tt) by (destruct r as [[]|e|]; auto; right; discriminate). destruct Q as [->|Q].
    - apply ran_ok in R. destruct R as (_ & _ & _ & [[C _]|[_ C]]); [congruence|]. unfold text_of in C. rewrite C in H.
      destruct (readOutput (od_out d) 1 f) as [f' r] eqn:O. pose proof O as O'. destruct (read_output_fails _ _ _ _ _ O) as [[l ->]|[(-> & _ & ->)|(_ & X & _)]]; [|reflexivity|congruence].
      apply read_output_one in O'. destruct O' as (_ & -> & t & v & F & FN & ->). destruct H as [H|[H|(t' & H & NF)]]; [congruence|congruence|].
      assert (t' = t) by congruence. subst t'. destruct (NF v FN).
    - destruct (ran_fails _ _ _ _ _ _ _ _ _ R Q) as [(C & _)|[(_ & _ & [C|C])|(-> & _)]]; [congruence|congruence|congruence|reflexivity].
  Qed.
  (** in every case but failed assertions a constraint evaluation that does not succeed throws runtime_error, and the values of the
      other constraints stay as they are *)
  Theorem C88_constraint dim d id x vals fs fs' r : evaluateConstraint dim d id x vals fs = (fs', r) ->
    (exists v, evaluate dim d x fs = (fs', Ok v) /\ (id < length vals)%nat /\ exists vals', r = Ok vals' /\ length vals' = length vals /\ nth_error vals' id = Some v /\
       forall j, j <> id -> nth_error vals' j = nth_error vals j) \/
    r = Throw RuntimeError \/ (r = Throw AssertFail /\ fs' = fs /\ (od_dv d = [] \/ writable (od_dv d) = false)).
  Proof.
    rewrite con_split. unfold rethrow. destruct (ran prog writable shown dim d x fs) as [f r0] eqn:R.
    assert (Q : r0 = Ok tt \/ r0 <> Ok tt) by (destruct r0 as [[]|e|]; auto; right; discriminate). destruct Q as [->|Q].
    - destruct (readOutput (od_out d) 1 f) as [f' r1] eqn:O. pose proof O as O'. destruct (read_output_fails _ _ _ _ _ O) as [[l ->]|[(-> & _ & ->)|(-> & _ & ->)]]; [|intros [= <- <-]; auto|intros [= <- <-]; auto].
      apply read_output_one in O'. destruct O' as (NO & -> & t & v & F & FN & ->). destruct (Nat.leb_spec (length vals) id) as [G|G]; intros [= <- <-]; [auto|].
      left. exists v. split. { rewrite eval_split, R, O. reflexivity. } split; [exact G|]. eexists. split; [reflexivity|].
      assert (LF : length (firstn id vals) = id) by (rewrite firstn_length; lia). split; [|split].
      + rewrite app_length, LF. change (id + S (length (skipn (S id) vals)) = length vals)%nat. rewrite skipn_length. lia.
      + rewrite nth_error_app2 by lia. rewrite LF, Nat.sub_diag. reflexivity.
      + intros j N. destruct (Nat.lt_ge_cases j id) as [J|J].
        * rewrite nth_error_app1 by lia. rewrite <- (firstn_skipn id vals) at 2. rewrite nth_error_app1 by lia. reflexivity.
        * rewrite nth_error_app2 by lia. rewrite LF. destruct (j - id)%nat as [|k] eqn:K; [lia|]. cbn [nth_error]. rewrite <- (firstn_skipn (S id) vals) at 2.
          rewrite nth_error_app2 by (rewrite firstn_length; lia). rewrite firstn_length. f_equal. lia.
    - destruct (ran_fails _ _ _ _ _ _ _ _ _ R Q) as [(_ & -> & _)|[(-> & -> & C)|(-> & _)]]; intros [= <- <-]; auto.
  Qed.

  (** a program computing [g] is asked for [g] of the design rounded to six digits, whatever the files contained before: the evaluation is a
      function of the design *)
  Theorem C88_function dim d x g : length x = dim -> od_dv d <> [] -> writable (od_dv d) = true -> od_out d <> [] -> od_exe d <> [] ->
    (forall cmd, command_of (od_exe d) cmd -> computes prog cmd (od_dv d) (od_out d) g) -> Forall2 prints x (map shown x) ->
    exists vs, Forall2 six_digits_of x vs /\ Forall2 (fun a v => Rabs (a - v) <= 5 / 1000000 * Rabs v) x vs /\ forall fs, snd (evaluate dim d x fs) = Ok (g vs).
  Proof.
    intros L D W N E P S.
    assert (V : exists vs, Forall2 six_digits_of x vs /\ Forall2 denotes (map shown x) vs).
    { clear - S. induction x as [|a x IH]; cbn [map] in *. { exists []. split; constructor. }
      inversion S as [|? ? ? ? (v & DN & SX) S']; subst. destruct (IH S') as (vs & A & B). exists (v :: vs). split; constructor; auto. }
    destruct V as (vs & A & B). exists vs. split; [exact A|]. split. { clear - A. induction A; constructor; auto. now apply six_digits_close. }
    intros fs. destruct (P (executionCommand (od_exe d)) (proj2 (command_iff _ _) eq_refl) (put (od_dv d) (number_lines (map shown x)) fs) (map shown x) vs (put_same _ _ _) B) as (fs' & t & PR & F & FN).
    assert (K : evaluate dim d x fs = (fs', Ok (g vs))); [|now rewrite K]. apply C88_value. repeat split; eauto.
  Qed.

  (** every file but the design file is left to the program *)
  Theorem C88_files dim d x fs fs' r : evaluate dim d x fs = (fs', r) ->
    fs' = fs \/ fs' = put (od_dv d) (number_lines (map shown x)) fs \/ exists c, od_exe d <> [] /\ prog (executionCommand (od_exe d)) (put (od_dv d) (number_lines (map shown x)) fs) = Some (fs', c).
  Proof.
    rewrite eval_split. destruct (ran prog writable shown dim d x fs) as [f r0] eqn:R.
    assert (Q : r0 = Ok tt \/ r0 <> Ok tt) by (destruct r0 as [[]|e|]; auto; right; discriminate). destruct Q as [->|Q].
    - destruct (readOutput (od_out d) 1 f) as [f' r1] eqn:O.
      assert (FF : f' = f). { pose proof O as O'. destruct (read_output_fails _ _ _ _ _ O) as [[l ->]|[(-> & _)|(-> & _)]]; auto. apply read_output_one in O'. tauto. } subst f'.
      intros H. assert (fs' = f) as -> by (destruct r1 as [[|v l]|e|]; congruence). apply ran_ok in R. destruct R as (_ & _ & _ & [[_ ->]|[NE C]]); [auto|]. right. right. exists 0%Z. auto.
    - destruct (ran_fails _ _ _ _ _ _ _ _ _ R Q) as [(_ & -> & ->)|[(-> & -> & _)|(-> & NE & C)]].
      + intros [= <- _]. auto. + intros [= <- _]. auto.
      + intros [= <- _]. unfold text_of in C. destruct (prog _ _) as [[f0 c]|]; [|auto]. destruct C as [-> _]. right. right. eauto.
  Qed.
  (** the file starts with the number of the design's first parameter as it was printed, and so on *)
  Theorem C88_design_file dv t fs : put dv t fs dv = Some t /\ forall g, g <> dv -> put dv t fs g = fs g.
  Proof. split; [apply put_same|]. intros g. apply put_other. Qed.

  (** an output left by an earlier evaluation is taken as the value of any design when the program does not write its output ... *)
  Theorem C88_leftover dim d x fs fs' t v : length x = dim -> od_dv d <> [] -> writable (od_dv d) = true -> od_out d <> [] -> od_exe d <> [] ->
    prog (executionCommand (od_exe d)) (put (od_dv d) (number_lines (map shown x)) fs) = Some (fs', 0%Z) -> fs' (od_out d) = fs (od_out d) -> fs (od_out d) = Some t -> first_number t v ->
    snd (evaluate dim d x fs) = Ok v.
  Proof.
    intros L D W N E P S F FN. assert (K : evaluate dim d x fs = (fs', Ok v)); [|now rewrite K]. apply C88_value. repeat split; auto. exists t. split; [congruence|exact FN].
  Qed.
  (** ... or no program is given *)
  Theorem C88_no_program dim d x fs t v : length x = dim -> od_dv d <> [] -> writable (od_dv d) = true -> od_out d <> [] -> od_exe d = [] -> od_out d <> od_dv d ->
    fs (od_out d) = Some t -> first_number t v -> snd (evaluate dim d x fs) = Ok v.
  Proof.
    intros L D W N E NE F FN. assert (K : evaluate dim d x fs = (put (od_dv d) (number_lines (map shown x)) fs, Ok v)); [|now rewrite K].
    apply C88_value. repeat split; auto. exists t. split; [rewrite put_other by exact NE; exact F|exact FN].
  Qed.

  (** numbers are printed to six digits: a design in the box may be evaluated outside of it.  For the upper bound 2/3 it always is *)
  Theorem C88_box_refuted dim d g : dim = 1%nat -> od_dv d <> [] -> writable (od_dv d) = true -> od_out d <> [] -> od_exe d <> [] ->
    (forall cmd, command_of (od_exe d) cmd -> computes prog cmd (od_dv d) (od_out d) g) -> prints (2 / 3) (shown (2 / 3)) ->
    exists v, v > 2 / 3 /\ forall fs, snd (evaluate dim d [2 / 3] fs) = Ok (g [v]).
  Proof.
    intros -> D W N E P S. destruct (C88_function 1 d [2 / 3] g eq_refl D W N E P) as (vs & A & _ & B). { repeat constructor. exact S. }
    inversion A as [|? v ? vs' A1 A2]; subst. inversion A2; subst. exists v. apply six_digits_two_thirds in A1. split; [lra|exact B].
  Qed.
End C88.

(** the value of a design need not have anything to do with the design *)
Theorem C88_stale_refuted : exists (prog : str -> files -> option (files * Z)) d fs, od_exe d <> [] /\ (forall cmd f, prog cmd f = Some (f, 0%Z)) /\
  forall shown x, snd (evaluateExternally prog (fun _ => true) shown (length x) d x fs) = Ok 5.
Proof.
  exists (fun _ f => Some (f, 0%Z)), (mkOD (lit "f") (lit "dv.dat") (lit "f") [] (lit "out.dat") [] (lit "f.csv") false MOrdinary), (put (lit "out.dat") (lit "5.0") (fun _ => None)).
  split; [discriminate|]. split; [reflexivity|]. intros shown x. eapply C88_leftover; cbn [od_dv od_out od_exe]; try reflexivity; try discriminate.
  exists 50%Z, (-1)%Z, []. split; [|split].
  - apply stream_number_iff. vm_compute. reflexivity.
  - cbn. try change (Pos.to_nat 1) with 1%nat. cbn. lra.
  - apply range_max. rewrite Rabs_right by lra. lra.
Qed.

(** a program for which the hypotheses hold: it writes the first number of its input back *)
Definition copy_prog (_ : str) (fs : files) : option (files * Z) :=
  match fs (lit "dv.dat") with Some t => Some (put (lit "out.dat") t fs, 0%Z) | None => None end.
Definition copy_def : odef := mkOD (lit "f") (lit "dv.dat") (lit "copy.py") [] (lit "out.dat") [] (lit "f.csv") false MOrdinary.
Example C88_example : executionCommand (lit "copy.py") = lit "python copy.py" /\ executionCommand (lit "bin/f") = lit "bin/f" /\ executionCommand (lit "f") = lit "./f" /\
  prints (2 / 3) (lit "0.666667") /\ prints (-1500) (lit "-1500") /\ prints (/ 10000000) (lit "1e-07") /\
  snd (evaluateExternally copy_prog (fun _ => true) (fun _ => lit "0.666667") 1 copy_def [2 / 3] (fun _ => None)) = Ok (666667 / 1000000) /\
  snd (evaluateExternally copy_prog (fun _ => true) (fun _ => lit "abc") 1 copy_def [2 / 3] (fun _ => None)) = Throw RuntimeError.
Proof.
  assert (D : forall t m e x, streamNumber t = Some (m, e, []) -> x = IZR m * powerRZ 10 e -> denotes t x). { intros t m e x H ->. exists m, e. split; [now apply stream_number_iff|reflexivity]. }
  split; [reflexivity|]. split; [reflexivity|]. split; [reflexivity|]. split.
  { exists (666667 / 1000000). split.
    - eapply D; [vm_compute; reflexivity|]. unfold powerRZ. change (Pos.to_nat 6) with 6%nat. cbn. lra.
    - right. exists 666667%Z, (-6)%Z. split; [lia|]. unfold powerRZ. change (Pos.to_nat 6) with 6%nat. split; [cbn; lra|]. apply Rabs_le. cbn. lra. }
  split.
  { exists (-1500). split.
    - eapply D; [vm_compute; reflexivity|]. cbn. lra.
    - right. exists (-150000)%Z, (-2)%Z. split; [lia|]. unfold powerRZ. change (Pos.to_nat 2) with 2%nat. split; [cbn; lra|]. apply Rabs_le. cbn. lra. }
  split.
  { exists (/ 10000000). split.
    - eapply D; [vm_compute; reflexivity|]. unfold powerRZ. change (Pos.to_nat 7) with 7%nat. cbn. lra.
    - right. exists 100000%Z, (-12)%Z. split; [lia|]. unfold powerRZ. change (Pos.to_nat 12) with 12%nat. split; [cbn; lra|]. apply Rabs_le. cbn. lra. }
  split.
  - assert (K : evaluateExternally copy_prog (fun _ => true) (fun _ => lit "0.666667") 1 copy_def [2 / 3] (fun _ => None) =
      (put (lit "out.dat") (number_lines [lit "0.666667"]) (put (lit "dv.dat") (number_lines [lit "0.666667"]) (fun _ => None)), Ok (666667 / 1000000))); [|now rewrite K].
    apply C88_value. cbn [length od_dv copy_def od_out od_exe map]. repeat split; try discriminate.
    + eexists. split; [reflexivity|]. exists 666667%Z, (-6)%Z, newline. split; [apply stream_number_iff; vm_compute; reflexivity|].
      split; [unfold powerRZ; change (Pos.to_nat 6) with 6%nat; cbn; lra|]. apply range_max. rewrite Rabs_right by lra. lra.
    + right. split; [discriminate|reflexivity].
  - apply C88_failures; try discriminate; try reflexivity. right. right. eexists. split; [reflexivity|]. intros v (m & e & r & S & _). apply stream_number_iff in S. vm_compute in S. discriminate S.
Qed.

Print Assumptions C88_command.
Print Assumptions C88_value.
Print Assumptions C88_failures.
Print Assumptions C88_constraint.
Print Assumptions C88_function.
Print Assumptions C88_files.
Print Assumptions C88_design_file.
Print Assumptions C88_leftover.
Print Assumptions C88_no_program.
Print Assumptions C88_box_refuted.
Print Assumptions C88_stale_refuted.
