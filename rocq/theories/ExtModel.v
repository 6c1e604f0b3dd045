(** Model of the evaluation of a function by an external program (src/ObjectiveFunctions/objective_function.cpp,
    src/ObjectiveFunctions/constraint_functions.cpp).  The file system is a table of texts by file name.  What a program started by a
    command does to the files, and its exit code, is given from outside ([prog]; [None] when it cannot be started); the same holds for
    the files that can be opened for writing ([writable]) and the text the stream operator prints for a number ([shown]).  Logging is not
    modelled. *)
From Coq Require Import Ascii String ZArith Bool Arith List.
From Verif Require Import Base StM Num VecModel StrModel DriverModel.
Import ListNotations.

Definition files := str -> option str.
(** a file is written: the old contents are replaced *)
Definition put (f t : str) (fs : files) : files := fun g => if str_eqb g f then Some t else fs g.

(** getExecutionCommand: objective_function.cpp:530-546 *)
Definition executionCommand (exe : str) : str :=
  if (Nat.leb 3 (length exe) && str_eqb (skipn (length exe - 3) exe) (lit ".py"))%bool then lit "python " ++ exe
  else if contains (lit "/") exe then exe else lit "./" ++ exe.

(** stream >> double, the part before the exponent: white space, a sign, digits with an optional point; the number of digits after the
    point and the rest of the text.  Hexadecimal numbers, infinities and NaN are not read by the stream operator either *)
Definition mantissa (s : str) : option (Z * nat * str) :=
  let (neg, s1) := take_sign (skip_spaces s) in
  let (ip, s2) := span is_digit s1 in
  let (fp, s3) := match s2 with
                  | c :: t => if Ascii.eqb c "."%char then span is_digit t else ([], s2)
                  | [] => ([], s2)
                  end in
  if is_empty (ip ++ fp) then None else Some (signed neg (digits_val (ip ++ fp)), length fp, s3).
Definition starts_exponent (s : str) : bool := match s with c :: _ => (Ascii.eqb c "e" || Ascii.eqb c "E")%bool | [] => false end.
(** stream >> double: an exponent letter without digits makes the extraction fail *)
Definition streamNumber (s : str) : option (Z * Z * str) :=
  match mantissa s with
  | None => None
  | Some (m, k, s3) =>
      let (e, s4) := take_exponent s3 in
      if (starts_exponent s3 && Nat.eqb (length s4) (length s3))%bool then None else Some (m, (e - Z.of_nat k)%Z, s4)
  end.

Section Ext.
  Context {T : Type} {NT : Num T}.
  Context (prog : str -> files -> option (files * Z)) (writable : str -> bool) (shown : T -> str).

  (** readOutput, the loop: objective_function.cpp:681-687.  A value beyond the largest double makes the extraction fail;
      values below the smallest one are kept as they are *)
  Fixpoint readValues (n : nat) (s : str) : Res (vec T) :=
    match n with
    | O => Ok []
    | S k =>
        match streamNumber s with
        | None => Throw RuntimeError
        | Some (m, e, r) =>
            if (ndblmax <! nabs (nlit m e))%bool then Throw RuntimeError
            else l <- readValues k r ;; Ok (nlit m e :: l)
        end
    end.
  (** readOutput: objective_function.cpp:665-693 *)
  Definition readOutput (name : str) (howMany : nat) : SM files (vec T) :=
    run sthrow_if (is_empty name) InvalidArgument;
    get c <-- sget (fun fs => fs name);
    match c with
    | None => sthrow RuntimeError
    | Some t => slift (readValues howMany t)
    end.

  (** writeDesignVariablesToFile: objective_function.cpp:697-724, in the evaluation mode "primal"; abort() counts as a failed assertion *)
  Definition writeDesign (dim : nat) (dv : str) (x : vec T) : SM files unit :=
    run sassert (Nat.eqb (length x) dim);
    run sassert (negb (is_empty dv));
    run sassert (writable dv);
    smod (put dv (concat (map (fun a => shown a ++ newline) x))).

  (** evaluateObjectiveFunction: objective_function.cpp:823-855; the evaluation mode is "primal" whenever it is called *)
  Definition runProgram (exe : str) : SM files unit :=
    if is_empty exe then sret tt
    else fun fs =>
      match prog (executionCommand exe) fs with
      | None => (fs, Throw RuntimeError)
      | Some (fs', c) => (fs', if Z.eqb c 0 then Ok tt else Throw RuntimeError)
      end.

  (** ObjectiveFunction::evaluateDesign without a function pointer: objective_function.cpp:726-762; the value becomes the true value of
      the design *)
  Definition evaluateExternally (dim : nat) (d : odef) (x : vec T) : SM files T :=
    run sthrow_if (negb (Nat.eqb (length x) dim)) InvalidArgument;
    run writeDesign dim (od_dv d) x;
    run runProgram (od_exe d);
    get r <-- readOutput (od_out d) 1;
    match r with [] => sthrow RuntimeError | v :: _ => sret v end.

  (** catch (const std::exception&) and throw runtime_error: constraint_functions.cpp:183-185; a failed assertion is not an exception *)
  Definition rethrow {S A} (m : SM S A) : SM S A := fun s =>
    match m s with
    | (s', Throw AssertFail) => (s', Throw AssertFail)
    | (s', Throw _) => (s', Throw RuntimeError)
    | r => r
    end.
  (** ConstraintFunction::evaluateDesign without a function pointer: constraint_functions.cpp:164-226; [vals] are the constraint values
      of the design, [id] the number of the constraint *)
  Definition evaluateConstraintExternally (dim : nat) (d : odef) (id : nat) (x vals : vec T) : SM files (vec T) :=
    rethrow (
      run sthrow_if (negb (Nat.eqb (length x) dim)) InvalidArgument;
      run writeDesign dim (od_dv d) x;
      run runProgram (od_exe d);
      get r <-- readOutput (od_out d) 1;
      run sthrow_if (Nat.leb (length vals) id) OutOfRange;
      match r with [] => sthrow RuntimeError | v :: _ => sret (firstn id vals ++ v :: skipn (S id) vals) end).
End Ext.
