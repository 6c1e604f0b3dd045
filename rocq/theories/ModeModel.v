(** Model of the modes of an objective function, of the adding of a design to its training data and of the reading of the gradient of
    the best design (src/ObjectiveFunctions/objective_function.cpp, src/Optimizers/globalOptimalDesign.cpp).  The surrogate model is a
    Kriging model (StudyModel); a file with training data is the table read from it.  The effect of the calls on a multi-level surrogate
    model ([lowfi], by mode and design), what programs do to the files ([prog]), the files that can be written ([writable]) and the
    printed numbers ([shown]) are given from outside.  Logging is not modelled. *)
From Coq Require Import Ascii String ZArith Bool Arith List Reals.
From Verif Require Import Base StM Num RealNum VecModel MatModel DesignModel HistModel KrigModel TrainModel StrModel DriverModel ExtModel CsvModel StudyModel.
Import ListNotations.

(** members: objective_function.hpp:60-135 (those used below); [o_named] the name of the training data file of the definition *)
Record objf := mkObj { o_eval : str; o_add : str; o_named : str; o_init : bool; o_multi : bool; o_sm : smodel; o_fs : files }.
Definition oset_eval (m : str) (s : objf) : objf := mkObj m (o_add s) (o_named s) (o_init s) (o_multi s) (o_sm s) (o_fs s).
Definition oset_add (m : str) (s : objf) : objf := mkObj (o_eval s) m (o_named s) (o_init s) (o_multi s) (o_sm s) (o_fs s).
Definition oset_sm (m : smodel) (s : objf) : objf := mkObj (o_eval s) (o_add s) (o_named s) (o_init s) (o_multi s) m (o_fs s).
Definition oset_fs (f : files) (s : objf) : objf := mkObj (o_eval s) (o_add s) (o_named s) (o_init s) (o_multi s) (o_sm s) f.

(** validateEvaluationMode, validateDataAddMode: objective_function.cpp:182-194 *)
Definition validMode (m : str) : bool := existsb (str_eqb m) [lit "primal"; lit "adjoint"; lit "tangent"].
(** setEvaluationMode: objective_function.cpp:170-179 *)
Definition setEvaluationMode (m : str) : SM objf unit :=
  run sthrow_if (is_empty m) InvalidArgument;
  run sthrow_if (negb (validMode m)) InvalidArgument;
  smod (oset_eval m).
(** setDataAddMode: objective_function.cpp:197-205 *)
Definition setDataAddMode (m : str) : SM objf unit :=
  run sthrow_if (is_empty m) InvalidArgument;
  run sthrow_if (negb (validMode m)) InvalidArgument;
  smod (oset_add m).
(** isHiFiEvaluation: objective_function.cpp:773-777 *)
Definition isHiFi (s : objf) : bool := str_eqb (o_eval s) (lit "primal").

Section Mode.
  Context (fmt : R -> R) (lowfi : str -> design R -> list nat -> SM objf unit).
  (** the sample of a design, by mode: objective_function.cpp:558-571, 637-650; no mode matches: the vector stays empty *)
  Definition sampleFor (how : str) (d : design R) : Res (vec R) :=
    v1 <- (if str_eqb how (lit "primal") then sample_obj d else Ok []) ;;
    v2 <- (if str_eqb how (lit "tangent") then sample_objT d else Ok v1) ;;
    v3 <- (if str_eqb how (lit "adjoint") then sample_objG d else Ok v2) ;;
    if str_eqb how (lit "adjointWithZeroGradient") then sample_objG0 d else Ok v3.
  (** the part for one fidelity level: objective_function.cpp:554-577, 633-656 *)
  Definition addSingle (how : str) (d : design R) (perm : list nat) : SM objf unit :=
    get v <-- slift (sampleFor how d);
    run sassert (Nat.ltb 0 (length v));
    szoom o_sm oset_sm (addSample fmt v perm).
  (** addDesignToData(d): objective_function.cpp:549-615; the surrogate model of a multi-level function is called in two modes only *)
  Definition addDesignToData (d : design R) (perm : list nat) : SM objf unit :=
    get s <-- sget (fun s => s);
    run sassert (negb (is_empty (o_named s)));
    run sassert (o_init s);
    run sassert (negb (is_empty (o_add s)));
    if o_multi s then
      run swhen (str_eqb (o_add s) (lit "primalBoth")) (lowfi (o_add s) d perm);
      swhen (str_eqb (o_add s) (lit "primalHiFiAdjointLowFi")) (lowfi (o_add s) d perm)
    else addSingle (o_add s) d perm.
  (** addDesignToData(d, how): objective_function.cpp:617-660; nothing is done for a multi-level function *)
  Definition addDesignToDataHow (d : design R) (how : str) (perm : list nat) : SM objf unit :=
    get s <-- sget (fun s => s);
    run sthrow_if (is_empty (o_named s)) RuntimeError;
    run sthrow_if (negb (o_init s)) RuntimeError;
    run sthrow_if (is_empty how) RuntimeError;
    if o_multi s then sret tt else addSingle how d perm.

  Context (prog : str -> files -> option (files * Z)) (writable : str -> bool) (shown : R -> str).
  (** writeDesignVariablesToFile in any mode: objective_function.cpp:697-724.  In the tangent modes the direction follows the parameters;
      the assertion on its size is made when the parameters are already in the file *)
  Definition writeDesignIn (dim : nat) (dv : str) (d : design R) : SM objf unit :=
    get s <-- sget (fun s => s);
    run szoom o_fs oset_fs (writeDesign writable shown dim dv (ds_x d));
    swhen (str_eqb (o_eval s) (lit "tangent") || str_eqb (o_eval s) (lit "tangentLowFi"))
      (run sassert (Nat.eqb (length (ds_dir d)) dim);
       smod (fun s => oset_fs (put dv (concat (map (fun a => shown a ++ newline) (ds_x d ++ ds_dir d))) (o_fs s)) s)).
  (** checkEvaluationModeForPrimalExecution: objective_function.cpp:807-822 *)
  Definition checkPrimal : SM objf unit :=
    get s <-- sget (fun s => s);
    run sthrow_if (is_empty (o_eval s)) RuntimeError;
    sthrow_if (negb (str_eqb (o_eval s) (lit "primal")) && negb (str_eqb (o_eval s) (lit "primalLowFi"))) RuntimeError.
  (** evaluateObjectiveFunction: objective_function.cpp:823-855, preceded by the check *)
  Definition runIn (exe : str) : SM objf unit := run checkPrimal; szoom o_fs oset_fs (runProgram prog exe).
  (** evaluateDesign: objective_function.cpp:726-770; [fn] is the function registered by the user, if any.  The value becomes the true
      value of the design *)
  Definition evaluateDesignIn (dim : nat) (od : odef) (fn : option (vec R -> R)) (d : design R) : SM objf R :=
    run sthrow_if (negb (Nat.eqb (length (ds_x d)) dim)) InvalidArgument;
    run setEvaluationMode (lit "primal");
    match fn with
    | Some f => sret (f (ds_x d))
    | None =>
        run writeDesignIn dim (od_dv od) d;
        run runIn (od_exe od);
        get r <-- szoom o_fs oset_fs (readOutput (od_out od) 1);
        match r with [] => sthrow RuntimeError | v :: _ => sret v end
    end.

  (** the calls on an objective function *)
  Inductive ocall :=
  | CallEval (m : str) | CallAddMode (m : str) | CallEvaluate (dim : nat) (od : odef) (fn : option (vec R -> R)) (d : design R)
  | CallAdd (d : design R) (perm : list nat) | CallAddHow (d : design R) (how : str) (perm : list nat).
  Definition ocall_run (c : ocall) : SM objf unit :=
    match c with
    | CallEval m => setEvaluationMode m
    | CallAddMode m => setDataAddMode m
    | CallEvaluate dim od fn d => run evaluateDesignIn dim od fn d; sret tt
    | CallAdd d perm => addDesignToData d perm
    | CallAddHow d how perm => addDesignToDataHow d how perm
    end.
  (** a program that makes the calls one after the other and catches every exception *)
  Definition ocalls (l : list ocall) (s : objf) : objf := fold_left (fun s c => fst (ocall_run c s)) l s.
End Mode.

(** setGradientGlobalOptimumFromTrainingData: globalOptimalDesign.cpp:111-162; the file is read without a header *)
Definition gopt_gradient (fs : files) (name : str) : SM (gopt R) unit :=
  get g <-- sget (fun g => g);
  let d := ds_dim (go_d g) in
  run sthrow_if (is_empty name) InvalidArgument;
  run sthrow_if (Nat.eqb d 0) LogicError;
  run sthrow_if (Nat.eqb (length (ds_x (go_d g))) 0) LogicError;
  get m <-- slift (snd (mat_readFromCSV name false fs));
  run sthrow_if (Nat.eqb (nrows m) 0 || Nat.ltb (ncols m) d) RuntimeError;
  get sub <-- slift (mat_submat m 0 (nrows m - 1) 0 (d - 1));
  get ix <-- slift (mat_findRowIndex sub (ds_x (go_d g)) (nlit 1 (-5)));
  run sthrow_if (Z.eqb ix (-1)) RuntimeError;
  get r <-- slift (mat_getRow m ix);
  run sthrow_if (Nat.ltb (length r) (d * 2)) RuntimeError;
  get t <-- slift (vec_tail r d);
  in_god (ds_set_grad t).
