(** Model of the configuration-file driver (src/Driver/driver_xml.cpp, INCLUDE/driver_xml.hpp).
    Printing and logging are not modelled.  The contents of the files of the file system are given ([files]); they do not
    change while a configuration is read.  How a function described by a definition is evaluated ([ext], an external program) and
    what the linked user-defined constraint functions compute ([udf]) is given from outside. *)
From Coq Require Import Ascii String ZArith Bool Arith List.
From Verif Require Import Base StM Num VecModel MatModel BoundsModel DesignModel HistModel KrigModel OptModel StrModel KeyModel ApiModel.
Import ListNotations.

(** SURROGATE_MODEL: surrogate_model.hpp:46-52, the kinds a configuration can name *)
Inductive smodel := MOrdinary | MUniversal | MTangent | MGradient.
(** getSurrogateModelID: driver_xml.cpp:69-94; the entries in the order of std::map *)
Definition model_names : list (str * smodel) :=
  map (fun p => (lit (fst p), snd p))
    [("DEFAULT", MOrdinary); ("GRADIENT_ENHANCED", MGradient); ("TANGENT_ENHANCED", MTangent); ("default", MOrdinary); ("gradient_enhanced", MGradient);
     ("kriging", MOrdinary); ("ordinary_kriging", MOrdinary); ("tangent_enhanced", MTangent); ("universal_kriging", MUniversal)]%string.
Fixpoint model_find (name : str) (l : list (str * smodel)) : Res smodel :=
  match l with
  | [] => Throw InvalidArgument
  | (k, m) :: t => b <- isEqual name k ;; if b then Ok m else model_find name t
  end.
Definition surrogateModelID (name : str) : Res smodel := if is_empty name then Ok MOrdinary else model_find name model_names.

(** an int passed as unsigned int *)
Definition wrap32 (z : Z) : nat := Z.to_nat (z mod 2 ^ 32).

(** ObjectiveFunctionDefinition: objective_function.hpp:55-82; directional derivatives, path and unused flags left out *)
Record odef := mkOD { od_name : str; od_dv : str; od_exe : str; od_exeg : str; od_out : str; od_outg : str; od_train : str; od_multi : bool; od_model : smodel }.

(** the lines of a text as std::getline delivers them *)
Definition lines_of (s : str) : list str := let l := split_on (ascii_of_nat 10) s in if is_empty (last l []) then removelast l else l.
(** erase up to the first and after the last character that is not blank or tab: driver_xml.cpp:1054-1055 *)
Definition blank (c : ascii) : bool := (Nat.eqb (code c) 32 || Nat.eqb (code c) 9)%bool.
Definition trim_line (s : str) : str := rev (snd (span blank (rev (snd (span blank s))))).
(** readConstraintFunctionsFromXML: driver_xml.cpp:1039-1078.  State: inside a block, its text so far, the blocks found *)
Definition con_tag : str := lit "constraint_function".
Definition contains (p s : str) : bool := match find p s with Some _ => true | None => false end.
Definition block_step (st : bool * str * list str) (line : str) : bool * str * list str :=
  let '(inside, cur, acc) := st in
  let l := trim_line line in
  let '(inside, cur) := if contains (start_tag con_tag) l then (true, []) else (inside, cur) in
  let '(inside, acc) := if contains (end_tag con_tag) l then (false, acc ++ [cur]) else (inside, acc) in
  (inside, if inside then cur ++ l ++ newline else cur, acc).
Definition constraintBlocks (text : str) : list str := snd (fold_left block_step (lines_of text) (false, [], [])).

Section Driver.
  Context {T : Type} {NT : Num T}.

  (** *** keywords *)
  (** addConfigKey: driver_xml.cpp:35-42 (all names are not empty, all types known) *)
  Definition new_key (n : str) (t : ktype) : keyword T := mkKey n t false (nlit 1 (-13)) [] [] [] (-10000000)%Z.
  Definition new_keys (l : list (string * ktype)) : list (keyword T) := map (fun p => new_key (lit (fst p)) (snd p)) l.
  (** addConfigKeysGeneralSettings: 44-65; addConfigKeysObjectiveFunction: 771-792; addConfigKeysConstraintFunction: 741-766 *)
  Definition general_keys : list (string * ktype) :=
    [("name", KString); ("type", KString); ("display", KString); ("dimension", KInt); ("lower_bounds", KDoubleVector); ("upper_bounds", KDoubleVector);
     ("number_of_function_evaluations", KInt); ("max_number_of_inner_iterations", KInt); ("number_of_threads", KInt)]%string.
  Definition objective_keys : list (string * ktype) :=
    [("multi_fidelity", KString); ("name", KString); ("design_vector_filename", KString); ("warm_start", KString); ("output_filename", KString);
     ("output_filename_gradient", KString); ("executable_filename", KString); ("executable_filename_gradient", KString); ("executable_filename_tangent", KString);
     ("surrogate_model_type", KString); ("training_data_filename", KString); ("number_of_training_iterations", KInt)]%string.
  Definition constraint_keys : list (string * ktype) :=
    [("multi_fidelity", KString); ("name", KString); ("constraint_value", KString); ("constraint_type", KString); ("user_defined_function", KString);
     ("design_vector_filename", KString); ("warm_start", KString); ("output_filename", KString); ("output_filename_gradient", KString);
     ("executable_filename", KString); ("executable_filename_gradient", KString); ("executable_filename_tangent", KString);
     ("surrogate_model_type", KString); ("training_data_filename", KString); ("number_of_training_iterations", KInt)]%string.
  (** for (auto& keyword : list) keyword.getValueFromXMLString(input) *)
  Fixpoint read_keys (input : str) (l : list (keyword T)) : list (keyword T) * Res unit :=
    match l with
    | [] => ([], Ok tt)
    | k :: t => match kw_read input k with
                | (k', Ok _) => let (t', r) := read_keys input t in (k' :: t', r)
                | (k', r) => (k' :: t, r)
                end
    end.
  (** getConfigKeyValueInt: 795-811; getConfigKeyValueString: 857-880 *)
  Definition key_find (l : list (keyword T)) (n : str) : option (keyword T) := List.find (fun k => str_eqb (kw_name k) n) l.
  Definition key_int (l : list (keyword T)) (n : string) : Res Z :=
    if is_empty l then Throw InvalidArgument else match key_find l (lit n) with Some k => kw_getInt k | None => Ok (-10000000)%Z end.
  Definition key_string (l : list (keyword T)) (n : string) : Res str :=
    if is_empty l then Throw InvalidArgument else match key_find l (lit n) with Some k => kw_getString k | None => Ok [] end.
  (** a key that must not be empty *)
  Definition key_required (l : list (keyword T)) (n : string) : Res str := v <- key_string l n ;; if is_empty v then Throw InvalidArgument else Ok v.

  (** *** the driver *)
  (** Parameter: driver_xml.hpp:16-34 *)
  Record param := mkParam { pa_name : str; pa_type : str; pa_lb : T; pa_ub : T; pa_inc : T }.
  (** what an objective or constraint function of the study holds beside the [fobj] of the optimiser: definition, training
      iterations, whether it is a linked user-defined function *)
  Record dfun := mkDF { df_def : odef; df_iters : nat; df_user : bool }.
  (** Driver: driver_xml.hpp:37-60; of the member objectiveFunction only the number of training iterations outlives a reading.
      Of the Optimizer: [d_opt] and, beside it, number of threads, parameter names (optimization_history.cpp:63-94), discrete
      parameters (index, increment), the definitions of objective and constraints *)
  Record driver := mkD { d_fileset : bool; d_keysinit : bool; d_isopt : bool; d_isread : bool; d_fname : str;
    d_gk : list (keyword T); d_ok : list (keyword T); d_ck : list (keyword T); d_params : list param; d_box : bnds T; d_iters : nat;
    d_objf : option dfun; d_conf : list dfun; d_threads : nat; d_names : list str; d_disc : list (nat * T); d_opt : popt T }.
  Definition w_d_fileset x s := mkD x (d_keysinit s) (d_isopt s) (d_isread s) (d_fname s) (d_gk s) (d_ok s) (d_ck s) (d_params s) (d_box s) (d_iters s) (d_objf s) (d_conf s) (d_threads s) (d_names s) (d_disc s) (d_opt s).
  Definition w_d_keysinit x s := mkD (d_fileset s) x (d_isopt s) (d_isread s) (d_fname s) (d_gk s) (d_ok s) (d_ck s) (d_params s) (d_box s) (d_iters s) (d_objf s) (d_conf s) (d_threads s) (d_names s) (d_disc s) (d_opt s).
  Definition w_d_isopt x s := mkD (d_fileset s) (d_keysinit s) x (d_isread s) (d_fname s) (d_gk s) (d_ok s) (d_ck s) (d_params s) (d_box s) (d_iters s) (d_objf s) (d_conf s) (d_threads s) (d_names s) (d_disc s) (d_opt s).
  Definition w_d_isread x s := mkD (d_fileset s) (d_keysinit s) (d_isopt s) x (d_fname s) (d_gk s) (d_ok s) (d_ck s) (d_params s) (d_box s) (d_iters s) (d_objf s) (d_conf s) (d_threads s) (d_names s) (d_disc s) (d_opt s).
  Definition w_d_fname x s := mkD (d_fileset s) (d_keysinit s) (d_isopt s) (d_isread s) x (d_gk s) (d_ok s) (d_ck s) (d_params s) (d_box s) (d_iters s) (d_objf s) (d_conf s) (d_threads s) (d_names s) (d_disc s) (d_opt s).
  Definition w_d_gk x s := mkD (d_fileset s) (d_keysinit s) (d_isopt s) (d_isread s) (d_fname s) x (d_ok s) (d_ck s) (d_params s) (d_box s) (d_iters s) (d_objf s) (d_conf s) (d_threads s) (d_names s) (d_disc s) (d_opt s).
  Definition w_d_ok x s := mkD (d_fileset s) (d_keysinit s) (d_isopt s) (d_isread s) (d_fname s) (d_gk s) x (d_ck s) (d_params s) (d_box s) (d_iters s) (d_objf s) (d_conf s) (d_threads s) (d_names s) (d_disc s) (d_opt s).
  Definition w_d_ck x s := mkD (d_fileset s) (d_keysinit s) (d_isopt s) (d_isread s) (d_fname s) (d_gk s) (d_ok s) x (d_params s) (d_box s) (d_iters s) (d_objf s) (d_conf s) (d_threads s) (d_names s) (d_disc s) (d_opt s).
  Definition w_d_params x s := mkD (d_fileset s) (d_keysinit s) (d_isopt s) (d_isread s) (d_fname s) (d_gk s) (d_ok s) (d_ck s) x (d_box s) (d_iters s) (d_objf s) (d_conf s) (d_threads s) (d_names s) (d_disc s) (d_opt s).
  Definition w_d_box x s := mkD (d_fileset s) (d_keysinit s) (d_isopt s) (d_isread s) (d_fname s) (d_gk s) (d_ok s) (d_ck s) (d_params s) x (d_iters s) (d_objf s) (d_conf s) (d_threads s) (d_names s) (d_disc s) (d_opt s).
  Definition w_d_iters x s := mkD (d_fileset s) (d_keysinit s) (d_isopt s) (d_isread s) (d_fname s) (d_gk s) (d_ok s) (d_ck s) (d_params s) (d_box s) x (d_objf s) (d_conf s) (d_threads s) (d_names s) (d_disc s) (d_opt s).
  Definition w_d_objf x s := mkD (d_fileset s) (d_keysinit s) (d_isopt s) (d_isread s) (d_fname s) (d_gk s) (d_ok s) (d_ck s) (d_params s) (d_box s) (d_iters s) x (d_conf s) (d_threads s) (d_names s) (d_disc s) (d_opt s).
  Definition w_d_conf x s := mkD (d_fileset s) (d_keysinit s) (d_isopt s) (d_isread s) (d_fname s) (d_gk s) (d_ok s) (d_ck s) (d_params s) (d_box s) (d_iters s) (d_objf s) x (d_threads s) (d_names s) (d_disc s) (d_opt s).
  Definition w_d_threads x s := mkD (d_fileset s) (d_keysinit s) (d_isopt s) (d_isread s) (d_fname s) (d_gk s) (d_ok s) (d_ck s) (d_params s) (d_box s) (d_iters s) (d_objf s) (d_conf s) x (d_names s) (d_disc s) (d_opt s).
  Definition w_d_names x s := mkD (d_fileset s) (d_keysinit s) (d_isopt s) (d_isread s) (d_fname s) (d_gk s) (d_ok s) (d_ck s) (d_params s) (d_box s) (d_iters s) (d_objf s) (d_conf s) (d_threads s) x (d_disc s) (d_opt s).
  Definition w_d_disc x s := mkD (d_fileset s) (d_keysinit s) (d_isopt s) (d_isread s) (d_fname s) (d_gk s) (d_ok s) (d_ck s) (d_params s) (d_box s) (d_iters s) (d_objf s) (d_conf s) (d_threads s) (d_names s) x (d_opt s).
  Definition w_d_opt x s := mkD (d_fileset s) (d_keysinit s) (d_isopt s) (d_isread s) (d_fname s) (d_gk s) (d_ok s) (d_ck s) (d_params s) (d_box s) (d_iters s) (d_objf s) (d_conf s) (d_threads s) (d_names s) (d_disc s) x.
  Definition on_opt {A} (m : SM (popt T) A) : SM driver A := szoom d_opt w_d_opt m.
  (** numberOfThreads = 1 (optimization.hpp), numberOfIterationsForSurrogateTraining = 10000 (objective_function.hpp:113) *)
  Definition default_iters : nat := 100 * 100.
  Definition driver_new : driver := mkD false false false false [] [] [] [] [] bnds_new default_iters None [] 1 [] [] popt_new.

  Context (files : str -> option str) (ext : odef -> ufun T) (udf : nat -> ufun T).

  (** setConfigFileName: 16-23 *)
  Definition setConfigFileName (f : str) : SM driver unit :=
    run sthrow_if (is_empty f) InvalidArgument;
    smod (fun s => w_d_fileset true (w_d_fname f s)).
  (** initializeKeywords: 25-33 *)
  Definition initializeKeywords : SM driver unit :=
    smod (fun s => w_d_keysinit true (w_d_ck (new_keys constraint_keys) (w_d_ok (new_keys objective_keys) (w_d_gk (new_keys general_keys) s)))).
  (** readASegmentFromXMLFile: 1012-1033 *)
  Definition segment (s : driver) (key : string) : Res str :=
    if is_empty (d_fname s) then Throw RuntimeError
    else match files (d_fname s) with
         | None => Throw RuntimeError
         | Some text => extractContentBetweenKeys text (lit key)
         end.
  (** reads all keywords of a list, keeping what was read before an exception *)
  Definition read_into (sel : driver -> list (keyword T)) (put : list (keyword T) -> driver -> driver) (input : str) : SM driver unit :=
    fun s => let (l, r) := read_keys input (sel s) in (put l s, r).

  (** *** general settings: readGeneralSettings 707-738 with 575-623 *)
  Definition setStudyDimension : SM driver unit :=
    get s <-- sget (fun s => s);
    get z <-- slift (key_int (d_gk s) "dimension");
    run sthrow_if (z <=? 0)%Z InvalidArgument;
    on_opt (opt_setDimension (wrap32 z)).
  (** the name is used when it is empty and replaced when it is not *)
  Definition setStudyName : SM driver unit :=
    get s <-- sget (fun s => s);
    get n <-- slift (key_string (d_gk s) "name");
    on_opt (smod (w_p_name (if is_empty n then n else lit "OptimizationStudy"))).
  Definition setStudyEvaluations : SM driver unit :=
    get s <-- sget (fun s => s);
    get z <-- slift (key_int (d_gk s) "number_of_function_evaluations");
    run sthrow_if (z <=? 0)%Z InvalidArgument;
    on_opt (smod (w_p_N (wrap32 z))).
  Definition setStudyInner : SM driver unit :=
    get s <-- sget (fun s => s);
    get z <-- slift (key_int (d_gk s) "max_number_of_inner_iterations");
    swhen (negb (z =? -10000000)%Z) (on_opt (smod (w_p_inner (wrap32 z)))).
  Definition setStudyThreads : SM driver unit :=
    get s <-- sget (fun s => s);
    get z <-- slift (key_int (d_gk s) "number_of_threads");
    swhen (negb (z =? -10000000)%Z) (run sthrow_if (z mod 2 ^ 32 =? 0)%Z InvalidArgument; smod (w_d_threads (wrap32 z))).
  Definition readGeneralSettings : SM driver unit :=
    get s <-- sget (fun s => s);
    get input <-- slift (segment s "general_settings");
    run read_into d_gk w_d_gk input;
    get s <-- sget (fun s => s);
    get type <-- slift (key_required (d_gk s) "type");
    get b <-- slift (isEqual type (lit "optimization"));
    run swhen b (smod (w_d_isopt true));
    get s <-- sget (fun s => s);
    swhen (d_isopt s)
      (run setStudyDimension; run setStudyName; run setStudyEvaluations; run setStudyInner; setStudyThreads).

  (** *** parameters: readOptimizationParameters 466-542 *)
  Definition type_names : list str := map lit ["continuous"; "discrete"; "real"; "int"]%string.
  Definition is_discrete (t : str) : bool := (str_eqb t (lit "discrete") || str_eqb t (lit "int"))%bool.
  Definition readParameter (text : str) : Res param :=
    name <- getString text (lit "name") ;;
    type <- getString text (lit "type") ;;
    if is_empty name then Throw RuntimeError else if is_empty type then Throw RuntimeError
    else
      type <- toLower type ;;
      if negb (existsb (str_eqb type) type_names) then Throw RuntimeError
      else
        lb <- getDouble text (lit "lower_bound") ;;
        ub <- getDouble text (lit "upper_bound") ;;
        if lb >! ub then Throw RuntimeError
        else
          inc <- getDouble text (lit "increment") ;;
          if is_discrete type then
            if ((inc <=! n0) || (inc >! (ub -! lb)))%bool then Throw RuntimeError else Ok (mkParam name type lb ub inc)
          else Ok (mkParam name type lb ub n0).
  Definition readOptimizationParameters : SM driver unit :=
    get s <-- sget (fun s => s);
    get sec <-- slift (segment s "optimization_parameters");
    if is_empty sec then sret tt
    else
      get ps <-- slift (extractContents sec (lit "parameter"));
      sfor ps (fun t => get p <-- slift (readParameter t); smod (fun s => w_d_params (d_params s ++ [p]) s)).

  (** *** bounds: setBoxConstraints 668-695 *)
  Definition setDriverBox : SM driver unit :=
    get s <-- sget (fun s => s);
    run sthrow_if (is_empty (d_gk s)) RuntimeError;
    get z <-- slift (key_int (d_gk s) "dimension");
    run sthrow_if (negb (z =? Z.of_nat (length (d_params s)))%Z) InvalidArgument;
    let (b, r) := bnds_setStd (d_box s) (map pa_lb (d_params s)) (map pa_ub (d_params s)) in
    run smod (w_d_box b);
    slift r.

  (** *** objective function: 98-252 *)
  (** setObjectiveFunctionDefinition: 188-208 with 98-186 *)
  Definition objectiveDefinition (l : list (keyword T)) : Res odef :=
    name <- key_required l "name" ;;
    dv <- key_required l "design_vector_filename" ;;
    exe <- key_required l "executable_filename" ;;
    train <- key_required l "training_data_filename" ;;
    out <- key_required l "output_filename" ;;
    m <- key_string l "surrogate_model_type" ;;
    m <- surrogateModelID m ;;
    match m with
    | MGradient =>
        exeg <- key_required l "executable_filename_gradient" ;;
        outg <- key_required l "output_filename_gradient" ;;
        same <- isEqual outg out ;;
        if same : bool then Throw InvalidArgument else Ok (mkOD name dv exe exeg out outg train false m)
    | _ => Ok (mkOD name dv exe [] out [] train false m)
    end.
  (** readObjectiveFunctionKeywords: 948-989; readObjectiveFunction: 224-252 *)
  Definition readObjectiveFunction : SM driver unit :=
    get s <-- sget (fun s => s);
    run sthrow_if (negb (d_keysinit s)) RuntimeError;
    run sthrow_if (negb (d_fileset s)) RuntimeError;
    get text <-- slift (segment s "objective_function");
    run read_into d_ok w_d_ok text;
    get s <-- sget (fun s => s);
    get z <-- slift (key_int (d_gk s) "dimension");
    get it <-- slift (key_int (d_ok s) "number_of_training_iterations");
    run swhen (negb (it =? -10000000)%Z) (smod (w_d_iters (wrap32 it)));
    get d <-- slift (objectiveDefinition (d_ok s));
    run sthrow_if (negb (b_set (d_box s))) RuntimeError;
    get f <-- slift (fobj_setBounds (d_box s) (mkF (wrap32 z) (od_name d) (od_train d) (ext d) None));
    run on_opt (opt_addObjective f);
    smod (fun s => w_d_objf (Some (mkDF d (d_iters s) false)) s).

  (** *** constraints: 254-464 *)
  (** setConstraintType: 263-284; the result is '>' *)
  Definition constraintType (l : list (keyword T)) : Res bool :=
    t <- key_required l "constraint_type" ;;
    a <- isEqual t (lit "lt") ;;
    a <- (if a : bool then Ok true else isEqual t (lit "LT")) ;;
    if a : bool then Ok false
    else
      b <- isEqual t (lit "gt") ;;
      b <- (if b : bool then Ok true else isEqual t (lit "TT")) ;;
      if b : bool then Ok true else Throw InvalidArgument.
  (** readConstraintFunctionsSingleFidelity: 385-393 with 334-383; the executable may be missing *)
  Definition constraintDefinition (l : list (keyword T)) (name : str) (multi : bool) : Res odef :=
    exe <- key_string l "executable_filename" ;;
    dv <- key_required l "design_vector_filename" ;;
    out <- key_required l "output_filename" ;;
    train <- key_required l "training_data_filename" ;;
    m <- key_string l "surrogate_model_type" ;;
    m <- surrogateModelID m ;;
    Ok (mkOD name dv exe [] out [] train multi m).
  (** the table of linked functions has four entries: constraint_functions.hpp:51-54 *)
  Definition linked_functions : nat := 4.
  (** one round of readConstraintFunctions: 403-463; the number of training iterations is read from the keywords of the objective *)
  Definition readConstraint (id : nat) (text : str) : SM driver unit :=
    run sthrow_if (is_empty text) RuntimeError;
    run smod (w_d_ck (new_keys constraint_keys));
    run read_into d_ck w_d_ck text;
    get s <-- sget (fun s => s);
    get z <-- slift (key_int (d_gk s) "dimension");
    get it <-- slift (key_int (d_ok s) "number_of_training_iterations");
    let iters := if (it =? -10000000)%Z then default_iters else wrap32 it in
    get mf <-- slift (key_string (d_ck s) "multi_fidelity");
    let multi := checkIfOn mf in
    get name <-- slift (key_required (d_ck s) "name");
    get g <-- slift (constraintType (d_ck s));
    get vt <-- slift (key_required (d_ck s) "constraint_value");
    get v <-- slift (stod vt);
    get u <-- slift (key_string (d_ck s) "user_defined_function");
    let user := checkIfOn u in
    run swhen user (run sassert (Nat.ltb id 20); sthrow_if (Nat.leb linked_functions id) OutOfRange);
    get d <-- slift (if user then Ok (mkOD name [] [] [] [] [] [] multi MOrdinary) else constraintDefinition (d_ck s) name multi);
    run sthrow_if (negb (b_set (d_box s))) RuntimeError;
    get f <-- slift (fobj_setBounds (d_box s) (mkF (wrap32 z) name (od_train d) (if user then udf id else ext d) None));
    run on_opt (opt_addConstraint (mkC id g v f));
    smod (fun s => w_d_conf (d_conf s ++ [mkDF d iters user]) s).
  Fixpoint readConstraintsFrom (id : nat) (l : list str) : SM driver unit :=
    match l with [] => sret tt | t :: r => run readConstraint id t; readConstraintsFrom (S id) r end.
  Definition readConstraintFunctions : SM driver unit :=
    get s <-- sget (fun s => s);
    readConstraintsFrom 0 (match files (d_fname s) with Some text => constraintBlocks text | None => [] end).

  (** *** the rest: setParameterNamesOptimizationStudy 625-643, OptimizationHistory::setParameterNames: optimization_history.cpp:63-94 *)
  Fixpoint has_repeated (l : list str) : bool := match l with [] => false | x :: t => (existsb (str_eqb x) t || has_repeated t)%bool end.
  Definition setStudyNames : SM driver unit :=
    get s <-- sget (fun s => s);
    let names := filter (fun n => negb (is_empty n)) (map pa_name (d_params s)) in
    swhen (negb (is_empty names))
      (run sthrow_if (Nat.eqb (h_dim (s_hist (p_st (d_opt s)))) 0) RuntimeError;
       run sthrow_if (negb (Nat.eqb (length names) (h_dim (s_hist (p_st (d_opt s)))))) InvalidArgument;
       run sthrow_if (has_repeated names) InvalidArgument;
       smod (w_d_names names)).
  (** setDiscreteParametersOptimizationStudy: 646-666; Optimizer::setParameterToDiscrete: optimization.cpp:74-82 *)
  Definition setStudyDiscrete : SM driver unit :=
    get s <-- sget (fun s => s);
    get z <-- slift (key_int (d_gk s) "dimension");
    run sthrow_if (negb (z =? Z.of_nat (length (d_params s)))%Z) InvalidArgument;
    sfor (combine (seq 0 (length (d_params s))) (d_params s)) (fun ip =>
      swhen (is_discrete (pa_type (snd ip)))
        (get s <-- sget (fun s => s);
         run sassert (Nat.ltb (fst ip) (p_dim (d_opt s)));
         smod (fun s => w_d_disc (d_disc s ++ [(fst ip, pa_inc (snd ip))]) s))).
  (** readConfigurationFile: 546-572 *)
  Definition readConfigurationFile : SM driver unit :=
    get s <-- sget (fun s => s);
    run sthrow_if (negb (d_fileset s)) RuntimeError;
    run initializeKeywords;
    run readGeneralSettings;
    get s <-- sget (fun s => s);
    run swhen (d_isopt s)
      (run readOptimizationParameters;
       run setDriverBox;
       run readObjectiveFunction;
       run readConstraintFunctions;
       run (get s <-- sget (fun s => s); on_opt (opt_setBox (d_box s)));
       run setStudyNames;
       setStudyDiscrete);
    smod (w_d_isread true).

  (** *** run: 1080-1109 *)
  (** bindSurrogateModelSingleFidelity: objective_function.cpp:235-243 and the use of the pointer afterwards: for the other two
      kinds the pointer stays uninitialised *)
  Definition bound (m : smodel) : bool := match m with MOrdinary | MUniversal => true | _ => false end.
  (** ObjectiveFunction::initializeSurrogate: 342-392; [data]: the training data in a file, if it exists and can be read *)
  Definition driver_surrogate (data : str -> option (mat T)) (f : fobj T) (m : smodel) : Res unit :=
    match f_box f with
    | None => Throw RuntimeError
    | Some _ => if Nat.eqb (f_dim f) 0 then Throw RuntimeError
                else if negb (bound m) then UB
                else match data (f_file f) with None => Throw RuntimeError | Some _ => Ok tt end
    end.
  Fixpoint driver_surrogates (data : str -> option (mat T)) (l : list (fcon T * dfun)) : Res unit :=
    match l with
    | [] => Ok tt
    | (c, d) :: t => _ <- (if df_user d then Ok tt else driver_surrogate data (k_f c) (od_model (df_def d))) ;; driver_surrogates data t
    end.
  Definition driver_ini (data : str -> option (mat T)) (s : driver) (ini : Res unit) : Res unit :=
    _ <- (match p_obj (d_opt s), d_objf s with Some f, Some d => driver_surrogate data f (od_model (df_def d)) | _, _ => Throw RuntimeError end) ;;
    _ <- driver_surrogates data (combine (p_cons (d_opt s)) (d_conf s)) ;;
    _ <- ini ;;
    if repeated_name [] (p_cons (d_opt s)) then Throw InvalidArgument else Ok tt.
  Definition data_of (data : str -> option (mat T)) (n : str) : mat T := match data n with Some m => m | None => mat_empty end.
  Definition driver_con (data : str -> option (mat T)) (cd : fcon T * dfun) : ocon T :=
    let (c, d) := cd in
    mkOC (k_id c) (k_gt c) (k_value c) (df_user d) (if df_user d then (fun x => as_runtime (f_fun (k_f c) x)) else fcon_eval c) (data_of data (f_file (k_f c))).
  Definition driver_cfg (data : str -> option (mat T)) (s : driver) : cfg T :=
    let o := d_opt s in
    mkCfg (p_dim o) (p_lo o) (p_up o) (p_N o) (1000 * 100) (p_inner o) (d_disc s) (map (driver_con data) (combine (p_cons o) (d_conf s))) true
          (match p_obj o with Some _ => true | None => false end) (p_box o)
          (match p_obj o with Some f => data_of data (f_file f) | None => mat_empty end).
  (** runOptimization: 1080-1092 and run: 1094-1109 (the same two checks) *)
  Definition driver_run (fuel : nat) (data : str -> option (mat T)) (ini : Res unit) (es : nat -> env T) (s : driver) : option (driver * Res unit) :=
    if negb (d_isopt s) then Some (s, Throw RuntimeError)
    else if negb (d_isread s) then Some (s, Throw RuntimeError)
    else match ego fuel (driver_cfg data s) (driver_ini data s ini) (fun k => with_objective (p_obj (d_opt s)) (es k)) (p_st (d_opt s)) with
         | Some (st, r) => Some (w_d_opt (w_p_st st (d_opt s)) s, r)
         | None => None
         end.
End Driver.
Arguments param : clear implicits.
Arguments driver : clear implicits.
