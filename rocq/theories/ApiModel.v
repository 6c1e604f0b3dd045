(** Model of the C++ API (src/API/cppAPI.cpp, src/API/INCLUDE/rodeo.h): class RobustDesignOptimizer, together with the setters
    of class Optimizer it calls (src/Optimizers/optimization_setter_getters.cpp, optimization.cpp,
    optimization_constraint_functions.cpp).
    Printing and logging are not modelled.  A user's function is a total function of the design vector that returns a value
    or throws; the file system is a table of matrices by file name (the text of the CSV files, 6 or more digits per number, is not
    modelled here); which names can be written and which are directories is given from outside. *)
From Coq Require Import Ascii String ZArith Bool Arith List.
From Verif Require Import Base StM Num VecModel MatModel BoundsModel DesignModel HistModel KrigModel OptModel StrModel.
Import ListNotations.

(** ** the expression of a constraint *)
(** find_first_not_of / find_last_not_of (" \t\n\r") *)
Definition trim_char (c : ascii) : bool := (Nat.eqb (code c) 32 || Nat.eqb (code c) 9 || Nat.eqb (code c) 10 || Nat.eqb (code c) 13)%bool.
Fixpoint first_not (f : ascii -> bool) (s : str) : option nat :=
  match s with [] => None | c :: t => if f c then option_map S (first_not f t) else Some 0 end.
Definition last_not (f : ascii -> bool) (s : str) : option nat :=
  match first_not f (rev s) with None => None | Some k => Some (length s - 1 - k) end.
(** trim: cppAPI.cpp:164-168.  The length passed to substr is end + 1 and not end - start + 1. *)
Definition trim_text (s : str) : Res str :=
  match first_not trim_char s, last_not trim_char s with
  | Some a, Some e => substr s a (Some (e + 1))
  | _, _ => Ok []
  end.
(** stream >> std::string: skips white space, takes the characters up to the next white space; fails at the end of the text *)
Definition stream_word (s : str) : option (str * str) :=
  let (w, r) := span (fun c => negb (is_space c)) (skip_spaces s) in if is_empty w then None else Some (w, r).
(** stream >> double: skips white space, collects sign, digits, point, digits, and after an 'e' sign and digits; fails when there
    is no digit, or no digit after the 'e'.  The number is m * 10^e. *)
Definition stream_number (s : str) : option (Z * Z) :=
  let (neg, s1) := take_sign (skip_spaces s) in
  let (ip, s2) := span is_digit s1 in
  let (fp, s3) := match s2 with
                  | c :: t => if Ascii.eqb c "."%char then span is_digit t else ([], s2)
                  | [] => ([], s2)
                  end in
  if is_empty (ip ++ fp) then None
  else
    let m := signed neg (digits_val (ip ++ fp)) in
    match s3 with
    | c :: t =>
        if (Ascii.eqb c "e"%char || Ascii.eqb c "E"%char)%bool then
          let (eneg, t1) := take_sign t in let (ds, _) := span is_digit t1 in
          if is_empty ds then None else Some (m, (signed eneg (digits_val ds) - Z.of_nat (length fp))%Z)
        else Some (m, (- Z.of_nat (length fp))%Z)
    | [] => Some (m, (- Z.of_nat (length fp))%Z)
    end.

Section Api.
  Context {T : Type} {NT : Num T}.

  (** ParsedConstraintExpression: rodeo.h:11-15; the inequality is '>' when [e_gt] *)
  Record pexpr := mkE { e_name : str; e_gt : bool; e_value : T }.
  (** parseExpression: cppAPI.cpp:170-197.  A number above DBL_MAX makes the stream fail. *)
  Definition parseExpression (input : str) : Res pexpr :=
    t <- trim_text input ;;
    match stream_word t with
    | None => Throw InvalidArgument
    | Some (name, r1) =>
        match stream_word r1 with
        | None => Throw InvalidArgument
        | Some (ineq, r2) =>
            if negb (str_eqb ineq (lit "<") || str_eqb ineq (lit ">"))%bool then Throw InvalidArgument
            else match stream_number r2 with
                 | None => Throw InvalidArgument
                 | Some (m, e) => if (ndblmax <! nabs (nlit m e))%bool then Throw InvalidArgument
                                  else Ok (mkE name (str_eqb ineq (lit ">")) (nlit m e))
                 end
        end
    end.

  (** ** the optimiser behind the API *)
  (** a user's function: double f(const double* ) *)
  Definition ufun := vec T -> Res T.
  (** what is set in an ObjectiveFunction: dimension, name, training data file, function pointer, parameter bounds *)
  Record fobj := mkF { f_dim : nat; f_name : str; f_file : str; f_fun : ufun; f_box : option (bnds T) }.
  (** a ConstraintFunction with its ConstraintDefinition *)
  Record fcon := mkC { k_id : nat; k_gt : bool; k_value : T; k_f : fobj }.
  (** Optimizer: name, dimension, lowerBounds, upperBounds, iterMaxAcquisitionFunction, objFun (with ifObjectFunctionIsSpecied),
      constraintFunctions, numberOfConstraints, ifBoxConstraintsSet, maxNumberOfSamples and the objects of [ost] *)
  Record popt := mkP { p_name : str; p_dim : nat; p_lo : vec T; p_up : vec T; p_inner : nat; p_obj : option fobj; p_cons : list fcon;
    p_nc : nat; p_box : bool; p_N : nat; p_st : ost T }.
  Definition w_p_name x o := mkP x (p_dim o) (p_lo o) (p_up o) (p_inner o) (p_obj o) (p_cons o) (p_nc o) (p_box o) (p_N o) (p_st o).
  Definition w_p_dim x o := mkP (p_name o) x (p_lo o) (p_up o) (p_inner o) (p_obj o) (p_cons o) (p_nc o) (p_box o) (p_N o) (p_st o).
  Definition w_p_lo x o := mkP (p_name o) (p_dim o) x (p_up o) (p_inner o) (p_obj o) (p_cons o) (p_nc o) (p_box o) (p_N o) (p_st o).
  Definition w_p_up x o := mkP (p_name o) (p_dim o) (p_lo o) x (p_inner o) (p_obj o) (p_cons o) (p_nc o) (p_box o) (p_N o) (p_st o).
  Definition w_p_inner x o := mkP (p_name o) (p_dim o) (p_lo o) (p_up o) x (p_obj o) (p_cons o) (p_nc o) (p_box o) (p_N o) (p_st o).
  Definition w_p_obj x o := mkP (p_name o) (p_dim o) (p_lo o) (p_up o) (p_inner o) x (p_cons o) (p_nc o) (p_box o) (p_N o) (p_st o).
  Definition w_p_cons x o := mkP (p_name o) (p_dim o) (p_lo o) (p_up o) (p_inner o) (p_obj o) x (p_nc o) (p_box o) (p_N o) (p_st o).
  Definition w_p_nc x o := mkP (p_name o) (p_dim o) (p_lo o) (p_up o) (p_inner o) (p_obj o) (p_cons o) x (p_box o) (p_N o) (p_st o).
  Definition w_p_box x o := mkP (p_name o) (p_dim o) (p_lo o) (p_up o) (p_inner o) (p_obj o) (p_cons o) (p_nc o) x (p_N o) (p_st o).
  Definition w_p_N x o := mkP (p_name o) (p_dim o) (p_lo o) (p_up o) (p_inner o) (p_obj o) (p_cons o) (p_nc o) (p_box o) x (p_st o).
  Definition w_p_st x o := mkP (p_name o) (p_dim o) (p_lo o) (p_up o) (p_inner o) (p_obj o) (p_cons o) (p_nc o) (p_box o) (p_N o) x.
  Definition popt_new : popt := mkP [] 0 [] [] 0 None [] 0 false 0 ost_new.
  Definition in_st {A} (m : SM (ost T) A) : SM popt A := szoom p_st w_p_st m.

  (** setDimension: optimization_setter_getters.cpp:96-108 and initializeBoundsForAcquisitionFunctionMaximization:
      optimization.cpp:38-48 (throws for dimension 0; the bounds themselves are recomputed in every iteration) *)
  Definition opt_setDimension (d : nat) : SM popt unit :=
    run smod (fun o => w_p_up (vec_resize (p_up o) d n0) (w_p_lo (vec_resize (p_lo o) d n0) (w_p_dim d o)));
    run sthrow_if (Nat.eqb d 0) RuntimeError;
    run smod (w_p_inner (d * (100 * 100)));
    run in_st (on_god (design_setDimension d));
    run in_st (szoom s_cur set_cur (design_setDimension d));
    in_st (in_hist (hist_setDimension d)).
  (** addObjectFunction: optimization.cpp:104-116 *)
  Definition opt_addObjective (f : fobj) : SM popt unit :=
    get o <-- sget (fun o => o);
    run sassert (match p_obj o with None => true | Some _ => false end);
    smod (w_p_obj (Some f)).
  (** addConstraint: optimization_constraint_functions.cpp:21-28 *)
  Definition opt_addConstraint (c : fcon) : SM popt unit :=
    run smod (fun o => w_p_nc (S (p_nc o)) (w_p_cons (p_cons o ++ [c]) o));
    get o <-- sget (fun o => o);
    in_st (on_god (design_setNumberOfConstraints (p_nc o))).
  (** ObjectiveFunction::setParameterBounds: objective_function.cpp:323-339 *)
  Definition fobj_setBounds (b : bnds T) (f : fobj) : Res fobj :=
    if (Nat.ltb 0 (f_dim f) && negb (Nat.eqb (f_dim f) (b_dim b)))%bool then Throw InvalidArgument
    else if negb (b_set b) then Throw InvalidArgument
    else Ok (mkF (f_dim f) (f_name f) (f_file f) (f_fun f) (Some b)).
  (** the loop over the constraints: a throw leaves the constraints before it changed *)
  Fixpoint cons_setBounds (b : bnds T) (l : list fcon) : list fcon * Res unit :=
    match l with
    | [] => ([], Ok tt)
    | c :: t => match fobj_setBounds b (k_f c) with
                | Ok f => let (t', r) := cons_setBounds b t in (mkC (k_id c) (k_gt c) (k_value c) f :: t', r)
                | Throw e => (l, Throw e)
                | UB => (l, UB)
                end
    end.
  (** setBoxConstraints: optimization_setter_getters.cpp:49-74 *)
  Definition opt_setBox (b : bnds T) : SM popt unit :=
    run smod (fun o => w_p_up (b_up b) (w_p_lo (b_lo b) o));
    run sthrow_if (negb (Nat.eqb (length (b_lo b)) (length (b_up b)))) InvalidArgument;
    run sthrow_if (existsb (fun i => vget (b_lo b) i >! vget (b_up b) i) (seq 0 (length (b_lo b)))) InvalidArgument;
    get o <-- sget (fun o => o);
    match p_obj o with
    | None => sthrow AssertFail
    | Some f =>
        get f' <-- slift (fobj_setBounds b f);
        run smod (w_p_obj (Some f'));
        get o <-- sget (fun o => o);
        run (if Nat.ltb 0 (p_nc o) then (fun o => let (cs, r) := cons_setBounds b (p_cons o) in (w_p_cons cs o, r)) else sret tt);
        run in_st (in_gopt (gopt_setBox b));
        smod (w_p_box true)
    end.

  (** ** RobustDesignOptimizer: rodeo.h:19-80 *)
  (** [a_ptr]: objectiveFunctionPtr is not initialised by the constructor ([None]) *)
  Record api := mkA { a_dim : nat; a_N : nat; a_doe : bool; a_ns : nat; a_file : str; a_cfiles : list str; a_dimset : bool; a_objset : bool;
    a_boxset : bool; a_lo : vec T; a_up : vec T; a_ptr : option ufun; a_cptrs : list ufun; a_samples : mat T; a_type : str; a_cwd : str;
    a_name : str; a_nc : nat; a_opt : popt; a_files : list (str * mat T) }.
  Definition w_a_dim x s := mkA x (a_N s) (a_doe s) (a_ns s) (a_file s) (a_cfiles s) (a_dimset s) (a_objset s) (a_boxset s) (a_lo s) (a_up s) (a_ptr s) (a_cptrs s) (a_samples s) (a_type s) (a_cwd s) (a_name s) (a_nc s) (a_opt s) (a_files s).
  Definition w_a_N x s := mkA (a_dim s) x (a_doe s) (a_ns s) (a_file s) (a_cfiles s) (a_dimset s) (a_objset s) (a_boxset s) (a_lo s) (a_up s) (a_ptr s) (a_cptrs s) (a_samples s) (a_type s) (a_cwd s) (a_name s) (a_nc s) (a_opt s) (a_files s).
  Definition w_a_doe x s := mkA (a_dim s) (a_N s) x (a_ns s) (a_file s) (a_cfiles s) (a_dimset s) (a_objset s) (a_boxset s) (a_lo s) (a_up s) (a_ptr s) (a_cptrs s) (a_samples s) (a_type s) (a_cwd s) (a_name s) (a_nc s) (a_opt s) (a_files s).
  Definition w_a_ns x s := mkA (a_dim s) (a_N s) (a_doe s) x (a_file s) (a_cfiles s) (a_dimset s) (a_objset s) (a_boxset s) (a_lo s) (a_up s) (a_ptr s) (a_cptrs s) (a_samples s) (a_type s) (a_cwd s) (a_name s) (a_nc s) (a_opt s) (a_files s).
  Definition w_a_file x s := mkA (a_dim s) (a_N s) (a_doe s) (a_ns s) x (a_cfiles s) (a_dimset s) (a_objset s) (a_boxset s) (a_lo s) (a_up s) (a_ptr s) (a_cptrs s) (a_samples s) (a_type s) (a_cwd s) (a_name s) (a_nc s) (a_opt s) (a_files s).
  Definition w_a_cfiles x s := mkA (a_dim s) (a_N s) (a_doe s) (a_ns s) (a_file s) x (a_dimset s) (a_objset s) (a_boxset s) (a_lo s) (a_up s) (a_ptr s) (a_cptrs s) (a_samples s) (a_type s) (a_cwd s) (a_name s) (a_nc s) (a_opt s) (a_files s).
  Definition w_a_dimset x s := mkA (a_dim s) (a_N s) (a_doe s) (a_ns s) (a_file s) (a_cfiles s) x (a_objset s) (a_boxset s) (a_lo s) (a_up s) (a_ptr s) (a_cptrs s) (a_samples s) (a_type s) (a_cwd s) (a_name s) (a_nc s) (a_opt s) (a_files s).
  Definition w_a_objset x s := mkA (a_dim s) (a_N s) (a_doe s) (a_ns s) (a_file s) (a_cfiles s) (a_dimset s) x (a_boxset s) (a_lo s) (a_up s) (a_ptr s) (a_cptrs s) (a_samples s) (a_type s) (a_cwd s) (a_name s) (a_nc s) (a_opt s) (a_files s).
  Definition w_a_boxset x s := mkA (a_dim s) (a_N s) (a_doe s) (a_ns s) (a_file s) (a_cfiles s) (a_dimset s) (a_objset s) x (a_lo s) (a_up s) (a_ptr s) (a_cptrs s) (a_samples s) (a_type s) (a_cwd s) (a_name s) (a_nc s) (a_opt s) (a_files s).
  Definition w_a_lo x s := mkA (a_dim s) (a_N s) (a_doe s) (a_ns s) (a_file s) (a_cfiles s) (a_dimset s) (a_objset s) (a_boxset s) x (a_up s) (a_ptr s) (a_cptrs s) (a_samples s) (a_type s) (a_cwd s) (a_name s) (a_nc s) (a_opt s) (a_files s).
  Definition w_a_up x s := mkA (a_dim s) (a_N s) (a_doe s) (a_ns s) (a_file s) (a_cfiles s) (a_dimset s) (a_objset s) (a_boxset s) (a_lo s) x (a_ptr s) (a_cptrs s) (a_samples s) (a_type s) (a_cwd s) (a_name s) (a_nc s) (a_opt s) (a_files s).
  Definition w_a_ptr x s := mkA (a_dim s) (a_N s) (a_doe s) (a_ns s) (a_file s) (a_cfiles s) (a_dimset s) (a_objset s) (a_boxset s) (a_lo s) (a_up s) x (a_cptrs s) (a_samples s) (a_type s) (a_cwd s) (a_name s) (a_nc s) (a_opt s) (a_files s).
  Definition w_a_cptrs x s := mkA (a_dim s) (a_N s) (a_doe s) (a_ns s) (a_file s) (a_cfiles s) (a_dimset s) (a_objset s) (a_boxset s) (a_lo s) (a_up s) (a_ptr s) x (a_samples s) (a_type s) (a_cwd s) (a_name s) (a_nc s) (a_opt s) (a_files s).
  Definition w_a_samples x s := mkA (a_dim s) (a_N s) (a_doe s) (a_ns s) (a_file s) (a_cfiles s) (a_dimset s) (a_objset s) (a_boxset s) (a_lo s) (a_up s) (a_ptr s) (a_cptrs s) x (a_type s) (a_cwd s) (a_name s) (a_nc s) (a_opt s) (a_files s).
  Definition w_a_type x s := mkA (a_dim s) (a_N s) (a_doe s) (a_ns s) (a_file s) (a_cfiles s) (a_dimset s) (a_objset s) (a_boxset s) (a_lo s) (a_up s) (a_ptr s) (a_cptrs s) (a_samples s) x (a_cwd s) (a_name s) (a_nc s) (a_opt s) (a_files s).
  Definition w_a_cwd x s := mkA (a_dim s) (a_N s) (a_doe s) (a_ns s) (a_file s) (a_cfiles s) (a_dimset s) (a_objset s) (a_boxset s) (a_lo s) (a_up s) (a_ptr s) (a_cptrs s) (a_samples s) (a_type s) x (a_name s) (a_nc s) (a_opt s) (a_files s).
  Definition w_a_name x s := mkA (a_dim s) (a_N s) (a_doe s) (a_ns s) (a_file s) (a_cfiles s) (a_dimset s) (a_objset s) (a_boxset s) (a_lo s) (a_up s) (a_ptr s) (a_cptrs s) (a_samples s) (a_type s) (a_cwd s) x (a_nc s) (a_opt s) (a_files s).
  Definition w_a_nc x s := mkA (a_dim s) (a_N s) (a_doe s) (a_ns s) (a_file s) (a_cfiles s) (a_dimset s) (a_objset s) (a_boxset s) (a_lo s) (a_up s) (a_ptr s) (a_cptrs s) (a_samples s) (a_type s) (a_cwd s) (a_name s) x (a_opt s) (a_files s).
  Definition w_a_opt x s := mkA (a_dim s) (a_N s) (a_doe s) (a_ns s) (a_file s) (a_cfiles s) (a_dimset s) (a_objset s) (a_boxset s) (a_lo s) (a_up s) (a_ptr s) (a_cptrs s) (a_samples s) (a_type s) (a_cwd s) (a_name s) (a_nc s) x (a_files s).
  Definition w_a_files x s := mkA (a_dim s) (a_N s) (a_doe s) (a_ns s) (a_file s) (a_cfiles s) (a_dimset s) (a_objset s) (a_boxset s) (a_lo s) (a_up s) (a_ptr s) (a_cptrs s) (a_samples s) (a_type s) (a_cwd s) (a_name s) (a_nc s) (a_opt s) x.
  Definition in_opt {A} (m : SM popt A) : SM api A := szoom a_opt w_a_opt m.
  (** constructor: cppAPI.cpp:28-33, with the file system found *)
  Definition api_new (files : list (str * mat T)) : api :=
    mkA 0 0 false 0 [] [] false false false [] [] None [] mat_empty (lit "random") [] (lit "OptimizationStudy") 0
        (w_p_name (lit "OptimizationStudy") popt_new) files.

  (** setName: cppAPI.cpp:44-54 *)
  Definition api_setName (n : str) : SM api unit :=
    run sthrow_if (is_empty n) InvalidArgument;
    smod (fun s => w_a_opt (w_p_name n (a_opt s)) (w_a_name n s)).
  (** setCurrentWorkingDirectory: cppAPI.cpp:57-64 *)
  Definition api_setCwd (isdir : str -> bool) (d : str) : SM api unit :=
    run sthrow_if (is_empty d || negb (isdir d)) InvalidArgument;
    smod (w_a_cwd d).
  (** setDoEStrategy: cppAPI.cpp:67-80; ::tolower on a negative char is undefined *)
  Definition api_setStrategy (t : str) : SM api unit :=
    run sthrow_if (is_empty t) InvalidArgument;
    get l <-- slift (toLower t);
    run sthrow_if (negb (str_eqb l (lit "lhs") || str_eqb l (lit "random"))) InvalidArgument;
    smod (w_a_type l).
  (** setDimension: cppAPI.cpp:119-124 *)
  Definition api_setDimension (d : nat) : SM api unit :=
    run smod (w_a_dim d);
    run in_opt (opt_setDimension d);
    smod (w_a_dimset true).
  (** setBoxConstraints: cppAPI.cpp:86-109; lb and ub point to at least [dimension] numbers (shorter arrays: undefined) *)
  Definition api_setBox (lb ub : list T) : SM api unit :=
    get s <-- sget (fun s => s);
    let d := a_dim s in
    run sthrow_if (Nat.eqb d 0) InvalidArgument;
    run (if (Nat.ltb (length lb) d || Nat.ltb (length ub) d)%bool then slift UB else sret tt);
    run sloop d (fun i =>
      run sthrow_if (vget lb i >=! vget ub i) InvalidArgument;
      smod (fun s => w_a_up (a_up s ++ [vget ub i]) (w_a_lo (a_lo s ++ [vget lb i]) s)));
    get s <-- sget (fun s => s);
    let (b, r) := bnds_setStd (bnds_setDimension bnds_new d) (a_lo s) (a_up s) in
    run slift r;
    run in_opt (opt_setBox b);
    smod (w_a_boxset true).
  (** setNameOfTrainingDataFile: cppAPI.cpp:111-117 *)
  Definition api_setTrainingFile (f : str) : SM api unit :=
    run sthrow_if (is_empty f) InvalidArgument;
    smod (fun s => w_a_file (a_name s) s).
  (** setObjectiveFunction: cppAPI.cpp:126-161; [None] is the null pointer *)
  Definition api_setObjective (f : option ufun) (name file : str) : SM api unit :=
    run sthrow_if (is_empty file) InvalidArgument;
    run sthrow_if (is_empty name) InvalidArgument;
    match f with
    | None => sthrow InvalidArgument
    | Some f =>
        run smod (fun s => w_a_file file (w_a_ptr (Some f) s));
        get s <-- sget (fun s => s);
        run in_opt (opt_addObjective (mkF (a_dim s) name file f None));
        smod (w_a_objset true)
    end.
  (** addConstraint: cppAPI.cpp:200-262 *)
  Definition api_addConstraint (f : option ufun) (expression file : str) : SM api unit :=
    run sthrow_if (is_empty file) InvalidArgument;
    run sthrow_if (is_empty expression) InvalidArgument;
    match f with
    | None => sthrow InvalidArgument
    | Some f =>
        get e <-- slift (parseExpression expression);
        run sthrow_if (is_empty (e_name e)) InvalidArgument;
        get s <-- sget (fun s => s);
        run smod (fun s => w_a_nc (S (a_nc s)) (w_a_cfiles (a_cfiles s ++ [file]) (w_a_cptrs (a_cptrs s ++ [f]) s)));
        in_opt (opt_addConstraint (mkC (a_nc s) (e_gt e) (e_value e) (mkF (a_dim s) (e_name e) file f None)))
    end.
  (** setDoEOn: cppAPI.cpp:266-270; setMaxNumberOfFunctionEvaluations: 272-276 *)
  Definition api_setDoE (n : nat) : SM api unit := smod (fun s => w_a_doe true (w_a_ns n s)).
  Definition api_setMax (n : nat) : SM api unit := smod (fun s => w_a_opt (w_p_N n (a_opt s)) (w_a_N n s)).

  (** *** design of experiments *)
  (** mat::saveAsCSV: matrix.cpp:945-990, as an effect on the table of files *)
  Fixpoint file_put (n : str) (m : mat T) (l : list (str * mat T)) : list (str * mat T) :=
    match l with
    | [] => [(n, m)]
    | (k, v) :: t => if str_eqb k n then (k, m) :: t else (k, v) :: file_put n m t
    end.
  Definition file_get (n : str) (l : list (str * mat T)) : option (mat T) := option_map snd (List.find (fun p => str_eqb (fst p) n) l).
  Definition save (writable : str -> bool) (n : str) (m : mat T) : SM api unit :=
    run sthrow_if (negb (writable n)) RuntimeError;
    smod (fun s => w_a_files (file_put n m (a_files s)) s).
  (** generateDoESamplesInput: cppAPI.cpp:322-334; [u row col] and [perm col] as in fillRandom and fillRandomLHS.
      samplesInput.resize comes first, so it happens also when the bounds do not fit *)
  Definition doe_samples (u : nat -> nat -> T) (perm : nat -> list nat) : SM api unit :=
    get s <-- sget (fun s => s);
    let m := mat_resize (a_samples s) (a_ns s) (a_dim s) in
    if str_eqb (a_type s) (lit "random") then
      (run smod (w_a_samples m); get m' <-- slift (mat_fillRandomV m (a_lo s) (a_up s) u); smod (w_a_samples m'))
    else if str_eqb (a_type s) (lit "lhs") then
      (run smod (w_a_samples m); get m' <-- slift (mat_fillRandomLHS m (a_lo s) (a_up s) u perm); smod (w_a_samples m'))
    else sthrow InvalidArgument.
  (** a std::exception of the user's function is replaced by a runtime_error *)
  Definition as_runtime {A} (r : Res A) : Res A := match r with Throw AssertFail => Throw AssertFail | Throw _ => Throw RuntimeError | _ => r end.
  (** sample = x with the value appended; trainingData.addRow(sample) *)
  Definition add_sample (td : mat T) (x : vec T) (y : T) : Res (mat T) := let (m, r) := mat_addRow td (x ++ [y]) (-1) in rmap (fun _ => m) r.
  (** performDoE, the loop over the samples: cppAPI.cpp:349-372 *)
  Fixpoint doe_objective (writable : str -> bool) (f : ufun) (l : list nat) (td : mat T) : SM api unit :=
    match l with
    | [] => sret tt
    | i :: t =>
        get s <-- sget (fun s => s);
        get x <-- slift (mat_getRow (a_samples s) (Z.of_nat i));
        get y <-- slift (as_runtime (f x));
        get td <-- slift (add_sample td x y);
        run save writable (a_file s) td;
        doe_objective writable f t td
    end.
  (** performDoEForConstraints: cppAPI.cpp:278-319 *)
  Fixpoint doe_rows (samples : mat T) (f : ufun) (l : list nat) (td : mat T) : Res (mat T) :=
    match l with
    | [] => Ok td
    | i :: t =>
        x <- mat_getRow samples (Z.of_nat i) ;; y <- f x ;; td <- add_sample td x y ;; doe_rows samples f t td
    end.
  Definition doe_constraints (writable : str -> bool) : SM api unit :=
    get s <-- sget (fun s => s);
    run sthrow_if (is_empty (a_cptrs s)) RuntimeError;
    sfor (seq 0 (a_nc s)) (fun k =>
      match nth_error (a_cptrs s) k, nth_error (a_cfiles s) k with
      | Some f, Some file =>
          get td <-- slift (doe_rows (a_samples s) f (seq 0 (a_ns s)) mat_empty);
          save writable file td
      | _, _ => slift UB
      end).
  (** performDoE: cppAPI.cpp:336-379 *)
  Definition performDoE (writable : str -> bool) (u : nat -> nat -> T) (perm : nat -> list nat) : SM api unit :=
    run doe_samples u perm;
    get s <-- sget (fun s => s);
    match a_ptr s with
    | None => slift UB
    | Some f =>
        run sthrow_if (Nat.eqb (a_ns s) 0) RuntimeError;
        run doe_objective writable f (seq 0 (a_ns s)) mat_empty;
        swhen (Nat.ltb 0 (a_nc s)) (doe_constraints writable)
    end.

  (** *** run *)
  (** checkOptimizationSettings: cppAPI.cpp:383-397 *)
  Definition api_check : SM api unit :=
    get s <-- sget (fun s => s);
    run sthrow_if (Nat.eqb (a_N s) 0) InvalidArgument;
    run sthrow_if (negb (a_dimset s)) InvalidArgument;
    run sthrow_if (negb (a_boxset s)) InvalidArgument;
    sthrow_if (negb (a_objset s)) InvalidArgument.
  (** run up to the optimisation: cppAPI.cpp:399-414; chdir("") fails *)
  Definition api_prepare (isdir writable : str -> bool) (u : nat -> nat -> T) (perm : nat -> list nat) : SM api unit :=
    run api_check;
    get s <-- sget (fun s => s);
    run sthrow_if (is_empty (a_cwd s) || negb (isdir (a_cwd s))) InvalidArgument;
    swhen (a_doe s) (run sthrow_if (Nat.eqb (a_ns s) 0) InvalidArgument; performDoE writable u perm).
  (** the settings with which performEfficientGlobalOptimization works: howOftenTrainModels = 100000 and variable sigma factor by
      default (optimization.hpp:150, 302).  The frequency is written as a product to keep the numeral small.  The training data are
      those in the files; a missing file is an empty matrix here and makes the initialisation of the surrogates fail. *)
  Definition file_data (s : api) (n : str) : mat T := match file_get n (a_files s) with Some m => m | None => mat_empty end.
  (** ObjectiveFunction::evaluateDesign with a function pointer: objective_function.cpp:726-774, 795-806 *)
  Definition fobj_eval (f : fobj) (x : vec T) : Res T := if negb (Nat.eqb (length x) (f_dim f)) then Throw InvalidArgument else f_fun f x.
  (** ConstraintFunction::evaluateDesign: constraint_functions.cpp:164-185, 203-207, 228-236 *)
  Definition fcon_eval (c : fcon) (x : vec T) : Res T := as_runtime (fobj_eval (k_f c) x).
  Definition ocon_of (s : api) (c : fcon) : ocon T := mkOC (k_id c) (k_gt c) (k_value c) false (fcon_eval c) (file_data s (f_file (k_f c))).
  Definition api_cfg (s : api) : cfg T :=
    let o := a_opt s in
    mkCfg (p_dim o) (p_lo o) (p_up o) (p_N o) (1000 * 100) (p_inner o) [] (map (ocon_of s) (p_cons o)) true
          (match p_obj o with Some _ => true | None => false end) (p_box o)
          (match p_obj o with Some f => file_data s (f_file f) | None => mat_empty end).
  Definition with_objective (f : option fobj) (e : env T) : env T :=
    mkEnv (e_train e) (e_ei e) (e_acq e) (e_u1 e) (e_u2 e) (e_s1 e) (e_s2 e) (match f with Some f => fobj_eval f | None => e_eval e end) (e_add e) (e_mult e).
  (** ObjectiveFunction::initializeSurrogate: objective_function.cpp:342-392, the checks before the surrogate model is used and
      the reading of the training data (a file that does not exist) *)
  Definition surrogate_check (s : api) (f : fobj) : Res unit :=
    match f_box f with
    | None => Throw RuntimeError
    | Some _ => if Nat.eqb (f_dim f) 0 then Throw RuntimeError
                else match file_get (f_file f) (a_files s) with None => Throw RuntimeError | Some _ => Ok tt end
    end.
  Fixpoint surrogate_checks (s : api) (l : list fcon) : Res unit :=
    match l with [] => Ok tt | c :: t => _ <- surrogate_check s (k_f c) ;; surrogate_checks s t end.
  (** OptimizationHistory::addConstraintName: optimization_history.cpp:14-27 for the constraints in turn *)
  Fixpoint repeated_name (seen : list str) (l : list fcon) : bool :=
    match l with [] => false | c :: t => (existsb (str_eqb (f_name (k_f c))) seen || repeated_name (seen ++ [f_name (k_f c)]) t)%bool end.
  (** initializeSurrogates: optimization.cpp:197-223; [ini] is what the surrogate models themselves deliver.  The names of the
      constraints are checked a little later (initializeOptimizationHistory: 1079-1115), before any design is evaluated. *)
  Definition api_ini (s : api) (ini : Res unit) : Res unit :=
    let o := a_opt s in
    _ <- (match p_obj o with None => Throw RuntimeError | Some f => surrogate_check s f end) ;;
    _ <- surrogate_checks s (p_cons o) ;;
    _ <- ini ;;
    if repeated_name [] (p_cons o) then Throw InvalidArgument else Ok tt.
  (** run: cppAPI.cpp:399-419 *)
  Definition api_run (fuel : nat) (isdir writable : str -> bool) (u : nat -> nat -> T) (perm : nat -> list nat) (ini : Res unit) (es : nat -> env T)
      (s : api) : option (api * Res unit) :=
    match api_prepare isdir writable u perm s with
    | (s, Ok _) => match ego fuel (api_cfg s) (api_ini s ini) (fun k => with_objective (p_obj (a_opt s)) (es k)) (p_st (a_opt s)) with
                   | Some (st, r) => Some (w_a_opt (w_p_st st (a_opt s)) s, r)
                   | None => None
                   end
    | (s, r) => Some (s, r)
    end.

  (** the calls of the API *)
  Inductive acall :=
  | CName (n : str) | CCwd (isdir : str -> bool) (d : str) | CStrategy (t : str) | CDimension (d : nat) | CBox (lb ub : list T)
  | CTrainingFile (f : str) | CObjective (f : option ufun) (name file : str) | CConstraint (f : option ufun) (expression file : str)
  | CDoE (n : nat) | CMax (n : nat).
  Definition api_call (c : acall) : SM api unit :=
    match c with
    | CName n => api_setName n
    | CCwd i d => api_setCwd i d
    | CStrategy t => api_setStrategy t
    | CDimension d => api_setDimension d
    | CBox lb ub => api_setBox lb ub
    | CTrainingFile f => api_setTrainingFile f
    | CObjective f n file => api_setObjective f n file
    | CConstraint f e file => api_addConstraint f e file
    | CDoE n => api_setDoE n
    | CMax n => api_setMax n
    end.
  (** a client that goes on after an exception; an assert failure or undefined behaviour ends the program *)
  Definition goes_on (r : Res unit) : bool := match r with Ok _ => true | Throw AssertFail => false | Throw _ => true | UB => false end.
  Inductive calls : api -> list (acall * Res unit) -> api -> Prop :=
  | calls_nil s : calls s [] s
  | calls_step s l s1 c s2 r : calls s l s1 -> api_call c s1 = (s2, r) -> goes_on r = true -> calls s (l ++ [(c, r)]) s2.
End Api.
Arguments pexpr : clear implicits.
Arguments ufun : clear implicits.
Arguments fobj : clear implicits.
Arguments fcon : clear implicits.
Arguments popt : clear implicits.
Arguments api : clear implicits.
Arguments acall : clear implicits.
