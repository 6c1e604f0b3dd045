(** Model of the program: the arguments of main, the configuration file, the study with its surrogate models and the exit status
    (src/Rodeo.cpp:40-80; src/Driver/driver_xml.cpp:16-33, 1080-1109; src/Optimizers/optimization.cpp:197-225, 1213-1226).
    The parts are those of DriverModel (configuration), StudyModel (optimiser, surrogate models, files with training data).  Here the files
    have names, and functions may share a file.  Real numbers; draws, schedules and simulations come from outside. *)
From Coq Require Import Ascii String List Arith Bool ZArith Reals.
From Verif Require Import Base StM Num RealNum VecModel MatModel BoundsModel DesignModel HistModel KrigModel TrainModel OptModel StrModel ApiModel RunFileModel StudyModel DriverModel.
Import ListNotations.

(** isXMLFile: Rodeo.cpp:40-46; std::tolower of a negative char is undefined *)
Definition isXMLFile (f : str) : Res bool := if Nat.leb 4 (length f) then equal_nocase (skipn (length f - 4) f) (lit ".xml") else Ok false.

(** *** functions and their files *)
(** the file with the training data of function number k (0: the objective function, i + 1: constraint i); a user defined function has none *)
Definition file_name (s : driver R) (k : nat) : option str :=
  match k with
  | O => match p_obj (d_opt s) with Some f => Some (f_file f) | None => None end
  | S i => match nth_error (combine (p_cons (d_opt s)) (d_conf s)) i with Some (c, d) => if df_user d then None else Some (f_file (k_f c)) | None => None end
  end.
Definition same_file (n : nat -> option str) (j k : nat) : bool := match n j, n k with Some a, Some b => str_eqb a b | _, _ => false end.
Definition file_at (s : study) (k : nat) : mat R := match k with O => m_file (y_obj s) | S i => m_file (nth i (y_con s) (sm_new mat_empty)) end.
Definition set_file (f : mat R) (m : StudyModel.smodel) : StudyModel.smodel := mkSm (m_tr m) f.
(** function number k has written its file: all functions with the same file see it *)
Definition sync (n : nat -> option str) (k : nat) (s : study) : study :=
  let f := file_at s k in
  mkSt (y_opt s) (if same_file n 0 k then set_file f (y_obj s) else y_obj s)
       (map (fun p => if same_file n (S (fst p)) k then set_file f (snd p) else snd p) (combine (seq 0 (length (y_con s))) (y_con s))).
Definition shared (n : nat -> option str) (k : nat) (m : SM study unit) : SM study unit := fun s => let '(s1, r) := m s in (sync n k s1, r).
(** what the definitions fix for the surrogate models: bindSurrogateModelSingleFidelity, objective_function.cpp:234-242, 379-390 *)
Definition sset_of (d : dfun) : sset := mkSS (match od_model (df_def d) with MUniversal => true | _ => false end) (df_iters d).
Definition driver_sets (s : driver R) : ssets := fun k =>
  match k with
  | O => match d_objf s with Some d => sset_of d | None => mkSS false 0 end
  | S i => match nth_error (d_conf s) i with Some d => sset_of d | None => mkSS false 0 end
  end.
(** the first steps of initializeSurrogate: objective_function.cpp:342-378, as in DriverModel *)
Definition guard_at (data : str -> option (mat R)) (s : driver R) (k : nat) : Res unit :=
  match k with
  | O => match p_obj (d_opt s), d_objf s with Some f, Some d => driver_surrogate data f (od_model (df_def d)) | _, _ => Throw RuntimeError end
  | S i => match nth_error (combine (p_cons (d_opt s)) (d_conf s)) i with Some (c, d) => driver_surrogate data (k_f c) (od_model (df_def d)) | None => Ok tt end
  end.

(** *** the study *)
(** addDesignToData and addConstraintValuesToData, as in StudyModel *)
Definition addObjectiveP (n : nat -> option str) (fmt : R -> R) (dr : draws) (d : design R) : SM study unit := shared n 0 (addObjective fmt dr d).
Definition addConstraintsP (n : nat -> option str) (c : cfg R) (fmt : R -> R) (dr : draws) (d : design R) : SM study unit :=
  eachCon 0 (c_cons c) (fun i oc =>
    get v <-- slift (if Nat.leb (length (c_cons c)) (oc_id oc) then Throw OutOfRange else if negb (Nat.eqb (length (ds_con d)) (length (c_cons c))) then Throw InvalidArgument else vec_at (ds_con d) (oc_id oc));
    shared n (S i) (in_con i (addSample fmt (ds_x d ++ [v]) (dr_perm2 dr (S i))))).
(** the body of the loop: efficient_global_optimization.cpp:10-124 *)
Definition stepP (n : nat -> option str) (c : cfg R) (q : ssets) (fmt : R -> R) (dr : draws) : SM study (option unit) :=
  get o <-- trainDue c q dr;
  match o with
  | Ok None => sret None
  | _ =>
      get s <-- sget (fun s => s);
      let e := envOf c dr (match o with Ok _ => Ok tt | Throw x => Throw x | UB => UB end) s in
      get d <-- StudyModel.in_opt (beforeUpdate c e);
      run addObjectiveP n fmt dr d;
      run addConstraintsP n c fmt dr d;
      run StudyModel.in_opt (run in_hist (hist_update d); run afterUpdate c e; findOptimum c);
      sret (Some tt)
  end.
Fixpoint loopP (fuel : nat) (k : nat) (n : nat -> option str) (c : cfg R) (q : ssets) (fmt : R -> R) (drs : nat -> draws) (s : study) : option (study * Res unit) :=
  match fuel with
  | O => None
  | S f => match stepP n c q fmt (drs k) s with
           | (s1, Ok None) => None
           | (s1, Ok (Some _)) => if Nat.leb (c_N c) (s_iter (y_opt s1)) then Some (s1, Ok tt) else loopP f (S k) n c q fmt drs s1
           | (s1, Throw x) => Some (s1, Throw x)
           | (s1, UB) => Some (s1, UB)
           end
  end.
(** initializeSurrogates for the first time: optimization.cpp:197-225.  (In the loop the files are known to exist) *)
Definition firstSurrogates (g : nat -> Res unit) (c : cfg R) (q : ssets) (perm : nat -> list nat) : SM study unit :=
  run slift (g 0%nat);
  run in_obj (initSurrogate (c_dim c) (cbox c) (q 0%nat) (perm 0%nat));
  eachCon 0 (c_cons c) (fun i _ => run slift (g (S i)); in_con i (initSurrogate (c_dim c) (cbox c) (q (S i)) (perm (S i)))).
(** saveDesignVector at the start of a run: design.cpp:664-680, called from initializeCurrentBestDesign, optimization.cpp:1213-1226; the API is
    not used here.  [writable]: whether a file of that name can be opened for writing.  What is written is the subject of DesignFileModel *)
Definition saveStart (writable : str -> bool) (n : str) : Res unit := if is_empty n then Throw InvalidArgument else if writable n then Ok tt else Throw RuntimeError.
(** performEfficientGlobalOptimization: 130-166; [v]: the outcome of saving the design vector; [rep]: the name of a constraint is repeated
    (optimization.cpp:1095-1104, optimization_history.cpp:14-27) *)
Definition startP (g : nat -> Res unit) (v : Res unit) (rep : bool) (c : cfg R) (q : ssets) (perm : nat -> list nat) : SM study unit :=
  run StudyModel.in_opt (run sthrow_if (negb (c_objset c)) RuntimeError;
              run sthrow_if (negb (c_boxset c)) RuntimeError;
              run settingsOk c;
              initSettings c);
  run firstSurrogates g c q perm;
  run StudyModel.in_opt (run smod (set_init true); szoom s_cur set_cur (design_setNumberOfConstraints (length (c_cons c))));
  run slift v;
  run StudyModel.in_opt (on_cur (ds_set_feas true));
  run sthrow_if rep InvalidArgument;
  StudyModel.in_opt (initHistory c).
(** the simulation is the objective function of the configuration *)
Definition simulate (f : option (fobj R)) (dr : draws) : draws :=
  mkDr (dr_us dr) (dr_ws dr) (dr_perm dr) (dr_perm2 dr) (dr_u1 dr) (dr_u2 dr) (dr_s1 dr) (dr_s2 dr) (match f with Some f => fobj_eval f | None => dr_eval dr end) (dr_mult dr).

(** *** the program *)
(** exit status, abnormal end after a failed assertion, or undefined behaviour *)
Inductive ending := Exits (status : nat) | Aborts | Undefined.
(** main: Rodeo.cpp:59-79: a std::exception is caught and reported *)
Definition ending_of (r : Res unit) : ending := match r with Ok _ => Exits 0 | Throw AssertFail => Aborts | Throw _ => Exits 1 | UB => Undefined end.
Section Main.
  (** the configuration files, the files that can be written, the programs and linked functions, the tables with training data, the effect of
      writing a number to a file *)
  Context (files : str -> option str) (writable : str -> bool) (ext : odef -> ufun R) (udf : nat -> ufun R) (data : str -> option (mat R)) (fmt : R -> R).
  Context (perm : nat -> list nat) (drs : nat -> draws).
  (** runOptimization: driver_xml.cpp:1080-1092, run: 1094-1109; the study, if one is started *)
  Definition driver_study (fuel : nat) (s : driver R) : option (option study * Res unit) :=
    if negb (d_isopt s) then Some (None, Throw RuntimeError)
    else if negb (d_isread s) then Some (None, Throw RuntimeError)
    else
      let c := driver_cfg data s in
      let q := driver_sets s in
      let v := match d_objf s with Some d => saveStart writable (od_dv (df_def d)) | None => Throw InvalidArgument end in
      match startP (guard_at data s) v (repeated_name [] (p_cons (d_opt s))) c q perm (studyNew c (p_st (d_opt s))) with
      | (s1, Ok _) => match loopP fuel 0 (file_name s) c q fmt (fun k => simulate (p_obj (d_opt s)) (drs k)) s1 with
                      | Some (s2, r) => Some (Some s2, r)
                      | None => None
                      end
      | (s1, r) => Some (Some s1, r)
      end.
  (** main: Rodeo.cpp:48-80; the arguments after the first are not used.  None: still running *)
  Definition rodeo (fuel : nat) (args : list str) : option (option study * ending) :=
    match args with
    | [] => Some (None, Exits 1)
    | f :: _ =>
        match isXMLFile f with
        | Ok true =>
            match (run setConfigFileName f; readConfigurationFile files ext udf) driver_new with
            | (s, Ok _) => match driver_study fuel s with Some (y, r) => Some (y, ending_of r) | None => None end
            | (_, r) => Some (None, ending_of r)
            end
        | Ok false => Some (None, ending_of (Throw RuntimeError))
        | Throw x => Some (None, ending_of (Throw x))
        | UB => Some (None, Undefined)
        end
    end.
End Main.
