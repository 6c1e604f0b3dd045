(** Model of a whole study: the optimiser of OptModel together with the Kriging models it builds for the objective function and the
    constraints, their trainings, and the files with the training data, which grow while the optimiser runs
    (src/Optimizers/efficient_global_optimization.cpp, optimization.cpp:197-249, optimization_constraint_functions.cpp:133-186,
    src/ObjectiveFunctions/objective_function.cpp:234-254, 342-412, 617-660, constraint_functions.cpp:127-132, 244-257).
    Real numbers.  A file with training data is the table read from it; [fmt] is the effect of writing a number with 12 digits and
    reading it back (the text of the file is the matter of CsvModel).  The flags checked by the functions (bounds, definition and file
    names set) are taken as set, there is no warm start, and the surrogate models are ordinary or universal Kriging models.
    The history and report files are the matter of RunFileModel. *)
From Coq Require Import List Arith Bool ZArith Reals.
From Verif Require Import Base StM Num RealNum VecModel MatModel BoundsModel CorrModel DataModel DesignModel HistModel KrigModel EaModel TrainModel ErfMath AcqModel OptModel RunFileModel.
Import ListNotations.
Local Open Scope R_scope.

(** *** one surrogate model and its file *)
Record smodel := mkSm { m_tr : trainer R; m_file : mat R }.
(** a surrogate model just constructed *)
Definition sm_new (file : mat R) : smodel := mkSm trainer_new file.
(** what the definition fixes: universal Kriging (with the linear model) or ordinary Kriging, and the training iterations *)
Record sset := mkSS { ss_lin : bool; ss_iters : nat }.
Definition in_tr {A} (m : SM (trainer R) A) : SM smodel A := szoom m_tr (fun t s => mkSm t (m_file s)) m.
(** ObjectiveFunction::initializeSurrogate: objective_function.cpp:342-391, bindSurrogateModelSingleFidelity: 234-242 *)
Definition initSurrogate (d : nat) (b : bnds R) (q : sset) (perm : list nat) : SM smodel unit :=
  get s <-- sget (fun s => s);
  run sthrow_if (Nat.eqb d 0) RuntimeError;
  run in_tr (in_model
    (run swhen (ss_lin q) (krig_setLinear true);
     run krig_setDimension d;
     run krig_setBox b;
     run srethrow RuntimeError (krig_readData (m_file s) perm);
     run krig_normalizeData;
     krig_initialize));
  in_tr (smod (tset_iters (ss_iters q))).
(** trainSurrogate: 401-412; numberOfThreads is 1 *)
Definition trainSurrogate (us : nat -> nat -> nat -> R) (ws : nat -> nat -> genDraw R) : SM smodel (option unit) := in_tr (krig_train us ws [0%nat]).
(** surrogate->addNewSampleToData: 653, constraint_functions.cpp:255 *)
Definition addSample (fmt : R -> R) (x : vec R) (perm : list nat) : SM smodel unit :=
  szoom (fun s => (t_k (m_tr s), m_file s)) (fun w s => mkSm (tset_k (fst w) (m_tr s)) (snd w)) (krig_addSample fmt x perm).

(** *** the study *)
(** [y_con] has one entry for every constraint; the one of a user defined constraint is not used *)
Record study := mkSt { y_opt : ost R; y_obj : smodel; y_con : list smodel }.
(** the settings of the models: number 0 is the objective function, number i + 1 the i-th constraint *)
Definition ssets := nat -> sset.
(** what comes from outside in one iteration: for every model the draws of the training and the shuffles made when its file is read;
    the draws and schedules of the two searches, the simulation and the random multiplier as in OptModel *)
Record draws := mkDr { dr_us : nat -> nat -> nat -> nat -> R; dr_ws : nat -> nat -> nat -> genDraw R; dr_perm : nat -> list nat; dr_perm2 : nat -> list nat;
  dr_u1 : nat -> nat -> R; dr_u2 : nat -> nat -> R; dr_s1 : list event; dr_s2 : list event; dr_eval : vec R -> Res R; dr_mult : option R }.

Definition in_opt {A} (m : SM (ost R) A) : SM study A := szoom y_opt (fun o s => mkSt o (y_obj s) (y_con s)) m.
Definition in_obj {A} (m : SM smodel A) : SM study A := szoom y_obj (fun o s => mkSt (y_opt s) o (y_con s)) m.
Definition in_con {A} (i : nat) (m : SM smodel A) : SM study A :=
  szoom (fun s => nth i (y_con s) (sm_new mat_empty)) (fun o s => mkSt (y_opt s) (y_obj s) (upd (y_con s) i o)) m.
(** the box of the problem, as given to every surrogate model *)
Definition cbox (c : cfg R) : bnds R := mkB (c_dim c) (c_lb c) (c_ub c) true.

(** the loop over the constraints with a surrogate model *)
Fixpoint eachCon (i : nat) (cs : list (ocon R)) (f : nat -> ocon R -> SM study unit) : SM study unit :=
  match cs with
  | [] => sret tt
  | oc :: t => run swhen (negb (oc_user oc)) (f i oc); eachCon (S i) t f
  end.
(** initializeSurrogates: optimization.cpp:197-225 *)
Definition initSurrogates (c : cfg R) (q : ssets) (perm : nat -> list nat) : SM study unit :=
  run in_obj (initSurrogate (c_dim c) (cbox c) (q 0%nat) (perm 0%nat));
  eachCon 0 (c_cons c) (fun i _ => in_con i (initSurrogate (c_dim c) (cbox c) (q (S i)) (perm (S i)))).
(** try { train } catch (const std::exception&) { only logging } *)
Definition swallowTrain {S} (m : SM S (option unit)) : SM S (option unit) :=
  fun s => match m s with (s1, Throw AssertFail) => (s1, Throw AssertFail) | (s1, Throw _) => (s1, Ok (Some tt)) | r => r end.
(** trainSurrogatesForConstraints: optimization_constraint_functions.cpp:135-154; ConstraintFunction::trainSurrogate: constraint_functions.cpp:127-132.
    [Ok None]: a training is still running *)
Fixpoint trainCons (dr : draws) (i : nat) (cs : list (ocon R)) : SM study (option unit) :=
  match cs with
  | [] => sret (Some tt)
  | oc :: t =>
      get r <-- (if oc_user oc then sret (Some tt) else in_con i (swallowTrain (trainSurrogate (dr_us dr (S i)) (dr_ws dr (S i)))));
      match r with None => sret None | Some _ => trainCons dr (S i) t end
  end.
(** trainSurrogates: optimization.cpp:227-234 *)
Definition trainSurrogates (c : cfg R) (dr : draws) : SM study (option unit) :=
  get r <-- in_obj (trainSurrogate (dr_us dr 0%nat) (dr_ws dr 0%nat));
  match r with None => sret None | Some _ => trainCons dr 0 (c_cons c) end.

(** *** the acquisition function *)
(** surrogate->interpolateWithVariance.  A prediction that fails reads as (0,0): C101 proves that none fails *)
Definition predicted (m : smodel) (x : vec R) : R * R := match krig_variance (t_k (m_tr m)) x with Ok p => p | _ => (0, 0) end.
(** a candidate: DesignForBayesianOptimization(dimension, numberOfConstraints) with its dv, optimization.cpp:685, 725 *)
Definition candidate (n : nat) (x : vec R) : bod := mkBO x 0 0 0 (repeat 0 n) (repeat 0 n) [].
(** the constraints as estimateConstraints sees them: optimization_constraint_functions.cpp:33-55 *)
Definition consOf (c : cfg R) (s : study) : list cfun :=
  map (fun p => let '(i, oc) := p in mkCF (oc_id oc) (if oc_gt oc then GT else LT) (oc_target oc)
         (if oc_user oc then UserFun (fun y => match oc_fun oc y with Ok v => v | _ => 0 end) else Surrogate (predicted (nth i (y_con s) (sm_new mat_empty)))))
      (combine (seq 0 (length (c_cons c))) (c_cons c)).
(** objFun.calculateExpectedImprovement, then addPenaltyToAcqusitionFunctionForConstraints: optimization.cpp:688-689, 728-729, 237-249 *)
Definition studyEI (c : cfg R) (s : study) (fmin sigma : R) (x : vec R) : bod := expectedImprovement (predicted (y_obj s)) fmin sigma (candidate (length (c_cons c)) x).
Definition studyAcq (c : cfg R) (s : study) (fmin sigma : R) (x : vec R) : R :=
  match addPenalty (c_lb c) (c_ub c) (consOf c s) (studyEI c s fmin sigma x) with Ok b => bo_acq b | _ => 0 end.
(** the environment of an iteration of OptModel, [t] the outcome of the training.  Adding the sample is done separately, below *)
Definition envOf (c : cfg R) (dr : draws) (t : Res unit) (s : study) : env R :=
  mkEnv t (fun fmin sigma x => bo_acq (studyEI c s fmin sigma x)) (studyAcq c s) (dr_u1 dr) (dr_u2 dr) (dr_s1 dr) (dr_s2 dr) (dr_eval dr) (Ok tt) (dr_mult dr).

(** *** one iteration *)
(** the call with its outcome *)
Definition attempt {S A} (m : SM S A) : SM S (Res A) := fun s => let '(s1, r) := m s in (s1, Ok r).
(** the training at the start of an iteration: efficient_global_optimization.cpp:14-22 *)
Definition trainDue (c : cfg R) (q : ssets) (dr : draws) : SM study (Res (option unit)) :=
  get it <-- sget (fun s => S (s_iter (y_opt s)));
  if Nat.eqb (c_how c) 0 then sret (Ok (Some tt))
  else if Nat.eqb (it mod c_how c) 1 then attempt (run initSurrogates c q (dr_perm dr); trainSurrogates c dr)
  else sret (Ok (Some tt)).
(** objFun.addDesignToData(d, "primal"): objective_function.cpp:617-660; constructSampleObjectiveFunction: design.cpp:94-101 *)
Definition addObjective (fmt : R -> R) (dr : draws) (d : design R) : SM study unit := in_obj (addSample fmt (ds_x d ++ [ds_f d]) (dr_perm2 dr 0%nat)).
(** addConstraintValuesToData: optimization_constraint_functions.cpp:178-186; constructSampleConstraint: design.cpp:205-221 *)
Definition addConstraints (c : cfg R) (fmt : R -> R) (dr : draws) (d : design R) : SM study unit :=
  eachCon 0 (c_cons c) (fun i oc =>
    get v <-- slift (if Nat.leb (length (c_cons c)) (oc_id oc) then Throw OutOfRange else if negb (Nat.eqb (length (ds_con d)) (length (c_cons c))) then Throw InvalidArgument else vec_at (ds_con d) (oc_id oc));
    in_con i (addSample fmt (ds_x d ++ [v]) (dr_perm2 dr (S i)))).
(** the body of the loop: efficient_global_optimization.cpp:10-124.  [Ok None]: a training is still running *)
Definition studyStep (c : cfg R) (q : ssets) (fmt : R -> R) (dr : draws) : SM study (option unit) :=
  get o <-- trainDue c q dr;
  match o with
  | Ok None => sret None
  | _ =>
      get s <-- sget (fun s => s);
      let e := envOf c dr (match o with Ok _ => Ok tt | Throw x => Throw x | UB => UB end) s in
      get d <-- in_opt (beforeUpdate c e);
      run addObjective fmt dr d;
      run addConstraints c fmt dr d;
      run in_opt (run in_hist (hist_update d); run afterUpdate c e; findOptimum c);
      sret (Some tt)
  end.
(** the loop: 8-127.  [drs k] belongs to the k-th iteration; None = not finished *)
Fixpoint studyLoop (fuel : nat) (k : nat) (c : cfg R) (q : ssets) (fmt : R -> R) (drs : nat -> draws) (s : study) : option (study * Res unit) :=
  match fuel with
  | O => None
  | S f => match studyStep c q fmt (drs k) s with
           | (s1, Ok None) => None
           | (s1, Ok (Some _)) => if Nat.leb (c_N c) (s_iter (y_opt s1)) then Some (s1, Ok tt) else studyLoop f (S k) c q fmt drs s1
           | (s1, Throw x) => Some (s1, Throw x)
           | (s1, UB) => Some (s1, UB)
           end
  end.

(** *** the run *)
(** performEfficientGlobalOptimization: 130-166 *)
Definition startStudy (c : cfg R) (q : ssets) (perm : nat -> list nat) : SM study unit :=
  run in_opt (run sthrow_if (negb (c_objset c)) RuntimeError;
              run sthrow_if (negb (c_boxset c)) RuntimeError;
              run settingsOk c;
              initSettings c);
  run initSurrogates c q perm;
  in_opt (run smod (set_init true);
          run szoom s_cur set_cur (design_setNumberOfConstraints (length (c_cons c)));
          run on_cur (ds_set_feas true);
          initHistory c).
(** a study from the start: the optimiser is set up, every model has its file with the training data given *)
Definition studyNew (c : cfg R) (o : ost R) : study := mkSt o (sm_new (c_data c)) (map (fun oc => sm_new (oc_data oc)) (c_cons c)).
Definition studyRun (fuel : nat) (c : cfg R) (q : ssets) (fmt : R -> R) (perm : nat -> list nat) (drs : nat -> draws) : option (study * Res unit) :=
  match optSetup c ost_new with
  | (o, Ok _) =>
      match startStudy c q perm (studyNew c o) with
      | (s1, Ok _) => studyLoop fuel 0 c q fmt drs s1
      | (s1, r) => Some (s1, r)
      end
  | (o, r) => Some (studyNew c o, r)
  end.
