(** Model of the test of a surrogate model: src/SurrogateModels/surrogate_model_tester.cpp, INCLUDE/surrogate_model_tester.hpp, and the part
    of src/SurrogateModels/surrogate_model.cpp that evaluates a model on test data and writes the results (130-136, 238-298, 363-470).
    The file system is the table of texts of ExtModel, read and written as in CsvModel ([writable], [fixed]).  Log messages and what is
    printed on the screen are left out, and so are the file names and objects left behind by a call that throws while a file is read. *)
From Coq Require Import Ascii String ZArith Bool Arith List.
From Verif Require Import Base StM Num VecModel MatModel StrModel ExtModel BoundsModel CorrModel DataModel KrigModel EaModel TrainModel CsvModel.
Import ListNotations.

(** checkFilename: surrogate_model_tester.cpp:164-184 *)
Definition forbidden_chars : str := lit "\/:*?""<>|".
Definition csv_extension : str := lit ".csv".
Definition tester_checkFilename (f : str) : Res unit :=
  if is_empty f then Throw InvalidArgument
  else if existsb (fun c => existsb (Ascii.eqb c) forbidden_chars) f then Throw InvalidArgument
  else if Nat.ltb (length f) (length csv_extension) || negb (str_eqb (skipn (length f - length csv_extension) f) csv_extension) then Throw InvalidArgument
  else Ok tt.
(** SURROGATE_MODEL: surrogate_model.hpp:46-52 *)
Inductive mtype := NoModel | LinearRegression | OrdinaryKriging | UniversalKriging | TangentEnhanced | GradientEnhanced.

Section Tester.
  Context {T : Type} {NT : Num T} {NF : NumFun T}.
  Context (writable : str -> bool) (fixed : nat -> T -> str).

  (** *** the results of a test, members of SurrogateModel: surrogate_model.hpp:79-102 (testResultsFileHeader, testResults,
      generalizationError, ifNormalizedTestData) *)
  Record tested := mkTd { g_header : list str; g_results : mat T; g_error : T; g_norm : bool }.
  Definition tested_new : tested := mkTd [] mat_empty n0 false.
  (** filenameTestResults: surrogate_model.hpp:70 (no function of the tester changes it) *)
  Definition results_file : str := lit "surrogateTestResults.csv".

  (** tryOnTestData without derivatives: surrogate_model.cpp:363-470.  [pred] is interpolate or interpolateWithVariance, [dim] the dimension
      of the model; getRowXTest, getRowXRawTest, getOutputVectorTest: surrogate_model_data.cpp:526-570; pow(.,2.0) is the square.
      The new table and the squared errors *)
  Definition test_columns (d : sdata T) (var : bool) : nat := d_dim d + (if f_testf d then 3 else 1) + (if var then 1 else 0).
  Definition test_step (pred : vec T -> Res (T * T)) (dim : nat) (d : sdata T) (fexact : vec T) (var : bool) (i : nat) (acc : mat T * list T) : Res (mat T * list T) :=
    xp <- (if Nat.ltb i (nrows (d_Xtest d)) then mat_getRow (d_Xtest d) (Z.of_nat i) else Throw AssertFail) ;;
    raw <- (if Nat.ltb i (nrows (d_Xrawtest d)) then mat_getRow (d_Xrawtest d) (Z.of_nat i) else Throw AssertFail) ;;
    x <- vec_head raw dim ;;
    fv <- pred xp ;;
    te <- (if f_testf d then y <- vec_at fexact i ;; Ok [y; (y -! fst fv) *! (y -! fst fv)] else Ok []) ;;
    m <- mat_setRow (fst acc) (x ++ [fst fv] ++ te ++ (if var then [snd fv] else [])) i ;;
    Ok (m, snd acc ++ (match te with [_; e] => [e] | _ => [] end)).
  Definition test_table (pred : vec T -> Res (T * T)) (dim : nat) (d : sdata T) (testnorm var : bool) : Res (mat T * list T) :=
    if negb testnorm then Throw RuntimeError
    else
      fexact <- (if f_testf d then if f_testread d then mat_getCol (d_Xrawtest d) (Z.of_nat (d_dim d)) else Throw AssertFail else Ok []) ;;
      loopR (d_nt d) (test_step pred dim d fexact var) (mat_zero (d_nt d) (test_columns d var), []).
  (** 458-466: mean and standard deviation of the squared errors; the latter is only kept *)
  Definition test_error (d : sdata T) (errs : list T) (old : T) : Res T :=
    if f_testf d then e <- vec_mean errs ;; _ <- vec_std errs ;; Ok e else Ok old.
  Definition try_test (pred : vec T -> Res (T * T)) (dim : nat) (d : sdata T) (var : bool) : SM tested unit :=
    get g <-- sget (fun g => g);
    get r <-- slift (test_table pred dim d (g_norm g) var);
    get e <-- slift (test_error d (snd r) (g_error g));
    smod (fun g => mkTd (g_header g) (fst r) e (g_norm g)).
  (** writeFileHeaderForTestResults: 257-269 *)
  Definition header_names (d : sdata T) : list str :=
    map (fun i => lit "x" ++ int_text (Z.of_nat (S i))) (seq 0 (d_dim d)) ++ [lit "Estimated value"] ++ (if f_testf d then [lit "True value"; lit "Squared Error"] else []).
  (** saveTestResults: 271-282; saveTestResultsWithVariance: 285-298.  The names are appended to those of the tests made before *)
  Definition save_test (d : sdata T) (var : bool) : SM (tested * files) unit :=
    run smod (fun w => let g := fst w in (mkTd (g_header g ++ header_names d ++ (if var then [lit "Variance"] else [])) (g_results g) (g_error g) (g_norm g), snd w));
    get w <-- sget (fun w => w);
    szoom snd (fun fs w => (fst w, fs)) (mat_saveAsCSV writable fixed results_file 6 (g_header (fst w)) (g_results (fst w))).

  (** *** the two models of the tester, with their test results *)
  Record tstate := mkTS { v_lin : lmodel T; v_lintest : tested; v_krig : trainer T; v_krigtest : tested }.
  Definition on_lin {A} (m : SM (lmodel T) A) : SM (tstate * files) A :=
    szoom (fun w => v_lin (fst w)) (fun l w => (mkTS l (v_lintest (fst w)) (v_krig (fst w)) (v_krigtest (fst w)), snd w)) m.
  Definition on_krig {A} (m : SM (trainer T) A) : SM (tstate * files) A :=
    szoom (fun w => v_krig (fst w)) (fun k w => (mkTS (v_lin (fst w)) (v_lintest (fst w)) k (v_krigtest (fst w)), snd w)) m.
  Definition on_lintest {A} (m : SM (tested * files) A) : SM (tstate * files) A :=
    szoom (fun w => (v_lintest (fst w), snd w)) (fun g w => (mkTS (v_lin (fst w)) (fst g) (v_krig (fst w)) (v_krigtest (fst w)), snd g)) m.
  Definition on_krigtest {A} (m : SM (tested * files) A) : SM (tstate * files) A :=
    szoom (fun w => (v_krigtest (fst w), snd w)) (fun g w => (mkTS (v_lin (fst w)) (v_lintest (fst w)) (v_krig (fst w)) (fst g), snd g)) m.
  Definition on_files {A} (m : SM files A) : SM (tstate * files) A := szoom snd (fun fs w => (fst w, fs)) m.
  Definition on_tested {A} (m : SM tested A) : SM (tested * files) A := szoom fst (fun g w => (g, snd w)) m.
  Definition mark_norm : SM (tested * files) unit := on_tested (smod (fun g => mkTd (g_header g) (g_results g) (g_error g) true)).

  (** what is set in the tester before a test: surrogate_model_tester.hpp:24-40, 62-72 *)
  Record tconf := mkTC { h_dim : nat; h_name : str; h_box : bnds T; h_iters : nat; h_train : str; h_test : str; h_warm : bool; h_var : bool }.

  (** performSurrogateModelTest: surrogate_model_tester.cpp:103-161, with a Kriging model; calculateInSampleError: surrogate_model.cpp:191-234.
      The hyper-parameter file is name + "_hyperparameters.csv" (surrogate_model.cpp:16-23); the flag set by a test with warm start stays
      set.  [Ok None]: the training is still running; [Ok (Some e)]: [e] is the training error in the log *)
  Definition test_krig (h : tconf) (perm : list nat) (us : nat -> nat -> nat -> T) (ws : nat -> nat -> genDraw T) : SM (tstate * files) (option T) :=
    run on_krig (in_model (run krig_setDimension (h_dim h); krig_setBox (h_box h)));
    get file <-- srethrow RuntimeError (on_files (mat_readFromCSV (h_train h) false));
    run on_krig (in_model (krig_readData file perm));
    get tfile <-- on_files (mat_readFromCSV (h_test h) false);
    run on_krig (in_model (in_kdata (data_readTest tfile)));
    run on_krig (in_model (krig_setBox (h_box h)));
    run on_krig (in_model krig_normalizeData);
    run on_krig (in_model (in_kdata (data_normTest zero_tol)));
    run on_krigtest mark_norm;
    run on_krig (in_model krig_initialize);
    run on_krig (smod (tset_iters (h_iters h)));
    get w <-- sget (fun w => w);
    run swhen (h_warm h || match t_warm (v_krig (fst w)) with Some _ => true | None => false end)
      (get buf <-- on_files (vec_readFromCSV (h_name h ++ lit "_hyperparameters.csv"));
       on_krig (smod (fun t => mkTr (t_k t) (t_iters t) (t_threads t) (t_val t) (t_hasval t) (Some buf))));
    get r <-- on_krig (krig_train us ws [0]);
    match r with
    | None => sret None
    | Some _ =>
        get w <-- sget (fun w => w);
        let k := t_k (v_krig (fst w)) in
        run on_krigtest (on_tested (try_test (fun x => if h_var h then krig_variance k x else f <- krig_interpolate k x ;; Ok (f, n0)) (k_dim k) (k_data k) (h_var h)));
        run on_krigtest (save_test (k_data k) (h_var h));
        get e <-- slift (krig_inSampleError k);
        sret (Some e)
    end.
  (** the same with the linear model; its dimension and that of its data object are set separately: linear_regression.cpp:13-64, 102-187 *)
  Definition lin_inSampleError (s : lmodel T) : Res T :=
    if negb (l_init s) then Throw RuntimeError
    else y <- mat_getCol (d_raw (l_data s)) (Z.of_nat (l_dim s)) ;;
         e <- loopR (d_n (l_data s)) (fun i e => x <- mat_getRow (d_X (l_data s)) (Z.of_nat i) ;; f <- lin_interpolate s x ;;
                 yi <- vec_at y i ;; Ok (e +! (f -! yi) *! (f -! yi))) n0 ;;
         Ok (e /! nofnat (d_n (l_data s))).
  Definition lin_readSplit (file : mat T) (perm : list nat) : SM (lmodel T) unit :=
    run in_ldata (data_read file perm);
    smod (fun s => mkL (l_dim s) (d_n (l_data s)) (l_data s) (l_w s) (l_reg s) true (l_norm s) (l_init s)).
  Definition test_linear (h : tconf) (perm : list nat) : SM (tstate * files) (option T) :=
    run on_lin (run lin_setDimension (h_dim h); lin_setBox (h_box h));
    get file <-- on_files (mat_readFromCSV (h_train h) false);
    run on_lin (lin_readSplit file perm);
    get tfile <-- on_files (mat_readFromCSV (h_test h) false);
    run on_lin (in_ldata (data_readTest tfile));
    run on_lin (lin_setBox (h_box h));
    run on_lin lin_normalizeData;
    run on_lin (in_ldata (data_normTest zero_tol));
    run on_lintest mark_norm;
    run on_lin lin_initialize;
    run on_lin lin_train;
    get w <-- sget (fun w => w);
    let s := v_lin (fst w) in
    run on_lintest (on_tested (try_test (fun x => if h_var h then Throw LogicError else f <- lin_interpolate s x ;; Ok (f, n0)) (l_dim s) (l_data s) (h_var h)));
    run on_lintest (save_test (l_data s) (h_var h));
    get e <-- slift (lin_inSampleError s);
    sret (Some e).

  (** *** the tester *)
  (** members: surrogate_model_tester.hpp:17-74.  [q_ptr] is the pointer surrogateModel: not yet assigned, the linear or the Kriging model *)
  Inductive tptr := PNone | PLinear | PKriging.
  Record tester := mkTt { q_conf : tconf; q_type : option mtype; q_bound : bool; q_ptr : tptr; q_multi : bool; q_state : tstate }.
  Definition tester_new : tester :=
    mkTt (mkTC 0 [] bnds_new (100 * 100) [] [] false false) None false PNone false (mkTS lmodel_new tested_new trainer_new tested_new).
  Definition with_conf (f : tconf -> tconf) (q : tester) : tester := mkTt (f (q_conf q)) (q_type q) (q_bound q) (q_ptr q) (q_multi q) (q_state q).
  (** setDimension: 13-15; setName: 17-21; setSurrogateModel: 31-36; setBoxConstraints: 89-101; setFileNameTrainingData, setFileNameTestData:
      186-200; the public flags ifReadWarmStart and ifVariancesShouldBeComputedInTest: hpp:62, 69 *)
  Definition tester_setDimension (d : nat) : SM tester unit :=
    smod (with_conf (fun h => mkTC d (h_name h) (h_box h) (h_iters h) (h_train h) (h_test h) (h_warm h) (h_var h))).
  Definition tester_setName (n : str) : SM tester unit :=
    run sassert (negb (is_empty n));
    smod (with_conf (fun h => mkTC (h_dim h) n (h_box h) (h_iters h) (h_train h) (h_test h) (h_warm h) (h_var h))).
  Definition tester_setModel (m : mtype) : SM tester unit :=
    smod (fun q => mkTt (q_conf q) (Some m) (q_bound q) (q_ptr q) (q_multi q) (q_state q)).
  Definition tester_setBox (b : bnds T) : SM tester unit :=
    run smod (with_conf (fun h => mkTC (h_dim h) (h_name h) b (h_iters h) (h_train h) (h_test h) (h_warm h) (h_var h)));
    sthrow_if (negb (b_set b)) RuntimeError.
  Definition tester_setTraining (f : str) : SM tester unit :=
    run slift (tester_checkFilename f);
    smod (with_conf (fun h => mkTC (h_dim h) (h_name h) (h_box h) (h_iters h) f (h_test h) (h_warm h) (h_var h))).
  Definition tester_setTest (f : str) : SM tester unit :=
    run slift (tester_checkFilename f);
    smod (with_conf (fun h => mkTC (h_dim h) (h_name h) (h_box h) (h_iters h) (h_train h) f (h_warm h) (h_var h))).
  Definition tester_setFlags (warm var : bool) : SM tester unit :=
    smod (with_conf (fun h => mkTC (h_dim h) (h_name h) (h_box h) (h_iters h) (h_train h) (h_test h) warm var)).
  (** setNumberOfTrainingIterations: 23-29; the model is given the number again by the test.  The pointer is dereferenced when
      ifbindSurrogateModelisDone is set *)
  Definition tester_setIters (n : nat) : SM tester unit :=
    run smod (with_conf (fun h => mkTC (h_dim h) (h_name h) (h_box h) n (h_train h) (h_test h) (h_warm h) (h_var h)));
    get q <-- sget (fun q => q);
    match q_bound q, q_ptr q with true, PNone => slift UB | _, _ => sret tt end.
  (** setRatioValidationSamples: 39-46; its own test (value < 0 && value > 1.0) is never true; SurrogateModelData::setValidationRatio refuses *)
  Definition in_state {A} (m : SM tstate A) : SM tester A :=
    szoom q_state (fun s q => mkTt (q_conf q) (q_type q) (q_bound q) (q_ptr q) (q_multi q) s) m.
  Definition tester_setRatio (v : T) : SM tester unit :=
    run sthrow_if ((v <! n0) && (v >! n1)) InvalidArgument;
    get q <-- sget (fun q => q);
    match q_ptr q with
    | PNone => slift UB
    | PLinear => in_state (szoom v_lin (fun l s => mkTS l (v_lintest s) (v_krig s) (v_krigtest s)) (in_ldata (data_setRatio v)))
    | PKriging => in_state (szoom v_krig (fun k s => mkTS (v_lin s) (v_lintest s) k (v_krigtest s)) (train_setRatio v))
    end.
  (** bindSurrogateModels: 57-87, checkIfSurrogateModelIsSpecified: 48-55.  Other types leave the pointer as it was *)
  Definition tester_bind : SM tester unit :=
    get q <-- sget (fun q => q);
    match q_type q with
    | None => sthrow RuntimeError
    | Some m =>
        run sthrow_if (q_multi q) RuntimeError;
        let s := q_state q in
        let s' := match m with UniversalKriging => mkTS (v_lin s) (v_lintest s) (tset_k (kset_uselin true (t_k (v_krig s))) (v_krig s)) (v_krigtest s) | _ => s end in
        let p' := match m with LinearRegression => PLinear | OrdinaryKriging | UniversalKriging => PKriging | _ => q_ptr q end in
        smod (fun q => mkTt (q_conf q) (q_type q) true p' (q_multi q) s')
    end.
  (** performSurrogateModelTest: 103-161 *)
  Definition tester_perform (perm : list nat) (us : nat -> nat -> nat -> T) (ws : nat -> nat -> genDraw T) : SM (tester * files) (option T) :=
    get w <-- sget (fun w => w);
    let q := fst w in let h := q_conf q in
    run sthrow_if (negb (b_set (h_box h))) RuntimeError;
    run sassert (q_bound q); run sassert (negb (is_empty (h_name h))); run sassert (Nat.ltb 0 (h_dim h));
    run slift (tester_checkFilename (h_train h)); run slift (tester_checkFilename (h_test h));
    szoom (fun w => (q_state (fst w), snd w)) (fun s w => (mkTt (q_conf (fst w)) (q_type (fst w)) (q_bound (fst w)) (q_ptr (fst w)) (q_multi (fst w)) (fst s), snd s))
      (match q_ptr q with PNone => slift UB | PLinear => test_linear h perm | PKriging => test_krig h perm us ws end).

  (** *** a program that uses the tester *)
  Inductive tcall := CDim (d : nat) | CName (n : str) | CModel (m : mtype) | CBox (b : bnds T) | CTraining (f : str) | CTest (f : str)
    | CFlags (warm var : bool) | CIters (n : nat) | CRatio (v : T) | CBind | CPerform (perm : list nat) (us : nat -> nat -> nat -> T) (ws : nat -> nat -> genDraw T).
  Definition on_tester {A} (m : SM tester A) : SM (tester * files) A := szoom fst (fun q w => (q, snd w)) m.
  (** one call; [Some e] is a test that ran to its end *)
  Definition tcall_run (c : tcall) : SM (tester * files) (option T) :=
    match c with
    | CDim d => run on_tester (tester_setDimension d); sret None
    | CName n => run on_tester (tester_setName n); sret None
    | CModel m => run on_tester (tester_setModel m); sret None
    | CBox b => run on_tester (tester_setBox b); sret None
    | CTraining f => run on_tester (tester_setTraining f); sret None
    | CTest f => run on_tester (tester_setTest f); sret None
    | CFlags warm var => run on_tester (tester_setFlags warm var); sret None
    | CIters n => run on_tester (tester_setIters n); sret None
    | CRatio v => run on_tester (tester_setRatio v); sret None
    | CBind => run on_tester tester_bind; sret None
    | CPerform perm us ws => tester_perform perm us ws
    end.
  (** calls in a row, each exception caught by the program *)
  Definition tcalls_run (l : list tcall) (w : tester * files) : tester * files := fold_left (fun w c => fst (tcall_run c w)) l w.
End Tester.
Arguments tcall : clear implicits.
Arguments tested : clear implicits.
Arguments tstate : clear implicits.
Arguments tconf : clear implicits.
Arguments tester : clear implicits.
