(** LinearModel and KrigingModel: src/SurrogateModels/linear_regression.cpp, kriging_training.cpp, surrogate_model.cpp.
    The training data file is the matrix mat::readFromCSV returns for it; file names and logging are not modelled. *)
From Coq Require Import List Arith Bool ZArith.
From Verif Require Import Base StM Num VecModel MatModel LinSolverModel BoundsModel CorrModel DataModel.
Import ListNotations.

(** run a method of a member object *)
Definition szoom {K S A} (g : K -> S) (p : S -> K -> K) (m : SM S A) : SM K A := fun k => let '(s, r) := m (g k) in (p s k, r).
(** a method that may leave the object unchanged or changed: [f s] is the new member and the outcome *)
Definition szoomf {K S A} (g : K -> S) (p : S -> K -> K) (f : S -> S * Res A) : SM K A := szoom g p f.
(** try { m } catch (const std::exception&) { throw e; } -- a failing assert aborts and is not caught *)
Definition srethrow {S A} (e : exn) (m : SM S A) : SM S A :=
  fun s => match m s with (s1, Throw AssertFail) => (s1, Throw AssertFail) | (s1, Throw _) => (s1, Throw e) | r => r end.
(** try { m } catch (const std::exception&) { only logging } *)
Definition sswallow {S} (m : SM S unit) : SM S unit :=
  fun s => match m s with (s1, Throw AssertFail) => (s1, Throw AssertFail) | (s1, Throw _) => (s1, Ok tt) | r => r end.

Section KrigModel.
  Context {T : Type} `{NT : Num T} `{NF : NumFun T}.

  (** default tolerance of has_zeros: LinearAlgebra/INCLUDE/vector.hpp:132 *)
  Definition zero_tol : T := nlit 1 (-9).

  (** *** LinearModel *)
  (** members: linear_regression.hpp, surrogate_model.hpp:60-130 *)
  Record lmodel := mkL { l_dim : nat; l_n : nat; l_data : sdata T; l_w : vec T; l_reg : T; l_read : bool; l_norm : bool; l_init : bool }.
  Definition lmodel_new : lmodel := mkL 0 0 sdata_new [] n0 false false false.
  Definition lset_data d s := mkL (l_dim s) (l_n s) d (l_w s) (l_reg s) (l_read s) (l_norm s) (l_init s).
  Definition lset_w w s := mkL (l_dim s) (l_n s) (l_data s) w (l_reg s) (l_read s) (l_norm s) (l_init s).
  Definition lset_reg v s := mkL (l_dim s) (l_n s) (l_data s) (l_w s) v (l_read s) (l_norm s) (l_init s).
  Definition in_ldata {A} (m : SM (sdata T) A) : SM lmodel A := szoom l_data lset_data m.
  (** SurrogateModel::setDimension: surrogate_model.cpp:31-34 (the dimension of the data object is not set) *)
  Definition lin_setDimension (d : nat) : SM lmodel unit := smod (fun s => mkL d (l_n s) (l_data s) (l_w s) (l_reg s) (l_read s) (l_norm s) (l_init s)).
  (** setBoxConstraints: linear_regression.cpp:13-19 *)
  Definition lin_setBox (b : bnds T) : SM lmodel unit := run sassert (b_set b); in_ldata (data_setBox b).
  (** setRegularizationParameter, setWeights: 86-100 *)
  Definition lin_setReg (v : T) : SM lmodel unit := smod (lset_reg v).
  Definition lin_setWeights (w : vec T) : SM lmodel unit := smod (lset_w w).
  (** readData: 22-30 (its data object never has a validation ratio, so no shuffle is drawn) *)
  Definition lin_readData (file : mat T) : SM lmodel unit :=
    run in_ldata (data_read file []);
    smod (fun s => mkL (l_dim s) (d_n (l_data s)) (l_data s) (l_w s) (l_reg s) true (l_norm s) (l_init s)).
  (** normalizeData: 32-38 *)
  Definition lin_normalizeData : SM lmodel unit :=
    get s <-- sget (fun s => s); run sassert (l_read s);
    run in_ldata (data_normalize zero_tol);
    smod (fun s => mkL (l_dim s) (l_n s) (l_data s) (l_w s) (l_reg s) (l_read s) true (l_init s)).
  (** augmentedX: 125-141 (operator() of mat checks its indices) *)
  Definition aug_matrix (X : mat T) (n d : nat) : Res (mat T) :=
    if (Nat.ltb (nrows X) n || Nat.ltb (ncols X) d)%bool then Throw OutOfRange
    else Ok (mbuild n (d + 1) (fun i j => if Nat.eqb j 0 then n1 else mget X i (j - 1))).
  (** train: 102-162 *)
  Definition lin_train : SM lmodel unit :=
    get s <-- sget (fun s => s);
    run sthrow_if (negb (l_norm s)) RuntimeError;
    run sthrow_if (negb (l_read s)) RuntimeError;
    run sthrow_if (Nat.eqb (l_dim s) 0) InvalidArgument;
    run sthrow_if (Nat.eqb (l_n s) 0) InvalidArgument;
    get A <-- slift (aug_matrix (d_X (l_data s)) (l_n s) (l_dim s));
    let AT := mat_transpose A in
    get G <-- slift (mat_mul AT A);
    get Gi <-- slift (mat_invert (mat_addEps G (l_reg s)));
    get b <-- slift (mat_vec AT (d_y (l_data s)));
    get w <-- slift (mat_vec Gi b);
    smod (lset_w w).
  (** initializeSurrogateModel: 41-64 *)
  Definition lin_initialize : SM lmodel unit :=
    get s <-- sget (fun s => s);
    run sthrow_if (negb (l_read s)) RuntimeError;
    run sthrow_if (Nat.eqb (l_dim s) 0) InvalidArgument;
    run smod (fun s => lset_reg (nlit 1 (-8)) (lset_w (repeat n0 (l_dim s + 1)) s));
    run lin_train;
    smod (fun s => mkL (l_dim s) (l_n s) (l_data s) (l_w s) (l_reg s) (l_read s) (l_norm s) true).
  (** interpolate: 164-175 *)
  Definition lin_interpolate (s : lmodel) (x : vec T) : Res T :=
    w0 <- vec_at (l_w s) 0 ;;
    loopR (l_dim s) (fun i f => xi <- vec_at x i ;; w <- vec_at (l_w s) (i + 1) ;; Ok (f +! xi *! w)) w0.
  (** interpolateAll: 193-208 *)
  Definition lin_interpolateAll (s : lmodel) (X : mat T) : Res (vec T) :=
    if negb (Nat.eqb (ncols X) (l_dim s)) then Throw InvalidArgument
    else loopR (nrows X) (fun i acc => f <- lin_interpolate s (mrow X i) ;; Ok (acc ++ [f])) [].

  (** *** KrigingModel *)
  (** members: kriging_training.hpp:58-85, surrogate_model.hpp:60-130.  [k_Rys] is R_inv_ys, [k_RI] R_inv_I, [k_Rysb] R_inv_ys_min_beta *)
  Record krig := mkK {
    k_dim : nat; k_n : nat; k_nhyp : nat; k_data : sdata T; k_cf : ecf T; k_cfinit : bool;
    k_lin : lmodel; k_uselin : bool; k_sys : @chol_sys T;
    k_Rys : vec T; k_RI : vec T; k_Rysb : vec T; k_ones : vec T; k_beta0 : T; k_s2 : T; k_avg : bool;
    k_read : bool; k_norm : bool; k_init : bool }.
  Definition krig_new : krig :=
    mkK 0 0 0 sdata_new ecf_new false lmodel_new false chol_new [] [] [] [] n0 n0 false false false false.
  Definition kset_dim d k := mkK d (k_n k) (k_nhyp k) (k_data k) (k_cf k) (k_cfinit k) (k_lin k) (k_uselin k) (k_sys k) (k_Rys k) (k_RI k) (k_Rysb k) (k_ones k) (k_beta0 k) (k_s2 k) (k_avg k) (k_read k) (k_norm k) (k_init k).
  Definition kset_n n k := mkK (k_dim k) n (k_nhyp k) (k_data k) (k_cf k) (k_cfinit k) (k_lin k) (k_uselin k) (k_sys k) (k_Rys k) (k_RI k) (k_Rysb k) (k_ones k) (k_beta0 k) (k_s2 k) (k_avg k) (k_read k) (k_norm k) (k_init k).
  Definition kset_nhyp n k := mkK (k_dim k) (k_n k) n (k_data k) (k_cf k) (k_cfinit k) (k_lin k) (k_uselin k) (k_sys k) (k_Rys k) (k_RI k) (k_Rysb k) (k_ones k) (k_beta0 k) (k_s2 k) (k_avg k) (k_read k) (k_norm k) (k_init k).
  Definition kset_data d k := mkK (k_dim k) (k_n k) (k_nhyp k) d (k_cf k) (k_cfinit k) (k_lin k) (k_uselin k) (k_sys k) (k_Rys k) (k_RI k) (k_Rysb k) (k_ones k) (k_beta0 k) (k_s2 k) (k_avg k) (k_read k) (k_norm k) (k_init k).
  Definition kset_cf c k := mkK (k_dim k) (k_n k) (k_nhyp k) (k_data k) c (k_cfinit k) (k_lin k) (k_uselin k) (k_sys k) (k_Rys k) (k_RI k) (k_Rysb k) (k_ones k) (k_beta0 k) (k_s2 k) (k_avg k) (k_read k) (k_norm k) (k_init k).
  Definition kset_cfinit b k := mkK (k_dim k) (k_n k) (k_nhyp k) (k_data k) (k_cf k) b (k_lin k) (k_uselin k) (k_sys k) (k_Rys k) (k_RI k) (k_Rysb k) (k_ones k) (k_beta0 k) (k_s2 k) (k_avg k) (k_read k) (k_norm k) (k_init k).
  Definition kset_lin l k := mkK (k_dim k) (k_n k) (k_nhyp k) (k_data k) (k_cf k) (k_cfinit k) l (k_uselin k) (k_sys k) (k_Rys k) (k_RI k) (k_Rysb k) (k_ones k) (k_beta0 k) (k_s2 k) (k_avg k) (k_read k) (k_norm k) (k_init k).
  Definition kset_uselin b k := mkK (k_dim k) (k_n k) (k_nhyp k) (k_data k) (k_cf k) (k_cfinit k) (k_lin k) b (k_sys k) (k_Rys k) (k_RI k) (k_Rysb k) (k_ones k) (k_beta0 k) (k_s2 k) (k_avg k) (k_read k) (k_norm k) (k_init k).
  Definition kset_sys c k := mkK (k_dim k) (k_n k) (k_nhyp k) (k_data k) (k_cf k) (k_cfinit k) (k_lin k) (k_uselin k) c (k_Rys k) (k_RI k) (k_Rysb k) (k_ones k) (k_beta0 k) (k_s2 k) (k_avg k) (k_read k) (k_norm k) (k_init k).
  Definition kset_sol Rys RI Rysb ones b0 s2 k := mkK (k_dim k) (k_n k) (k_nhyp k) (k_data k) (k_cf k) (k_cfinit k) (k_lin k) (k_uselin k) (k_sys k) Rys RI Rysb ones b0 s2 (k_avg k) (k_read k) (k_norm k) (k_init k).
  Definition kset_avg b k := mkK (k_dim k) (k_n k) (k_nhyp k) (k_data k) (k_cf k) (k_cfinit k) (k_lin k) (k_uselin k) (k_sys k) (k_Rys k) (k_RI k) (k_Rysb k) (k_ones k) (k_beta0 k) (k_s2 k) b (k_read k) (k_norm k) (k_init k).
  Definition kset_flags rd nm ini k := mkK (k_dim k) (k_n k) (k_nhyp k) (k_data k) (k_cf k) (k_cfinit k) (k_lin k) (k_uselin k) (k_sys k) (k_Rys k) (k_RI k) (k_Rysb k) (k_ones k) (k_beta0 k) (k_s2 k) (k_avg k) rd nm ini.
  Definition in_kdata {A} (m : SM (sdata T) A) : SM krig A := szoom k_data kset_data m.
  Definition in_klin {A} (m : SM lmodel A) : SM krig A := szoom k_lin kset_lin m.
  Definition in_kcf {A} (m : SM (ecf T) A) : SM krig A := szoom k_cf kset_cf m.
  Definition in_ksys {A} (m : SM (@chol_sys T) A) : SM krig A := szoom k_sys kset_sys m.

  (** setDimension: kriging_training.cpp:22-27 *)
  Definition krig_setDimension (d : nat) : SM krig unit :=
    run smod (kset_dim d); run in_klin (lin_setDimension d); in_kdata (data_setDimension d).
  (** setBoxConstraints: 57-78 *)
  Definition krig_setBox (b : bnds T) : SM krig unit :=
    get k <-- sget (fun k => k);
    run sthrow_if (negb (b_set b)) InvalidArgument;
    run sthrow_if (Nat.eqb (k_dim k) 0) RuntimeError;
    run sthrow_if (negb (Nat.eqb (b_dim b) (k_dim k))) RuntimeError;
    run swhen (k_uselin k) (in_klin (lin_setBox b));
    in_kdata (data_setBox b).
  (** setLinearRegressionOn/Off: 403-412; setRatioValidationSamples: surrogate_model.cpp:76-79 *)
  Definition krig_setLinear (b : bool) : SM krig unit := smod (kset_uselin b).
  Definition krig_setRatio (v : T) : SM krig unit := in_kdata (data_setRatio v).
  (** setEpsilon: 390-401 *)
  Definition krig_setEpsilon (v : T) : SM krig unit :=
    run sthrow_if (v <! n0) InvalidArgument;
    in_kcf (fun c => let '(b, r) := cb_setEpsilon (ec_b c) v in (mkE b (ec_theta c) (ec_gamma c), r)).
  (** setHyperParameters: 311-320; getHyperParameters: 322-325 *)
  Definition krig_setHyper (v : vec T) : SM krig unit :=
    get k <-- sget (fun k => k);
    run sthrow_if (negb (Nat.eqb (length v) (k_nhyp k))) InvalidArgument;
    in_kcf (fun c => ecf_setHyper c v).
  Definition krig_getHyper (k : krig) : Res (vec T) := ecf_getHyper (k_cf k).
  (** loadHyperParameters: 347-380; [buf] the numbers in the file.  A buffer of any other length is ignored. *)
  Definition krig_loadHyper (buf : vec T) : SM krig unit :=
    get k <-- sget (fun k => k);
    run sthrow_if (Nat.eqb (k_dim k) 0) RuntimeError;
    swhen (Nat.eqb (length buf) (k_nhyp k))
      (get h <-- slift (vec_head buf (d_dim (k_data k))); get t <-- slift (vec_tail buf (d_dim (k_data k)));
       run in_kcf (fun c => ecf_setTheta c h); in_kcf (fun c => ecf_setGamma c t)).
  (** readData: 85-115 (the file name is assumed to be set) *)
  Definition krig_readData (file : mat T) (perm : list nat) : SM krig unit :=
    get k <-- sget (fun k => k);
    run sthrow_if (Nat.eqb (k_dim k) 0) RuntimeError;
    run srethrow RuntimeError (in_kdata (data_read file perm));
    run swhen (k_uselin k) (srethrow RuntimeError (in_klin (lin_readData file)));
    smod (fun k => kset_flags true (k_norm k) (k_init k) (kset_n (d_n (k_data k)) k)).
  (** normalizeData: 118-129 *)
  Definition krig_normalizeData : SM krig unit :=
    get k <-- sget (fun k => k);
    run sthrow_if (negb (k_read k)) RuntimeError;
    run in_kdata (data_normalize zero_tol);
    run swhen (k_uselin k) (in_klin lin_normalizeData);
    smod (fun k => kset_flags (k_read k) true (k_init k) k).
  (** resetDataObjects: 494-501 *)
  Definition krig_reset : SM krig unit := smod (kset_sol [] [] [] [] n0 n0).
  (** resizeDataObjects: 503-515; vec::resize of an empty vector fills with zeros *)
  Definition krig_resize : SM krig unit :=
    get k <-- sget (fun k => k);
    run sthrow_if (Nat.eqb (k_n k) 0) LogicError;
    let z := repeat n0 (k_n k) in
    smod (fun k => kset_sol z z z (repeat n1 (k_n k)) (k_beta0 k) (k_s2 k) k).
  (** updateAuxilliaryFields: 202-258 *)
  Definition krig_update : SM krig unit :=
    get k <-- sget (fun k => k);
    run sthrow_if (negb (k_read k)) RuntimeError;
    run sthrow_if (negb (k_norm k)) RuntimeError;
    run sthrow_if (negb (k_cfinit k)) RuntimeError;
    run sthrow_if (Nat.eqb (k_n k) 0) InvalidArgument;
    run sthrow_if (Nat.eqb (k_dim k) 0) RuntimeError;
    run in_kcf ecf_computeMatrix;
    run smod (fun k => kset_sys (chol_setMatrix (k_sys k) (cb_R (ec_b (k_cf k)))) k);
    run in_ksys chol_factorize;
    run krig_reset; run krig_resize;
    get k <-- sget (fun k => k);
    swhen (chol_isDone (k_sys k))
      (let ys := d_y (k_data k) in
       get Rys <-- slift (chol_solve (k_sys k) ys);
       get RI <-- slift (chol_solve (k_sys k) (k_ones k));
       get a <-- slift (vec_dot (k_ones k) RI);
       get b <-- slift (vec_dot (k_ones k) Rys);
       get beta0 <-- slift (if k_avg k then vec_mean ys else Ok (n1 /! a *! b));
       let d := vec_subs ys beta0 in
       get Rysb <-- slift (chol_solve (k_sys k) d);
       get q <-- slift (vec_dot d Rysb);
       smod (kset_sol Rys RI Rysb (k_ones k) beta0 (n1 /! nofnat (k_n k) *! q))).
  (** initializeSurrogateModel: 139-184 *)
  Definition krig_initialize : SM krig unit :=
    get k <-- sget (fun k => k);
    run sthrow_if (Nat.eqb (k_dim k) 0) RuntimeError;
    run sthrow_if (Nat.eqb (k_n k) 0) InvalidArgument;
    run sthrow_if (negb (k_read k)) RuntimeError;
    run sthrow_if (negb (k_norm k)) RuntimeError;
    run in_kcf (fun c => let '(b, r) := cb_setInput (ec_b c) (d_X (k_data k)) in (mkE b (ec_theta c) (ec_gamma c), r));
    run swhen (negb (k_cfinit k)) (run in_kcf ecf_initialize; smod (kset_cfinit true));
    run smod (kset_nhyp (2 * k_dim k));
    run swhen (k_uselin k)
      (run in_klin lin_initialize;
       get k1 <-- sget (fun k => k);
       get yl <-- slift (lin_interpolateAll (k_lin k1) (d_X (k_data k1)));
       get r <-- slift (vec_sub (d_y (k_data k1)) yl);
       in_kdata (data_setOutput r));
    run krig_update;
    smod (fun k => kset_flags (k_read k) (k_norm k) true k).
  (** updateModelWithNewData: 533-540 *)
  Definition krig_updateModel (file : mat T) (perm : list nat) : SM krig unit :=
    run krig_reset; run krig_readData file perm; run krig_normalizeData; krig_initialize.
  (** interpolate: 542-559 *)
  Definition krig_interpolate (k : krig) (x : vec T) : Res T :=
    l <- (if k_uselin k then lin_interpolate (k_lin k) x else Ok n0) ;;
    r <- ecf_corrVector (k_cf k) x ;;
    q <- vec_dot r (k_Rysb k) ;;
    Ok (l +! (k_beta0 k +! q)).
  (** interpolateWithVariance: 569-605; the literal 10E-10 is 1e-9; pow(.,2.0) is the square *)
  Definition krig_variance (k : krig) (x : vec T) : Res (T * T) :=
    f <- krig_interpolate k x ;;
    r <- ecf_corrVector (k_cf k) x ;;
    Rr <- chol_solve (k_sys k) r ;;
    rr <- vec_dot r Rr ;; ri <- vec_dot r (k_RI k) ;; ii <- vec_dot (k_ones k) (k_RI k) ;;
    let t1 := if nabs (ri -! n1) <! nlit 10 (-10) then n0 else (ri -! n1) *! (ri -! n1) /! ii in
    let t2 := if nabs (rr -! n1) <! nlit 10 (-10) then n0 else n1 -! rr in
    Ok (f, k_s2 k *! (t2 +! t1)).
  (** calculateValidationError: surrogate_model.cpp:326-359 *)
  Definition krig_validationError (k : krig) : Res T :=
    let N := d_nv (k_data k) in
    if Nat.ltb 0 N then
      if negb (k_norm k) then Throw RuntimeError
      else e <- loopR N (fun i e => x <- mat_getRow (d_Xval (k_data k)) (Z.of_nat i) ;; f <- krig_interpolate k x ;;
                 y <- vec_at (d_yval (k_data k)) i ;; Ok (e +! nabs (f -! y))) n0 ;;
           Ok (e /! nofnat N)
    else Ok ndblmax.
  (** calculateValidationErrorForGivenHyperparameters: 619-645; numeric_limits<double>::lowest() is -DBL_MAX *)
  Definition krig_validationErrorFor (h : vec T) : SM krig T :=
    get k <-- sget (fun k => k);
    run sthrow_if (negb (k_read k)) RuntimeError;
    run sthrow_if (negb (k_norm k)) RuntimeError;
    run sthrow_if (Nat.eqb (k_n k) 0) InvalidArgument;
    run sthrow_if (Nat.eqb (d_nv (k_data k)) 0) InvalidArgument;
    run in_kcf (fun c => ecf_setHyper c h);
    run krig_update;
    get k1 <-- sget (fun k => k);
    if negb (chol_isDone (k_sys k1)) then sret (n0 -! ndblmax) else slift (krig_validationError k1).
  (** calculateLikelihoodFunction: 649-685 *)
  Definition krig_likelihood (h : vec T) : SM krig T :=
    get k <-- sget (fun k => k);
    run sthrow_if (negb (k_read k)) RuntimeError;
    run sthrow_if (negb (k_norm k)) RuntimeError;
    run sthrow_if (Nat.eqb (k_n k) 0) InvalidArgument;
    run in_kcf (fun c => ecf_setHyper c h);
    run krig_update;
    get k1 <-- sget (fun k => k);
    if negb (chol_isDone (k_sys k1)) then sret (n0 -! ndblmax)
    else get ld <-- slift (chol_logdet (k_sys k1));
         let h2 := nofnat (k_n k1) /! nofZ 2 in
         sret (if k_s2 k1 >! n0 then (n0 -! h2) *! nlog (k_s2 k1) -! nlit 5 (-1) *! ld else n0 -! ndblmax).
  (** calculateInSampleError("function_values"): surrogate_model.cpp:191-234; fExact is read from the raw data of the whole file *)
  Definition krig_inSampleError (k : krig) : Res T :=
    if negb (k_init k) then Throw RuntimeError
    else y <- mat_getCol (d_raw (k_data k)) (Z.of_nat (k_dim k)) ;;
         e <- loopR (d_n (k_data k)) (fun i e => x <- mat_getRow (d_X (k_data k)) (Z.of_nat i) ;; f <- krig_interpolate k x ;;
                 yi <- vec_at y i ;; Ok (e +! (f -! yi) *! (f -! yi))) n0 ;;
         Ok (e /! nofnat (d_n (k_data k))).
  (** tryOnTestData(mode) without derivatives: surrogate_model.cpp:363-470; the rows of testResults
      (x, estimate, [true value, squared error], [variance]); [varmode] is mode == "with_variances".
      getOutputVectorTest: surrogate_model_data.cpp:565-570 (its assert holds whenever rows were read) *)
  Definition krig_testRow (k : krig) (varmode : bool) (i : nat) : Res (vec T) :=
    let d := k_data k in
    xp <- mat_getRow (d_Xtest d) (Z.of_nat i) ;;
    raw <- mat_getRow (d_Xrawtest d) (Z.of_nat i) ;;
    x <- vec_head raw (k_dim k) ;;
    fv <- (if varmode then krig_variance k xp else f <- krig_interpolate k xp ;; Ok (f, n0)) ;;
    let f := fst fv in
    t <- (if f_testf d then ys <- mat_getCol (d_Xrawtest d) (Z.of_nat (d_dim d)) ;; y <- vec_at ys i ;; Ok [y; (y -! f) *! (y -! f)] else Ok []) ;;
    Ok (x ++ [f] ++ t ++ (if varmode then [snd fv] else [])).
  Definition krig_testResults (k : krig) (testnorm varmode : bool) : Res (list (vec T)) :=
    if negb testnorm then Throw RuntimeError
    else loopR (d_nt (k_data k)) (fun i acc => r <- krig_testRow k varmode i ;; Ok (acc ++ [r])) [].
  (** mean of the squared errors: surrogate_model.cpp:251-253, 461 *)
  Definition krig_testError (k : krig) (testnorm : bool) : Res T :=
    if negb (f_testf (k_data k)) then Throw RuntimeError
    else rs <- krig_testResults k testnorm false ;;
         vec_mean (map (fun r => vget r (d_dim (k_data k) + 2)) rs).

  (** addNewSampleToData: 415-441.  The world is the model and the content of the data file; [fmt] is the effect of writing a
      number with 12 digits and reading it back.  appendToCSV refuses a sample whose size is not the number of columns
      (vector.cpp:649-670); a failing append or update is only logged. *)
  Definition krig_addSample (fmt : T -> T) (x : vec T) (perm : list nat) : SM (krig * mat T) unit :=
    get w <-- sget (fun w => w);
    let '(k, file) := w in
    run sthrow_if (negb (Nat.eqb (length x) (d_dim (k_data k) + 1))) RuntimeError;
    get ix <-- slift (mat_findRowIndex (d_raw (k_data k)) x (nlit 1 (-4)));
    swhen (Z.eqb ix (-1))
      (sswallow
        (run sthrow_if (negb (Nat.eqb (ncols file) (length x))) RuntimeError;
         run (fun w => let '(m, r) := mat_addRow (snd w) (map fmt x) (-1) in ((fst w, m), r));
         get w1 <-- sget (fun w => w);
         szoom fst (fun k w => (k, snd w)) (krig_updateModel (snd w1) perm))).
End KrigModel.
Arguments lmodel : clear implicits.
Arguments krig : clear implicits.
