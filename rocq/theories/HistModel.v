(** OptimizationHistory and GlobalOptimalDesign: src/Optimizers/optimization_history.cpp, globalOptimalDesign.cpp.
    File names, headers and the text written to files are not modelled; the number of constraint names is kept because
    it fixes the number of columns. *)
From Coq Require Import List Arith Bool ZArith.
From Verif Require Import Base StM Num VecModel MatModel BoundsModel DesignModel.
Import ListNotations.

Section HistModel.
  Context {T : Type} `{NT : Num T}.

  (** members: optimization_history.hpp:25-38; h_cn = constraintNames.size() *)
  Record hist := mkH { h_dim : nat; h_cn : nat; h_data : mat T; h_crowd : T; h_doe : nat }.
  Definition hist_new : hist := mkH 0 0 mat_empty n0 0.
  Definition hset_data (m : mat T) (h : hist) : hist := mkH (h_dim h) (h_cn h) m (h_crowd h) (h_doe h).
  Definition hist_setDimension (d : nat) : SM hist unit := smod (fun h => mkH d (h_cn h) (h_data h) (h_crowd h) (h_doe h)).
  (** addConstraintName: 14-27; the name is assumed non-empty and new *)
  Definition hist_addConstraint : SM hist unit := smod (fun h => mkH (h_dim h) (S (h_cn h)) (h_data h) (h_crowd h) (h_doe h)).
  (** numberOfEntries: 51, 197 *)
  Definition hist_width (h : hist) : nat := h_dim h + 1 + h_cn h + 2.
  (** setData: 41-61 *)
  Definition hist_setData (m : mat T) : SM hist unit :=
    get h <-- sget (fun h => h);
    run sthrow_if (Nat.eqb (h_dim h) 0) RuntimeError;
    run sthrow_if (mat_isEmpty m) InvalidArgument;
    run sthrow_if (negb (Nat.eqb (ncols m) (hist_width h))) RuntimeError;
    smod (hset_data m).
  (** saveOptimizationHistoryFile: 172-186; throws on empty data, otherwise only writes a file *)
  Definition hist_save : SM hist unit :=
    get h <-- sget (fun h => h); sthrow_if (mat_isEmpty (h_data h)) RuntimeError.
  (** updateOptimizationHistory: 189-229; constraintTrueValues(i) throws when out of range *)
  Definition hist_row (h : hist) (d : design T) : Res (vec T) :=
    if negb (Nat.eqb (length (ds_x d)) (h_dim h)) then Throw InvalidArgument
    else v <- sample_vec (ds_x d) 0 (seq 0 (h_dim h)) (repeat n0 (hist_width h)) ;;
         v <- vec_set v (h_dim h) (ds_f d) ;;
         v <- sample_vec (ds_con d) (h_dim h + 1) (seq 0 (h_cn h)) v ;;
         v <- vec_set v (h_dim h + h_cn h + 1) (ds_imp d) ;;
         vec_set v (h_dim h + h_cn h + 2) (if ds_feas d then n1 else n0).
  Definition hist_update (d : design T) : SM hist unit :=
    get h <-- sget (fun h => h);
    get r <-- slift (hist_row h d);
    run (fun h => let '(m, res) := mat_addRow (h_data h) r (-1) in (hset_data m h, res));
    hist_save.
  (** calculateInitialImprovementValue: 233-260 *)
  Definition hist_initialImprovement (h : hist) : Res T :=
    if Nat.eqb (nrows (h_data h)) 0 then Throw RuntimeError
    else if Nat.eqb (h_dim h) 0 then Throw AssertFail
    else obj <- mat_getCol (h_data h) (Z.of_nat (h_dim h)) ;;
         if Nat.eqb (ncols (h_data h)) 0 then Throw AssertFail
         else fea <- mat_getCol (h_data h) (Z.of_nat (ncols (h_data h) - 1)) ;;
         let '(found, best) :=
           loop (nrows (h_data h))
             (fun i st => if (vget fea i >! n0) && (vget obj i <! snd st) then (true, vget obj i) else st) (false, ndblmax) in
         Ok (if found then best else nopp ndblmax).
  (** calculateCrowdingFactor: 279-317.  The first argument pair of the else branch is (0, 0, rows-1, dim-1).
      Simplification: numRows*(numRows-1)/2 is computed without the wrap-around of unsigned int. *)
  Definition hist_crowding : SM hist unit :=
    get h <-- sget (fun h => h);
    let n := nrows (h_data h) in
    run sthrow_if (Nat.eqb n 0 || Nat.eqb (h_dim h) 0 || Nat.eqb (h_doe h) 0) RuntimeError;
    get m <-- slift (if Nat.leb (h_doe h) n then mat_submat (h_data h) (n - h_doe h) (n - 1) 0 (h_dim h - 1)
                     else mat_submat (h_data h) 0 0 (n - 1) (h_dim h - 1));
    let r := nrows m in
    let sum := loop r (fun i s => loop_from (S i) r (fun j s =>
                 s +! vec_norm L1 (vbuild (ncols m) (fun c => mget m i c -! mget m j c)) *! nofZ 2) s) n0 in
    let pairs := r * (r - 1) / 2 in
    smod (fun h => mkH (h_dim h) (h_cn h) (h_data h)
                       (if Nat.ltb 0 pairs then sum /! (nofnat pairs *! nofZ 2) else n0) (h_doe h)).

  (** *** GlobalOptimalDesign *)
  (** GlobalOptimalDesign adds boxConstraints to Design: globalOptimalDesign.hpp:35 *)
  Record gopt := mkGO { go_d : design T; go_box : bnds T }.
  Definition gopt_new : gopt := mkGO design_new bnds_new.
  (** setBoxConstraints: 11-26 *)
  Definition gopt_setBox (b : bnds T) : SM gopt unit :=
    get g <-- sget (fun g => g);
    run sthrow_if (negb (b_set b)) InvalidArgument;
    run sthrow_if (negb (Nat.eqb (ds_dim (go_d g)) (b_dim b))) InvalidArgument;
    smod (fun g => mkGO (go_d g) b).
  (** findBestDesignIndex: 44-73; historyFile(i, j) throws when out of range *)
  Definition best_scan (m : mat T) (dim : nat) : bool * T * nat :=
    loop (nrows m)
      (fun i st => let '(fnd, best, ix) := st in
                   if (mget m i (ncols m - 1) >! n0) && (mget m i dim <! best) then (true, mget m i dim, i) else st)
      (false, ndblmax, 0).
  Definition best_index (m : mat T) (dim : nat) : Res (bool * nat) :=
    if Nat.leb (ncols m) dim then Throw OutOfRange
    else let '(fnd, best, ix) := best_scan m dim in
         if fnd then Ok (true, ix)
         else obj <- mat_getCol m (Z.of_nat dim) ;; ix <- vec_findMinIndex obj ;; Ok (false, ix).
  (** extractDesignData: 76-95; bestSample(size-2) of a row shorter than 2 wraps around and throws *)
  Definition in_god (f : design T -> design T) : SM gopt unit := smod (fun g => mkGO (f (go_d g)) (go_box g)).
  Definition extract (r : vec T) : SM gopt unit :=
    get g <-- sget (fun g => g);
    let d := ds_dim (go_d g) in
    get dv <-- slift (vec_head r d);
    run in_god (fun s => ds_set_point dv (ds_xn s) s);
    get f <-- slift (vec_at r d);
    run in_god (ds_set_f f);
    get im <-- slift (if Nat.ltb (length r) 2 then Throw OutOfRange else vec_at r (length r - 2));
    run in_god (ds_set_imp im);
    get con <-- slift (loopR (ds_nc (go_d g)) (fun i acc => y <- vec_at r (i + d + 1) ;; Ok (acc ++ [y])) []);
    run in_god (ds_set_con con);
    get xn <-- slift (vec_normalize dv (b_lo (go_box g)) (b_up (go_box g)));
    in_god (fun s => ds_set_point (ds_x s) xn s).
  (** validateInputs: 28-41; setGlobalOptimalDesignFromHistoryFile: 97-108 *)
  Definition gopt_fromHistory (m : mat T) : SM gopt unit :=
    get g <-- sget (fun g => g);
    run sthrow_if (Nat.eqb (nrows m) 0) InvalidArgument;
    run sthrow_if (negb (b_set (go_box g))) LogicError;
    run sthrow_if (Nat.eqb (ds_dim (go_d g)) 0) LogicError;
    get fi <-- slift (best_index m (ds_dim (go_d g)));
    get r <-- slift (mat_getRow m (Z.of_nat (snd fi)));
    run smod (fun g => mkGO (ds_set_ID (Z.of_nat (snd fi)) (ds_set_feas (fst fi) (go_d g))) (go_box g));
    extract r.
End HistModel.
Arguments hist : clear implicits.
Arguments gopt : clear implicits.
