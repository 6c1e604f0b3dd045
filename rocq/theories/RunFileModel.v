(** Model of the files an optimisation leaves on disk: the history as CSV file (src/Optimizers/optimization_history.cpp) and the best
    design as XML file (src/Optimizers/globalOptimalDesign.cpp), written while the optimiser of OptModel runs.  The file system is the
    table of texts of ExtModel.  [writable]: the files that can be opened for writing; [fixed p]: the text the stream operator prints
    for a number with std::fixed and precision p (6 is the default precision).  Every change of the disk is recorded, newest first.
    Opening a file for writing empties it; writing a text is one step; a write never fails half way. *)
From Coq Require Import Ascii String ZArith Bool Arith List.
From Verif Require Import Base StM Num VecModel MatModel BoundsModel KrigModel DesignModel HistModel OptModel StrModel ExtModel CsvModel.
Import ListNotations.

Section RunFile.
  Context {T : Type} {NT : Num T}.
  Context (writable : str -> bool) (fixed : nat -> T -> str).

  (** the optimiser, the disk, and the earlier states of the disk *)
  Record rst := mkRst { r_opt : ost T; r_disk : files; r_past : list files }.
  Definition lo {A} (m : SM (ost T) A) : SM rst A := szoom r_opt (fun o s => mkRst o (r_disk s) (r_past s)) m.
  Definition write (name t : str) : SM rst unit := smod (fun s => mkRst (r_opt s) (put name t (r_disk s)) (r_disk s :: r_past s)).

  (** *** the report of the best design *)
  (** GlobalOptimalDesign::generateXmlVector: globalOptimalDesign.cpp:198-211 *)
  Definition xmlVector (name : str) (v : vec T) : Res str :=
    match v with
    | [] => Throw AssertFail
    | _ => Ok (start_tag name ++ newline ++ flat_map (fun x => tab ++ lit "<item>" ++ fixed 6 x ++ lit "</item>" ++ newline) v ++ end_tag name)
    end.
  (** generateXmlString: 214-247; generateXml of an int, a double and a string: 182-197 *)
  Definition reportText (d : design T) : Res str :=
    p <- xmlVector (lit "DesignParameters") (ds_x d) ;;
    c <- match ds_con d with [] => Ok [] | cs => v <- xmlVector (lit "ConstraintValues") cs ;; Ok (v ++ newline) end ;;
    Ok (lit "<GlobalOptimalDesign>" ++ newline ++
        generateXml (lit "DesignID") (int_text (ds_ID d)) ++ newline ++
        generateXml (lit "ObjectiveFunction") (fixed 6 (ds_f d)) ++ newline ++
        p ++ newline ++ c ++
        generateXml (lit "Feasibility") (if ds_feas d then lit "YES" else lit "NO") ++ newline ++
        lit "</GlobalOptimalDesign>" ++ newline).
  (** saveToXMLFile: 166-179 *)
  Definition saveReport (name : str) : SM rst unit :=
    run sthrow_if (is_empty name) RuntimeError;
    run sthrow_if (negb (writable name)) RuntimeError;
    run write name [];
    get s <-- sget (fun s => s);
    get t <-- slift (reportText (go_d (s_gopt (r_opt s))));
    write name t.

  (** *** the history file *)
  (** setHeader: optimization_history.cpp:127-168.  [pn]: the parameter names, [cn]: the constraint names *)
  Definition header (pn cn : list str) (d : nat) : Res (list str) :=
    if negb (is_empty pn) && negb (Nat.eqb (length pn) d) then Throw InvalidArgument
    else Ok ((if is_empty pn then map (fun i => lit "x" ++ int_text (Z.of_nat (S i))) (seq 0 d) else pn)
             ++ [lit "Objective"] ++ cn ++ [lit "Improvement"; lit "Feasibility"]).
  (** the text mat::saveAsCSV writes: matrix.cpp:960-985 *)
  Definition tableText (p : nat) (hd : list str) (m : mat T) : str :=
    (if is_empty hd then [] else joined (lit ",") hd ++ newline)
    ++ concat (map (fun i => rowText fixed p (vbuild (ncols m) (fun j => mget m i j))) (seq 0 (nrows m))).
  (** saveOptimizationHistoryFile: 172-186, mat::saveAsCSV: matrix.cpp:945-990 *)
  Definition saveHistory (name : str) (pn cn : list str) : SM rst unit :=
    get s <-- sget (fun s => s);
    let h := s_hist (r_opt s) in
    run sthrow_if (mat_isEmpty (h_data h)) RuntimeError;
    get hd <-- slift (header pn cn (h_dim h));
    run sthrow_if (negb (writable name)) RuntimeError;
    run write name [];
    run sthrow_if (negb (is_empty hd) && negb (Nat.eqb (length hd) (ncols (h_data h)))) InvalidArgument;
    write name (tableText 6 hd (h_data h)).

  (** *** the run *)
  (** the names of the files and of the columns *)
  Record fnames := mkFN { f_hist : str; f_rep : str; f_par : list str; f_con : list str }.
  (** findTheGlobalOptimalDesign: optimization.cpp:306-333 *)
  Definition findOptimumF (n : fnames) (c : cfg T) : SM rst unit := run lo (findOptimum c); saveReport (f_rep n).
  (** the body of the loop: efficient_global_optimization.cpp:10-124, up to the new history row *)
  Definition beforeUpdate (c : cfg T) (e : env T) : SM (ost T) (design T) :=
    run smod (fun s => set_iter (S (s_iter s)) s);
    get it <-- sget s_iter;
    run (if Nat.eqb (c_how c) 0 then slift UB
         else swhen (Nat.eqb (it mod c_how c) 1)
                (run slift (e_train e); smod (fun s => set_init true (set_ghost (s_pts s) (s_trained s ++ [it]) s))));
    run findDesign c e;
    get d <-- sget s_cur;
    run smod (fun s => set_ghost (s_pts s ++ [ds_x d]) (s_trained s) s);
    get f <-- slift (e_eval e (ds_x d));
    run on_cur (ds_set_f f);
    run smod (fun s => set_evals (S (s_evals s)) s);
    run evalConstraints c;
    run smod (fun s => let '(b, im) := improvement (s_best s) (ds_feas (s_cur s)) (ds_f (s_cur s)) in
                       set_best b (set_cur (ds_set_imp im (s_cur s)) s));
    get d <-- sget s_cur;
    run sthrow_if (design_hasNan d) RuntimeError;
    run slift (e_add e);
    sret d.
  (** updateOptimizationHistory: optimization_history.cpp:189-229, without the file *)
  Definition addRow (d : design T) : SM (hist T) unit :=
    get h <-- sget (fun h => h);
    get r <-- slift (hist_row h d);
    (fun h => let '(m, res) := mat_addRow (h_data h) r (-1) in (hset_data m h, res)).
  (** the trust region and the sigma factor *)
  Definition afterUpdate (c : cfg T) (e : env T) : SM (ost T) unit :=
    run smod trUpdate;
    swhen (c_var c) (run adjustSigma e; smod (fun s => set_sig (s_delta s) (s_mult s *! nlit 101 (-2)) (s_sigma s) (s_coef s) s)).
  Definition iterationF (n : fnames) (c : cfg T) (e : env T) : SM rst unit :=
    get d <-- lo (beforeUpdate c e);
    run lo (in_hist (addRow d));
    run saveHistory (f_hist n) (f_par n) (f_con n);
    run lo (afterUpdate c e);
    findOptimumF n c.
  Fixpoint egoLoopF (fuel : nat) (k : nat) (n : fnames) (c : cfg T) (es : nat -> env T) (s : rst) : option (rst * Res unit) :=
    match fuel with
    | O => None
    | S f => match iterationF n c (es k) s with
             | (s1, Ok _) => if Nat.leb (c_N c) (s_iter (r_opt s1)) then Some (s1, Ok tt) else egoLoopF f (S k) n c es s1
             | (s1, r) => Some (s1, r)
             end
    end.
  (** performEfficientGlobalOptimization: efficient_global_optimization.cpp:130-166, up to the first history table *)
  Definition beforeStart (c : cfg T) (ini : Res unit) : SM (ost T) unit :=
    run sthrow_if (negb (c_objset c)) RuntimeError;
    run sthrow_if (negb (c_boxset c)) RuntimeError;
    run settingsOk c;
    run initSettings c;
    run slift ini;
    run smod (set_init true);
    run szoom s_cur set_cur (design_setNumberOfConstraints (length (c_cons c)));
    run on_cur (ds_set_feas true);
    run in_hist (hist_setDimension (c_dim c));
    run in_hist (sloop (length (c_cons c)) (fun _ => hist_addConstraint));
    get m <-- slift (startHistory c);
    run in_hist (hist_setData m);
    get h <-- sget s_hist;
    get b <-- slift (hist_initialImprovement h);
    smod (set_best b).
  Definition setDoE (c : cfg T) : SM (ost T) unit :=
    in_hist (smod (fun h => mkH (h_dim h) (h_cn h) (h_data h) (h_crowd h) (nrows (c_data c)))).
  Definition initCrowding (c : cfg T) : SM (ost T) unit :=
    swhen (c_var c) (run in_hist hist_crowding;
      smod (fun s => set_sig (s_delta s) (s_mult s) (s_sigma s) (h_crowd (s_hist s) *! s_sigma s) s)).
  Definition startRunF (n : fnames) (c : cfg T) (ini : Res unit) : SM rst unit :=
    run lo (beforeStart c ini);
    run saveHistory (f_hist n) (f_par n) (f_con n);
    run lo (setDoE c);
    run findOptimumF n c;
    lo (initCrowding c).
  Definition egoF (fuel : nat) (n : fnames) (c : cfg T) (ini : Res unit) (es : nat -> env T) (s : rst) : option (rst * Res unit) :=
    match startRunF n c ini s with
    | (s1, Ok _) => egoLoopF fuel 0 n c es s1
    | (s1, r) => Some (s1, r)
    end.
End RunFile.
Arguments rst : clear implicits.
