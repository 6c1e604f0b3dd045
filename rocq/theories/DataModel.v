(** SurrogateModelData: src/SurrogateModels/surrogate_model_data.cpp, INCLUDE/surrogate_model_data.hpp.
    A CSV file is represented by the matrix that mat::readFromCSV returns for it (parsing is not modelled here);
    the shuffle of generateRandomIndicesForValidationData is the argument [perm].  Logging is not modelled. *)
From Coq Require Import List Arith Bool ZArith.
From Verif Require Import Base StM Num VecModel MatModel BoundsModel.
Import ListNotations.

Section DataModel.
  Context {T : Type} `{NT : Num T}.

  (** members: surrogate_model_data.hpp:52-100 (file names are not modelled) *)
  Record sdata := mkD {
    d_n : nat; d_nt : nat; d_nv : nat; d_dim : nat;
    d_raw : mat T; d_work : mat T; d_val : mat T; d_X : mat T; d_Xraw : mat T;
    d_grad : mat T; d_gradraw : mat T; d_y : vec T;
    d_dd : vec T; d_dirs : mat T;
    d_Xrawtest : mat T; d_Xtest : mat T; d_ytest : vec T;
    d_Xrawval : mat T; d_Xval : mat T; d_yval : vec T;
    d_box : bnds T; d_ratio : T; d_idx : list Z;
    f_testf : bool; f_grad : bool; f_dd : bool; f_norm : bool; f_read : bool; f_testread : bool }.
  Definition sdata_new : sdata :=
    mkD 0 0 0 0 mat_empty mat_empty mat_empty mat_empty mat_empty mat_empty mat_empty [] [] mat_empty
        mat_empty mat_empty [] mat_empty mat_empty [] bnds_new n0 [] false false false false false false.

  (** field assignments *)
  Definition set_n v s := mkD v (d_nt s) (d_nv s) (d_dim s) (d_raw s) (d_work s) (d_val s) (d_X s) (d_Xraw s) (d_grad s) (d_gradraw s) (d_y s) (d_dd s) (d_dirs s) (d_Xrawtest s) (d_Xtest s) (d_ytest s) (d_Xrawval s) (d_Xval s) (d_yval s) (d_box s) (d_ratio s) (d_idx s) (f_testf s) (f_grad s) (f_dd s) (f_norm s) (f_read s) (f_testread s).
  Definition set_nt v s := mkD (d_n s) v (d_nv s) (d_dim s) (d_raw s) (d_work s) (d_val s) (d_X s) (d_Xraw s) (d_grad s) (d_gradraw s) (d_y s) (d_dd s) (d_dirs s) (d_Xrawtest s) (d_Xtest s) (d_ytest s) (d_Xrawval s) (d_Xval s) (d_yval s) (d_box s) (d_ratio s) (d_idx s) (f_testf s) (f_grad s) (f_dd s) (f_norm s) (f_read s) (f_testread s).
  Definition set_nv v s := mkD (d_n s) (d_nt s) v (d_dim s) (d_raw s) (d_work s) (d_val s) (d_X s) (d_Xraw s) (d_grad s) (d_gradraw s) (d_y s) (d_dd s) (d_dirs s) (d_Xrawtest s) (d_Xtest s) (d_ytest s) (d_Xrawval s) (d_Xval s) (d_yval s) (d_box s) (d_ratio s) (d_idx s) (f_testf s) (f_grad s) (f_dd s) (f_norm s) (f_read s) (f_testread s).
  Definition set_dim v s := mkD (d_n s) (d_nt s) (d_nv s) v (d_raw s) (d_work s) (d_val s) (d_X s) (d_Xraw s) (d_grad s) (d_gradraw s) (d_y s) (d_dd s) (d_dirs s) (d_Xrawtest s) (d_Xtest s) (d_ytest s) (d_Xrawval s) (d_Xval s) (d_yval s) (d_box s) (d_ratio s) (d_idx s) (f_testf s) (f_grad s) (f_dd s) (f_norm s) (f_read s) (f_testread s).
  Definition set_raw v s := mkD (d_n s) (d_nt s) (d_nv s) (d_dim s) v (d_work s) (d_val s) (d_X s) (d_Xraw s) (d_grad s) (d_gradraw s) (d_y s) (d_dd s) (d_dirs s) (d_Xrawtest s) (d_Xtest s) (d_ytest s) (d_Xrawval s) (d_Xval s) (d_yval s) (d_box s) (d_ratio s) (d_idx s) (f_testf s) (f_grad s) (f_dd s) (f_norm s) (f_read s) (f_testread s).
  Definition set_work v s := mkD (d_n s) (d_nt s) (d_nv s) (d_dim s) (d_raw s) v (d_val s) (d_X s) (d_Xraw s) (d_grad s) (d_gradraw s) (d_y s) (d_dd s) (d_dirs s) (d_Xrawtest s) (d_Xtest s) (d_ytest s) (d_Xrawval s) (d_Xval s) (d_yval s) (d_box s) (d_ratio s) (d_idx s) (f_testf s) (f_grad s) (f_dd s) (f_norm s) (f_read s) (f_testread s).
  Definition set_val v s := mkD (d_n s) (d_nt s) (d_nv s) (d_dim s) (d_raw s) (d_work s) v (d_X s) (d_Xraw s) (d_grad s) (d_gradraw s) (d_y s) (d_dd s) (d_dirs s) (d_Xrawtest s) (d_Xtest s) (d_ytest s) (d_Xrawval s) (d_Xval s) (d_yval s) (d_box s) (d_ratio s) (d_idx s) (f_testf s) (f_grad s) (f_dd s) (f_norm s) (f_read s) (f_testread s).
  Definition set_X v s := mkD (d_n s) (d_nt s) (d_nv s) (d_dim s) (d_raw s) (d_work s) (d_val s) v (d_Xraw s) (d_grad s) (d_gradraw s) (d_y s) (d_dd s) (d_dirs s) (d_Xrawtest s) (d_Xtest s) (d_ytest s) (d_Xrawval s) (d_Xval s) (d_yval s) (d_box s) (d_ratio s) (d_idx s) (f_testf s) (f_grad s) (f_dd s) (f_norm s) (f_read s) (f_testread s).
  Definition set_Xraw v s := mkD (d_n s) (d_nt s) (d_nv s) (d_dim s) (d_raw s) (d_work s) (d_val s) (d_X s) v (d_grad s) (d_gradraw s) (d_y s) (d_dd s) (d_dirs s) (d_Xrawtest s) (d_Xtest s) (d_ytest s) (d_Xrawval s) (d_Xval s) (d_yval s) (d_box s) (d_ratio s) (d_idx s) (f_testf s) (f_grad s) (f_dd s) (f_norm s) (f_read s) (f_testread s).
  Definition set_grad v s := mkD (d_n s) (d_nt s) (d_nv s) (d_dim s) (d_raw s) (d_work s) (d_val s) (d_X s) (d_Xraw s) v (d_gradraw s) (d_y s) (d_dd s) (d_dirs s) (d_Xrawtest s) (d_Xtest s) (d_ytest s) (d_Xrawval s) (d_Xval s) (d_yval s) (d_box s) (d_ratio s) (d_idx s) (f_testf s) (f_grad s) (f_dd s) (f_norm s) (f_read s) (f_testread s).
  Definition set_gradraw v s := mkD (d_n s) (d_nt s) (d_nv s) (d_dim s) (d_raw s) (d_work s) (d_val s) (d_X s) (d_Xraw s) (d_grad s) v (d_y s) (d_dd s) (d_dirs s) (d_Xrawtest s) (d_Xtest s) (d_ytest s) (d_Xrawval s) (d_Xval s) (d_yval s) (d_box s) (d_ratio s) (d_idx s) (f_testf s) (f_grad s) (f_dd s) (f_norm s) (f_read s) (f_testread s).
  Definition set_y v s := mkD (d_n s) (d_nt s) (d_nv s) (d_dim s) (d_raw s) (d_work s) (d_val s) (d_X s) (d_Xraw s) (d_grad s) (d_gradraw s) v (d_dd s) (d_dirs s) (d_Xrawtest s) (d_Xtest s) (d_ytest s) (d_Xrawval s) (d_Xval s) (d_yval s) (d_box s) (d_ratio s) (d_idx s) (f_testf s) (f_grad s) (f_dd s) (f_norm s) (f_read s) (f_testread s).
  Definition set_dd v s := mkD (d_n s) (d_nt s) (d_nv s) (d_dim s) (d_raw s) (d_work s) (d_val s) (d_X s) (d_Xraw s) (d_grad s) (d_gradraw s) (d_y s) v (d_dirs s) (d_Xrawtest s) (d_Xtest s) (d_ytest s) (d_Xrawval s) (d_Xval s) (d_yval s) (d_box s) (d_ratio s) (d_idx s) (f_testf s) (f_grad s) (f_dd s) (f_norm s) (f_read s) (f_testread s).
  Definition set_dirs v s := mkD (d_n s) (d_nt s) (d_nv s) (d_dim s) (d_raw s) (d_work s) (d_val s) (d_X s) (d_Xraw s) (d_grad s) (d_gradraw s) (d_y s) (d_dd s) v (d_Xrawtest s) (d_Xtest s) (d_ytest s) (d_Xrawval s) (d_Xval s) (d_yval s) (d_box s) (d_ratio s) (d_idx s) (f_testf s) (f_grad s) (f_dd s) (f_norm s) (f_read s) (f_testread s).
  Definition set_test xr x y tf tr s := mkD (d_n s) (d_nt s) (d_nv s) (d_dim s) (d_raw s) (d_work s) (d_val s) (d_X s) (d_Xraw s) (d_grad s) (d_gradraw s) (d_y s) (d_dd s) (d_dirs s) xr x y (d_Xrawval s) (d_Xval s) (d_yval s) (d_box s) (d_ratio s) (d_idx s) tf (f_grad s) (f_dd s) (f_norm s) (f_read s) tr.
  Definition set_Xval xr x s := mkD (d_n s) (d_nt s) (d_nv s) (d_dim s) (d_raw s) (d_work s) (d_val s) (d_X s) (d_Xraw s) (d_grad s) (d_gradraw s) (d_y s) (d_dd s) (d_dirs s) (d_Xrawtest s) (d_Xtest s) (d_ytest s) xr x (d_yval s) (d_box s) (d_ratio s) (d_idx s) (f_testf s) (f_grad s) (f_dd s) (f_norm s) (f_read s) (f_testread s).
  Definition set_yval v s := mkD (d_n s) (d_nt s) (d_nv s) (d_dim s) (d_raw s) (d_work s) (d_val s) (d_X s) (d_Xraw s) (d_grad s) (d_gradraw s) (d_y s) (d_dd s) (d_dirs s) (d_Xrawtest s) (d_Xtest s) (d_ytest s) (d_Xrawval s) (d_Xval s) v (d_box s) (d_ratio s) (d_idx s) (f_testf s) (f_grad s) (f_dd s) (f_norm s) (f_read s) (f_testread s).
  Definition set_box v s := mkD (d_n s) (d_nt s) (d_nv s) (d_dim s) (d_raw s) (d_work s) (d_val s) (d_X s) (d_Xraw s) (d_grad s) (d_gradraw s) (d_y s) (d_dd s) (d_dirs s) (d_Xrawtest s) (d_Xtest s) (d_ytest s) (d_Xrawval s) (d_Xval s) (d_yval s) v (d_ratio s) (d_idx s) (f_testf s) (f_grad s) (f_dd s) (f_norm s) (f_read s) (f_testread s).
  Definition set_ratio v s := mkD (d_n s) (d_nt s) (d_nv s) (d_dim s) (d_raw s) (d_work s) (d_val s) (d_X s) (d_Xraw s) (d_grad s) (d_gradraw s) (d_y s) (d_dd s) (d_dirs s) (d_Xrawtest s) (d_Xtest s) (d_ytest s) (d_Xrawval s) (d_Xval s) (d_yval s) (d_box s) v (d_idx s) (f_testf s) (f_grad s) (f_dd s) (f_norm s) (f_read s) (f_testread s).
  Definition set_idx v s := mkD (d_n s) (d_nt s) (d_nv s) (d_dim s) (d_raw s) (d_work s) (d_val s) (d_X s) (d_Xraw s) (d_grad s) (d_gradraw s) (d_y s) (d_dd s) (d_dirs s) (d_Xrawtest s) (d_Xtest s) (d_ytest s) (d_Xrawval s) (d_Xval s) (d_yval s) (d_box s) (d_ratio s) v (f_testf s) (f_grad s) (f_dd s) (f_norm s) (f_read s) (f_testread s).
  Definition set_flags g d s := mkD (d_n s) (d_nt s) (d_nv s) (d_dim s) (d_raw s) (d_work s) (d_val s) (d_X s) (d_Xraw s) (d_grad s) (d_gradraw s) (d_y s) (d_dd s) (d_dirs s) (d_Xrawtest s) (d_Xtest s) (d_ytest s) (d_Xrawval s) (d_Xval s) (d_yval s) (d_box s) (d_ratio s) (d_idx s) (f_testf s) g d (f_norm s) (f_read s) (f_testread s).
  Definition set_norm v s := mkD (d_n s) (d_nt s) (d_nv s) (d_dim s) (d_raw s) (d_work s) (d_val s) (d_X s) (d_Xraw s) (d_grad s) (d_gradraw s) (d_y s) (d_dd s) (d_dirs s) (d_Xrawtest s) (d_Xtest s) (d_ytest s) (d_Xrawval s) (d_Xval s) (d_yval s) (d_box s) (d_ratio s) (d_idx s) (f_testf s) (f_grad s) (f_dd s) v (f_read s) (f_testread s).
  Definition set_read v s := mkD (d_n s) (d_nt s) (d_nv s) (d_dim s) (d_raw s) (d_work s) (d_val s) (d_X s) (d_Xraw s) (d_grad s) (d_gradraw s) (d_y s) (d_dd s) (d_dirs s) (d_Xrawtest s) (d_Xtest s) (d_ytest s) (d_Xrawval s) (d_Xval s) (d_yval s) (d_box s) (d_ratio s) (d_idx s) (f_testf s) (f_grad s) (f_dd s) (f_norm s) v (f_testread s).

  (** reset: surrogate_model_data.cpp:14-32 (raw data, validation data and outputs are not reset) *)
  Definition data_reset : SM sdata unit :=
    smod (fun s => mkD 0 0 (d_nv s) 0 (d_raw s) (d_work s) (d_val s) mat_empty mat_empty mat_empty (d_gradraw s) (d_y s) [] mat_empty
      mat_empty mat_empty (d_ytest s) (d_Xrawval s) (d_Xval s) (d_yval s) bnds_new (d_ratio s) (d_idx s) (f_testf s) false (f_dd s) false false (f_testread s)).
  (** setDimension: 50-52; setGradientsOn/Off, setDirectionalDerivativesOn/Off: 64-78; setBoxConstraints: 618-624; setValidationRatio: 573-579 *)
  Definition data_setDimension (v : nat) : SM sdata unit := smod (set_dim v).
  Definition data_setGradients (b : bool) : SM sdata unit := smod (fun s => set_flags b (f_dd s) s).
  Definition data_setDirectional (b : bool) : SM sdata unit := smod (fun s => set_flags (f_grad s) b s).
  Definition data_setBox (b : bnds T) : SM sdata unit := run sassert (b_set b); smod (set_box b).
  Definition data_setRatio (v : T) : SM sdata unit := run sthrow_if ((v <! n0) || (v >! n1)) InvalidArgument; smod (set_ratio v).
  (** setOutputVector: 582-588 *)
  Definition data_setOutput (v : vec T) : SM sdata unit := get n <-- sget d_n; run sassert (Nat.eqb (length v) n); smod (set_y v).

  (** generateRandomIndicesForValidationData: 81-109; [perm] is the shuffled index vector *)
  Definition val_count (N : nat) (ratio : T) : option nat :=
    match nfloor (ratio *! nofnat N) with
    | Some k => Some (Z.to_nat (if (k >? Z.of_nat N)%Z then Z.of_nat N else if (k <? 0)%Z then 0%Z else k))
    | None => None
    end.
  Definition val_indices (N : nat) (ratio : T) (perm : list nat) : Res (list Z) :=
    match val_count N ratio with Some k => Ok (map Z.of_nat (firstn k perm)) | None => UB end.

  (** checkDimensionAndNumberOfSamples: 273-280 *)
  Definition data_check : SM sdata unit :=
    get d <-- sget d_dim; get n <-- sget d_n;
    run sthrow_if (Nat.eqb d 0) RuntimeError; sthrow_if (Nat.eqb n 0) RuntimeError.
  (** assignDimensionFromData: 243-271.  With directional derivatives and a single column the unsigned subtraction
      wraps around; this case is modelled as the InvalidArgument that the next call to submat throws. *)
  Definition data_assignDimension : SM sdata unit :=
    get s <-- sget (fun s => s);
    run sthrow_if (mat_isEmpty (d_work s)) RuntimeError;
    run sthrow_if (negb (f_grad s) && f_dd s && Nat.ltb (ncols (d_work s)) 2) (if Nat.ltb 0 (d_dim s) then RuntimeError else InvalidArgument);
    let dd := if f_grad s then (ncols (d_work s) - 1) / 2
              else if f_dd s then (ncols (d_work s) - 2) / 2 else ncols (d_work s) - 1 in
    run sthrow_if (Nat.ltb 0 (d_dim s) && negb (Nat.eqb dd (d_dim s))) RuntimeError;
    smod (set_dim dd).
  (** assignSampleInputMatrix: 282-316 *)
  Definition data_assignX : SM sdata unit :=
    run data_check;
    get s <-- sget (fun s => s);
    get X <-- slift (mat_submat (d_work s) 0 (d_n s - 1) 0 (d_dim s - 1));
    run smod (set_X X);
    run swhen (Nat.ltb 0 (d_nv s))
      (get Xv <-- slift (mat_submat (d_val s) 0 (d_nv s - 1) 0 (d_dim s - 1));
       run sthrow_if (negb (Nat.eqb (nrows Xv) (d_nv s))) RuntimeError;
       run sthrow_if (negb (Nat.eqb (ncols Xv) (d_dim s))) RuntimeError;
       smod (set_Xval Xv Xv));
    run smod (set_Xraw X);
    run sthrow_if (negb (Nat.eqb (nrows X) (d_n s))) RuntimeError;
    sthrow_if (negb (Nat.eqb (ncols X) (d_dim s))) RuntimeError.
  (** assignSampleOutputVector: 318-329 *)
  Definition data_assignY : SM sdata unit :=
    run data_check;
    get s <-- sget (fun s => s);
    get y <-- slift (mat_getCol (d_work s) (Z.of_nat (d_dim s)));
    run smod (set_y y);
    swhen (Nat.ltb 0 (d_nv s)) (get yv <-- slift (mat_getCol (d_val s) (Z.of_nat (d_dim s))); smod (set_yval yv)).
  (** assignGradientMatrix: 331-348 *)
  Definition data_assignGrad : SM sdata unit :=
    run data_check;
    get s <-- sget (fun s => s);
    swhen (f_grad s)
      (run sthrow_if (Nat.leb (ncols (d_work s)) (d_dim s + 1)) RuntimeError;
       get g <-- slift (mat_submat (d_work s) 0 (d_n s - 1) (d_dim s + 1) (2 * d_dim s));
       smod (set_grad g)).
  (** assignDirectionalDerivativesVector: 351-358; assignDifferentiationDirectionMatrix: 361-368 *)
  Definition data_assignDD : SM sdata unit :=
    get s <-- sget (fun s => s);
    run sassert (Nat.ltb 0 (d_dim s));
    swhen (f_dd s) (get v <-- slift (mat_getCol (d_work s) (Z.of_nat (d_dim s + 1))); smod (set_dd v)).
  Definition data_assignDirs : SM sdata unit :=
    run data_check;
    get s <-- sget (fun s => s);
    swhen (f_dd s) (get m <-- slift (mat_submat (d_work s) 0 (d_n s - 1) (d_dim s + 2) (2 * d_dim s + 1)); smod (set_dirs m)).
  Definition data_assignAll : SM sdata unit :=
    run data_assignX; run data_assignY; run data_assignGrad; run data_assignDD; data_assignDirs.
  (** rawDataValidation.addRow(sample,-1): a throwing addRow keeps the state it left *)
  Definition data_addVal (r : vec T) : SM sdata unit :=
    fun s => let '(m, res) := mat_addRow (d_val s) r (-1) in (set_val m s, res).
  Definition data_deleteWork (ix : list Z) : SM sdata unit :=
    fun s => let '(m, res) := mat_deleteRows (d_work s) ix in (set_work m s, res).
  (** readData: 114-170; [file] the parsed CSV content *)
  Definition data_read (file : mat T) (perm : list nat) : SM sdata unit :=
    get s <-- sget (fun s => s);
    run sassert (negb (f_dd s && f_grad s));
    run smod (set_raw file); run smod (set_work file);
    run swhen (d_ratio s >! n0)
      (run smod (set_n (nrows file));
       get ix <-- slift (val_indices (nrows file) (d_ratio s) perm);
       run smod (set_idx ix);
       run sfor ix (fun i => get r <-- slift (mat_getRow file i); data_addVal r);
       run smod (set_nv (length ix));
       data_deleteWork ix);
    run smod (fun s => set_n (nrows (d_work s)) s);
    run data_assignDimension;
    run data_assignAll;
    smod (set_read true).

  (** normalizeSampleInputMatrix: 387-420; [ztol] is the default tolerance 1e-9 of has_zeros (LinearAlgebra/INCLUDE/vector.hpp:132) *)
  Definition data_normX (ztol : T) : SM sdata unit :=
    get s <-- sget (fun s => s);
    run sthrow_if (negb (Nat.eqb (nrows (d_X s)) (d_n s))) RuntimeError;
    run sthrow_if (negb (Nat.eqb (ncols (d_X s)) (d_dim s))) RuntimeError;
    run sthrow_if (negb (Nat.eqb (b_dim (d_box s)) (d_dim s))) RuntimeError;
    run sthrow_if (negb (b_set (d_box s))) RuntimeError;
    get dx <-- slift (vec_sub (b_up (d_box s)) (b_lo (d_box s)));
    run sthrow_if (vec_has_zeros dx ztol) RuntimeError;
    get X <-- slift (mat_normalize (d_X s) (b_lo (d_box s)) (b_up (d_box s)));
    run smod (set_X X);
    run swhen (Nat.ltb 0 (d_nv s))
      (get Xv <-- slift (mat_normalize (d_Xval s) (b_lo (d_box s)) (b_up (d_box s))); smod (set_Xval (d_Xrawval s) Xv));
    smod (set_norm true).
  (** normalizeDerivativesMatrix: 440-456 (the factor of the first parameter is used for all) *)
  Definition data_normDD : SM sdata unit :=
    get s <-- sget (fun s => s);
    swhen (f_dd s)
      (run sassert (f_read s); run sassert (b_set (d_box s));
       get u <-- slift (vec_at (b_up (d_box s)) 0); get l <-- slift (vec_at (b_lo (d_box s)) 0);
       let f := (u -! l) *! nofnat (d_dim s) in
       run sassert (f >! n0);
       smod (set_dd (vec_scale (d_dd s) f))).
  (** normalizeGradientMatrix: 459-481 *)
  Definition data_normGrad : SM sdata unit :=
    get s <-- sget (fun s => s);
    run sassert (f_read s); run sassert (b_set (d_box s)); run sassert (Nat.ltb 0 (d_dim s)); run sassert (Nat.eqb (ncols (d_grad s)) (d_dim s));
    run smod (set_gradraw (d_grad s));
    sloop (d_dim s) (fun i =>
      get s1 <-- sget (fun s => s);
      get u <-- slift (vec_at (b_up (d_box s1)) i); get l <-- slift (vec_at (b_lo (d_box s1)) i);
      let f := (u -! l) *! nofnat (d_dim s1) in
      run sassert (f >! n0);
      get c <-- slift (mat_getCol (d_grad s1) (Z.of_nat i));
      get g <-- slift (mat_setCol (d_grad s1) (vec_scale c f) i);
      smod (set_grad g)).
  (** normalize: 370-384 *)
  Definition data_normalize (ztol : T) : SM sdata unit :=
    get s <-- sget (fun s => s);
    run sassert (f_read s); run sassert (b_set (d_box s));
    run data_normX ztol; run data_normDD;
    run swhen (f_grad s) data_normGrad;
    smod (set_norm true).
  (** revertBackToFullData: 173-199 *)
  Definition data_revert (ztol : T) : SM sdata unit :=
    run smod (fun s => set_yval [] (set_Xval mat_empty mat_empty (set_n (nrows (d_raw s)) (set_work (d_raw s) (set_nv 0 s)))));
    run data_assignAll; data_normalize ztol.
  (** readDataTest: 202-239 *)
  Definition data_readTest (file : mat T) : SM sdata unit :=
    get s <-- sget (fun s => s);
    run sthrow_if (Nat.eqb (d_dim s) 0) RuntimeError;
    run smod (fun s => set_nt (nrows file) (set_test file (d_Xtest s) (d_ytest s) (f_testf s) (f_testread s) s));
    if Nat.eqb (ncols file) (d_dim s + 1) then
      get y <-- slift (mat_getCol file (Z.of_nat (d_dim s)));
      run smod (fun s => set_test file (d_Xtest s) y (f_testf s) (f_testread s) s);
      get x <-- slift (mat_submat file 0 (nrows file - 1) 0 (d_dim s - 1));
      smod (set_test file x y true true)
    else if Nat.eqb (ncols file) (d_dim s) then smod (fun s => set_test file file (d_ytest s) (f_testf s) true s)
    else sthrow RuntimeError.
  (** normalizeSampleInputMatrixTest: 423-438 *)
  Definition data_normTest (ztol : T) : SM sdata unit :=
    get s <-- sget (fun s => s);
    run sthrow_if (negb (b_set (d_box s))) RuntimeError;
    get dx <-- slift (vec_sub (b_up (d_box s)) (b_lo (d_box s)));
    run sthrow_if (vec_has_zeros dx ztol) RuntimeError;
    get x <-- slift (mat_normalize (d_Xtest s) (b_lo (d_box s)) (b_up (d_box s)));
    smod (set_test (d_Xrawtest s) x (d_ytest s) (f_testf s) (f_testread s)).
End DataModel.
Arguments sdata : clear implicits.
