(** Correlation function objects: src/CorrelationFunctions/*.cpp and INCLUDE/*.hpp. *)
From Coq Require Import List Arith Bool ZArith.
From Verif Require Import Base Num VecModel MatModel.
Import ListNotations.

Section CorrModel.
  Context {T : Type} `{NT : Num T} `{NF : NumFun T}.

  (** protected members of CorrelationFunctionBase: correlation_functions.hpp:13-24 (correlationVec is unused) *)
  Record cbase := mkCB { cb_X : mat T; cb_N : nat; cb_dim : nat; cb_R : mat T; cb_eps : T; cb_set : bool }.
  Definition cbase_new : cbase := mkCB mat_empty 0 0 mat_empty (nlit 1 (-12)) false.
  (** setInputSampleMatrix: correlation_functions.cpp:16-29 *)
  Definition cb_setInput (s : cbase) (X : mat T) : cbase * Res unit :=
    if mat_isEmpty X then (s, Throw InvalidArgument)
    else (mkCB X (nrows X) (ncols X) (mat_zero (nrows X) (nrows X)) (cb_eps s) true, Ok tt).
  (** setDimension: correlation_functions.cpp:31-36 *)
  Definition cb_setDimension (s : cbase) (d : nat) : cbase * Res unit :=
    if Nat.eqb d 0 then (s, Throw InvalidArgument)
    else (mkCB (cb_X s) (cb_N s) d (cb_R s) (cb_eps s) (cb_set s), Ok tt).
  (** setEpsilon: correlation_functions.cpp:38-45 *)
  Definition cb_setEpsilon (s : cbase) (v : T) : cbase * Res unit :=
    if ((v <! n0) || (v >=! n1))%bool then (s, Throw OutOfRange)
    else (mkCB (cb_X s) (cb_N s) (cb_dim s) (cb_R s) v (cb_set s), Ok tt).

  (** *** ExponentialCorrelationFunction (exponential_correlation_function.cpp) *)
  Record ecf := mkE { ec_b : cbase; ec_theta : vec T; ec_gamma : vec T }.
  Definition ecf_new : ecf := mkE cbase_new [] [].
  (** setTheta, setGamma: 14-31 *)
  Definition ecf_setTheta (s : ecf) (v : vec T) : ecf * Res unit :=
    if (Nat.eqb (length v) 0 || negb (Nat.eqb (length v) (cb_dim (ec_b s))))%bool then (s, Throw InvalidArgument)
    else (mkE (ec_b s) v (ec_gamma s), Ok tt).
  Definition ecf_setGamma (s : ecf) (v : vec T) : ecf * Res unit :=
    if (Nat.eqb (length v) 0 || negb (Nat.eqb (length v) (cb_dim (ec_b s))))%bool then (s, Throw InvalidArgument)
    else (mkE (ec_b s) (ec_theta s) v, Ok tt).
  (** setHyperParameters: 33-43 *)
  Definition ecf_setHyper (s : ecf) (v : vec T) : ecf * Res unit :=
    let d := cb_dim (ec_b s) in
    if negb (Nat.eqb (length v) (2 * d)) then (s, Throw InvalidArgument)
    else match vec_head v d, vec_tail v d with
         | Ok h, Ok t => match ecf_setTheta s h with
                         | (s1, Ok _) => ecf_setGamma s1 t
                         | r => r
                         end
         | Throw e, _ | _, Throw e => (s, Throw e)
         | UB, _ | _, UB => (s, UB)
         end.
  (** getHyperParameters: 45-65; thetaParameters(i) throws out_of_range past the end *)
  Definition ecf_getHyper (s : ecf) : Res (vec T) :=
    let d := cb_dim (ec_b s) in
    if Nat.eqb d 0 then Throw LogicError
    else if (Nat.ltb (length (ec_theta s)) d || Nat.ltb (length (ec_gamma s)) d)%bool then Throw OutOfRange
    else Ok (vbuild (2 * d) (fun i => if Nat.ltb i d then vget (ec_theta s) i else vget (ec_gamma s) (i - d))).
  (** checkIfParametersAreSetProperly: 69-87 *)
  Definition ecf_check (s : ecf) : Res bool :=
    let d := cb_dim (ec_b s) in
    if negb (Nat.eqb (length (ec_gamma s)) d) then Ok false
    else if negb (Nat.eqb (length (ec_theta s)) d) then Ok false
    else gmax <- vec_findMax (ec_gamma s) ;; gmin <- vec_findMin (ec_gamma s) ;;
         if ((gmax >! nofZ 2) || (gmin <! n0))%bool then Ok false
         else tmin <- vec_findMin (ec_theta s) ;; Ok (negb (tmin <! n0)).
  (** initialize: 111-122 *)
  Definition ecf_initialize (s : ecf) : ecf * Res unit :=
    let d := cb_dim (ec_b s) in
    if Nat.eqb d 0 then (s, Throw LogicError)
    else match ecf_setTheta s (repeat n1 d) with
         | (s1, Ok _) => ecf_setGamma s1 (repeat (nlit 18 (-1)) d)
         | r => r
         end.
  (** computeCorrelation: 90-97 (raw pointers: parameters or xj shorter than xi are read past the end) *)
  Definition ecf_corr (s : ecf) (xi xj : vec T) : Res T :=
    let n := length xi in
    if (Nat.ltb (length xj) n || Nat.ltb (length (ec_theta s)) n || Nat.ltb (length (ec_gamma s)) n)%bool then UB
    else Ok (exp_corr xi xj (ec_theta s) (ec_gamma s) n).
  (** computeCorrelationMatrix: 132-143; calls computeCorrelationMatrixExponentialNaive directly (no size checks) *)
  Definition ecf_computeMatrix (s : ecf) : ecf * Res unit :=
    let b := ec_b s in
    if negb (cb_set b) then (s, Throw InvalidArgument)
    else if (Nat.ltb (length (ec_theta s)) (ncols (cb_X b)) || Nat.ltb (length (ec_gamma s)) (ncols (cb_X b)))%bool then (s, UB)
    else
      let C := corr_loops (cb_X b) (fun x y => exp_corr x y (ec_theta s) (ec_gamma s) (ncols (cb_X b))) in
      (mkE (mkCB (cb_X b) (cb_N b) (cb_dim b) (mat_addEps C (cb_eps b)) (cb_eps b) (cb_set b)) (ec_theta s) (ec_gamma s), Ok tt).
  (** computeCorrelationVector: 144-159 *)
  Definition ecf_corrVector (s : ecf) (x : vec T) : Res (vec T) :=
    let b := ec_b s in let n := ncols (cb_X b) in
    if negb (cb_set b) then Throw InvalidArgument
    else if (Nat.ltb (length x) n || Nat.ltb (length (ec_theta s)) n || Nat.ltb (length (ec_gamma s)) n)%bool then UB
    else Ok (vbuild (cb_N b) (fun i => exp_corr x (mrow (cb_X b) i) (ec_theta s) (ec_gamma s) n)).

  (** *** GaussianCorrelationFunction (gaussian_correlation_function.cpp) *)
  Record gcf := mkG { gc_b : cbase; gc_theta : vec T }.
  Definition gcf_new : gcf := mkG cbase_new [].
  (** initialize: 7-15 *)
  Definition gcf_initialize (s : gcf) : gcf * Res unit :=
    if Nat.eqb (cb_dim (gc_b s)) 0 then (s, Throw LogicError) else (mkG (gc_b s) (repeat n1 (cb_dim (gc_b s))), Ok tt).
  (** setHyperParameters: 17-26; getHyperParameters: 28-31 *)
  Definition gcf_setHyper (s : gcf) (v : vec T) : gcf * Res unit :=
    if Nat.eqb (length v) 0 then (s, Throw InvalidArgument)
    else if negb (Nat.eqb (length v) (cb_dim (gc_b s))) then (s, Throw InvalidArgument)
    else (mkG (gc_b s) v, Ok tt).
  Definition gcf_getHyper (s : gcf) : vec T := gc_theta s.
  (** computeCorrelationMatrix: 69-76 (computeCorrelationMatrixGaussian does check the size) *)
  Definition gcf_computeMatrix (s : gcf) : gcf * Res unit :=
    let b := gc_b s in
    if negb (cb_set b) then (s, Throw LogicError)
    else match corrmat_gauss (cb_X b) (gc_theta s) with
         | Ok C => (mkG (mkCB (cb_X b) (cb_N b) (cb_dim b) (mat_addEps C (cb_eps b)) (cb_eps b) (cb_set b)) (gc_theta s), Ok tt)
         | Throw e => (s, Throw e)
         | UB => (s, UB)
         end.
  (** computeCorrelationVector: 77-93 *)
  Definition gcf_corrVector (s : gcf) (x : vec T) : Res (vec T) :=
    let b := gc_b s in let n := ncols (cb_X b) in
    if negb (cb_set b) then Throw LogicError
    else if (Nat.ltb (length x) n || Nat.ltb (length (gc_theta s)) n)%bool then UB
    else Ok (vbuild (cb_N b) (fun i => gauss_corr x (mrow (cb_X b) i) (gc_theta s) n)).
End CorrModel.
Arguments cbase : clear implicits.
Arguments ecf : clear implicits.
Arguments gcf : clear implicits.
