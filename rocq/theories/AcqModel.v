(** Acquisition function: src/Design/design_bo.cpp, src/ObjectiveFunctions/objective_function.cpp:452-515, 992-1017,
    src/Optimizers/optimization.cpp:1402-1426, optimization_constraint_functions.cpp:33-118.
    Real numbers; std::erf is the error function of [ErfMath]; literals are the decimals written in the source. *)
From Coq Require Import Reals List Arith Bool.
From Verif Require Import Base StM Num RealNum VecModel ErfMath.
Import ListNotations.
Local Open Scope R_scope.

(** globals.hpp:6-10 *)
Definition INVSQRT2PI : R := Rlit 3989422804014327 (-16).
Definition SQRT2 : R := Rlit 14142135623730950488 (-19).
Definition EPSILON : R := Rlit 10 (-14).
Definition LARGE : R := Rlit 10 14.

(** pdf, cdf: design_bo.cpp:171-186, objective_function.cpp:992-1017 *)
Definition bo_pdf (x m s : R) : R := let a := (x - m) / s in INVSQRT2PI / s * exp (- Rlit 5 (-1) * a * a).
Definition bo_cdf (x0 mu s : R) : R := Rlit 5 (-1) * (1 + erf ((x0 - mu) / (s * SQRT2))).
(** normalCdf: optimization.cpp:1402-1416 *)
Definition normalCdf (value mu sigma : R) : Res R :=
  if sigma <! 0 then Throw InvalidArgument
  else if sigma <! Rlit 1 (-12) then Ok (if value <! mu then 0 else 1)
  else let z := (value - mu) / (sigma * SQRT2) in Ok (Rlit 5 (-1) * (1 + erf z)).
(** 1418-1426 *)
Definition probLess (value mu sigma : R) : Res R := normalCdf value mu sigma.
Definition probGreater (value mu sigma : R) : Res R := p <- normalCdf value mu sigma ;; Ok (1 - p).

(** DesignForBayesianOptimization: design.hpp:16-60 *)
Record bod := mkBO { bo_dv : vec R; bo_f : R; bo_acq : R; bo_sigma : R; bo_cval : vec R; bo_csig : vec R; bo_cprob : vec R }.
(** constructor (dimension, numberOfConstraints): design_bo.cpp:20-33 *)
Definition bod_new (d c : nat) : bod := mkBO (repeat 0 d) 0 0 0 (repeat 0 c) (repeat 0 c) [].
Definition bo_set_pred (f acq sigma : R) (b : bod) : bod := mkBO (bo_dv b) f acq sigma (bo_cval b) (bo_csig b) (bo_cprob b).

(** calculateExpectedImprovement: objective_function.cpp:452-496; [pred] is surrogate->interpolateWithVariance *)
Definition ei_value (fmin ftilde sigma : R) : R :=
  if Rabs sigma >! EPSILON then
    let improvement := fmin - ftilde in
    let Z := improvement / sigma in
    improvement * bo_cdf Z 0 1 + sigma * bo_pdf Z 0 1
  else 0.
Definition expectedImprovement (pred : vec R -> R * R) (fmin sigmaFactor : R) (b : bod) : bod :=
  let '(ftilde, ssqr) := pred (bo_dv b) in
  let sigma := sqrt ssqr in
  bo_set_pred ftilde (ei_value fmin ftilde (sigmaFactor * sigma)) sigma b.
(** calculateProbabilityOfImprovement: 499-514; the mean used is the objectiveFunctionValue field before it is updated *)
Definition probabilityOfImprovement (pred : vec R -> R * R) (fmin : R) (b : bod) : bod :=
  let '(ftilde, ssqr) := pred (bo_dv b) in
  let sigma := sqrt ssqr in
  bo_set_pred ftilde (bo_cdf fmin (bo_f b) sigma) sigma b.

(** one constraint as the optimiser sees it: ID, inequality type, target, and either a user defined function or a
    surrogate returning mean and variance at a normalised point *)
Inductive ineq := GT | LT.
Inductive ckind := UserFun (f : vec R -> R) | Surrogate (p : vec R -> R * R).
Record cfun := mkCF { cf_id : nat; cf_ty : ineq; cf_target : R; cf_kind : ckind }.
(** ConstraintFunction::interpolateWithVariance: constraint_functions.cpp:272-289, called from estimateConstraints *)
Definition cf_est (lb ub : vec R) (c : cfun) (x : vec R) : Res (R * R) :=
  match cf_kind c with
  | UserFun f => y <- vec_denormalize x lb ub ;; Ok (f y, EPSILON)
  | Surrogate p => Ok (fst (p x), sqrt (snd (p x)))
  end.
(** estimateConstraints: optimization_constraint_functions.cpp:33-55 *)
Definition estimateConstraints (lb ub : vec R) (cs : list cfun) (b : bod) : Res bod :=
  if negb (Nat.eqb (length (bo_cval b)) (length cs)) then Throw AssertFail
  else fold_left (fun r c => b' <- r ;;
         ms <- cf_est lb ub c (bo_dv b) ;;
         v <- vec_set (bo_cval b') (cf_id c) (fst ms) ;; w <- vec_set (bo_csig b') (cf_id c) (snd ms) ;;
         Ok (mkBO (bo_dv b') (bo_f b') (bo_acq b') (bo_sigma b') v w (bo_cprob b'))) cs (Ok b).
(** calculateFeasibilityProbabilities: 92-118 *)
Definition feasibilityProbabilities (cs : list cfun) (b : bod) : Res bod :=
  p <- fold_left (fun r c => p <- r ;;
         m <- vec_at (bo_cval b) (cf_id c) ;; s <- vec_at (bo_csig b) (cf_id c) ;;
         q <- match cf_ty c with GT => probGreater (cf_target c) m s | LT => probLess (cf_target c) m s end ;;
         vec_set p (cf_id c) q) cs (Ok (repeat 0 (length cs))) ;;
  Ok (mkBO (bo_dv b) (bo_f b) (bo_acq b) (bo_sigma b) (bo_cval b) (bo_csig b) p).
(** updateAcqusitionFunctionAccordingToConstraints: design_bo.cpp:203-213 *)
Definition updateAcquisition (b : bod) : bod :=
  mkBO (bo_dv b) (bo_f b) (fold_left (fun a p => a * p) (bo_cprob b) (bo_acq b)) (bo_sigma b) (bo_cval b) (bo_csig b) (bo_cprob b).
(** addPenaltyToAcqusitionFunctionForConstraints: optimization.cpp:240-252; numberOfConstraints is the length of the list *)
Definition addPenalty (lb ub : vec R) (cs : list cfun) (b : bod) : Res bod :=
  match cs with
  | [] => Ok b
  | _ => b <- estimateConstraints lb ub cs b ;; b <- feasibilityProbabilities cs b ;; Ok (updateAcquisition b)
  end.
