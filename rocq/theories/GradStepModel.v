(** Model of the gradient step of the optimiser (src/Optimizers/optimization.cpp:336-388, 457-466, 487-664, 1180-1211).  From outside come
    the gradient of the best design ([rg], the outcome of setGradientGlobalOptimumFromTrainingData, modelled in ModeModel), the value of
    the acquisition function that uses derivatives ([ei], it may throw), the probabilities that the constraints hold ([probs]), the
    random draws, and the design of the fallback ([ego], findTheMostPromisingDesignEGO, modelled in OptModel).
    Only decideIfAGradientStepShouldBeTakenForTheFirstIteration (optimization.cpp:1234-1256) switches gradient steps on; it is private
    and nothing in /repo calls it, so a run never gets here with g_will = true: see C109_never_in_a_run.
    Simplification: the loops run with one thread (with several the threads write the same designToBeTried, a data race). *)
From Coq Require Import List Arith ZArith Bool.
From Verif Require Import Base StM Num VecModel OptModel.
Import ListNotations.

Section GradStep.
  Context {T : Type} {NT : Num T}.
  (** members: optimization.hpp:149 WillGradientStepBePerformed, 169 iterationNumberGradientStep, 171 trustRegionFactorGradientStep,
      numberOfLocalSearchSteps *)
  Record gstep := mkGS { g_will : bool; g_iter : nat; g_factor : T; g_steps : nat }.
  (** a new optimiser: optimization.hpp:149, 169, 171 *)
  Definition gstep_new : gstep := mkGS false 0 n1 0.
  (** maximumIterationGradientStep: optimization.cpp:56 *)
  Definition max_grad_steps : nat := 5.
  (** scaleGradientVector: 457-466 *)
  Definition scaleGradient (d : nat) (lb ub g : vec T) : Res (vec T) :=
    loopR d (fun i g =>
      u <- vec_at ub i ;; l <- vec_at lb i ;;
      let f := (u -! l) *! nofnat d in
      if f <=! n0 then Throw RuntimeError else x <- vec_at g i ;; vec_set g i (x *! f)) g.
  (** validateFactorGradientStepWindow, changeSettingsForAGradientBasedStep: 336-343, 371-388 *)
  Definition gradWindow (d : nat) (win : T) (dv : vec T) (factor : T) : Res (vec T * vec T) :=
    if ((win <=! n0) || (win >! n1))%bool then Throw InvalidArgument
    else if Nat.eqb d 0 then Throw RuntimeError
    else if negb (Nat.eqb (length dv) d) then Throw RuntimeError
    else let delta := (win /! nofnat d) *! factor in Ok (trim d (vec_subs dv delta), trim d (vec_adds dv delta)).
  (** the loops: 527-548, 581-609; [acq] the value compared with the best one *)
  Definition gradLoop (n : nat) (gen : nat -> Res (vec T)) (x0 g : vec T) (acq : vec T -> Res T) (start : cand T) : Res (cand T) :=
    loopR n (fun i best =>
      v <- gen i ;; s <- vec_sub v x0 ;; q <- vec_dot s g ;;
      if q <! n0 then a <- acq v ;; Ok (if a >! snd best then (v, a) else best) else Ok best) start.
  (** the value with constraints: 589-599 *)
  Definition acqConstrained (ei : vec T -> Res T) (probs : vec T -> Res (vec T)) (nc : nat) (v : vec T) : Res T :=
    a <- ei v ;; p <- probs v ;; loopR nc (fun j a => q <- vec_at p j ;; Ok (a *! q)) a.
  (** findPromisingDesignUnconstrainedGradientStep, findPromisingDesignConstrainedGradientStep: 500-615.  The best design starts as
      DesignForBayesianOptimization(dimension), whose vector is empty, or (dimension, numberOfConstraints), whose vector is zero
      (design_bo.cpp:24-41) *)
  Definition gradSearch (d nc n : nat) (lb ub x0 g wlo wup : vec T) (ei : vec T -> Res T) (probs : vec T -> Res (vec T)) (u : nat -> nat -> T) : Res (cand T) :=
    if negb (Nat.eqb (length g) d) then Throw RuntimeError else
    g' <- scaleGradient d lb ub g ;;
    if negb (Nat.eqb (length wlo) d) then Throw RuntimeError else
    if negb (Nat.eqb (length wup) d) then Throw RuntimeError else
    if Nat.eqb nc 0 then gradLoop n (fun i => randomDesign d wlo wup (u i)) x0 g' ei ([], nopp (nlit 10 14))
    else gradLoop n (fun i => randomDesign d wlo wup (u i)) x0 g' (acqConstrained ei probs nc) (repeat n0 d, nopp (nlit 10 14)).
  (** decideIfNextStepWouldBeAGradientStep: 487-498 *)
  Definition decideNext (s : gstep) : gstep :=
    if Nat.eqb (g_iter s) max_grad_steps then mkGS false 0 n1 (g_steps s) else s.
  (** checkIfGlobalOptimaHasGradientVector: globalOptimalDesign.cpp:250-263; is_zero with tolerance 10E-9 *)
  Definition hasGradient (g : vec T) : bool := match g with [] => false | _ => negb (vec_is_zero g (nlit 10 (-9))) end.
  (** findTheMostPromisingDesignGradientStep: 617-664; the result is the vector of theMostPromisingDesigns.at(0) *)
  Definition gradStep (d nc n : nat) (win : T) (lb ub x0 : vec T) (rg : Res (vec T)) (ei : vec T -> Res T) (probs : vec T -> Res (vec T)) (u : nat -> nat -> T)
    (ego : Res (vec T)) : SM gstep (vec T) :=
    get g <-- slift rg;
    run swhen (negb (hasGradient g)) (smod (fun s => mkGS false (g_iter s) (g_factor s) (g_steps s)));
    get s <-- sget (fun s => s);
    if g_will s then
      get w <-- slift (gradWindow d win x0 (g_factor s));
      get c <-- slift (gradSearch d nc n lb ub x0 g (fst w) (snd w) ei probs u);
      run smod (fun s => decideNext (mkGS (g_will s) (S (g_iter s)) (g_factor s *! nlit 5 (-1)) (g_steps s)));
      run smod (fun s => mkGS (g_will s) (g_iter s) (g_factor s) (S (g_steps s)));
      sret (fst c)
    else slift ego.
End GradStep.
Arguments gstep : clear implicits.
