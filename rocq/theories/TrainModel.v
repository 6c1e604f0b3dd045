(** Model of the training of the Kriging model: src/SurrogateModels/kriging_training.cpp:687-865 and
    src/SurrogateModels/INCLUDE/kriging_training.hpp:36,150.
    Simplifications: log messages and the file written by saveHyperParameters are left out.  A thread whose optimiser throws
    ends the training with that exception (in a build with OpenMP the process is terminated). *)
From Coq Require Import List Arith ZArith Bool.
From Verif Require Import Base StM Num VecModel MatModel LinSolverModel BoundsModel CorrModel DataModel KrigModel EaModel.
Import ListNotations.

Section TrainModel.
  Context {T : Type} {NT : Num T} {NF : NumFun T}.
  (** the Kriging model with the settings of the training: surrogate_model.hpp:74,84,104, kriging_training.hpp:36;
      [t_warm] are the numbers in the hyper-parameter file when ifReadWarmStartFile is set *)
  Record trainer := mkTr { t_k : krig T; t_iters : nat; t_threads : nat; t_val : bool; t_hasval : bool; t_warm : option (vec T) }.
  Definition trainer_new : trainer := mkTr krig_new (100 * 100) 1 false false None.
  Definition tset_k k t := mkTr k (t_iters t) (t_threads t) (t_val t) (t_hasval t) (t_warm t).
  Definition tset_iters n t := mkTr (t_k t) n (t_threads t) (t_val t) (t_hasval t) (t_warm t).
  Definition tset_val b t := mkTr (t_k t) (t_iters t) (t_threads t) b (t_hasval t) (t_warm t).
  Definition in_model {A} (m : SM (krig T) A) : SM trainer A := szoom t_k tset_k m.
  (** setRatioValidationSamples: surrogate_model.cpp:76-79 *)
  Definition train_setRatio (v : T) : SM trainer unit :=
    run in_model (krig_setRatio v); smod (fun t => mkTr (t_k t) (t_iters t) (t_threads t) (t_val t) true (t_warm t)).

  (** KrigingHyperParameterOptimizer::calculateObjectiveFunctionInternal: kriging_training.cpp:846-858, as a state transformer of the
      optimiser's own copy of the model *)
  Definition train_evaluate (val : bool) (h : vec T) : SM (krig T) T :=
    if val then krig_validationErrorFor h
    else get l <-- krig_likelihood h; sret (nopp n1 *! l).
  (** the same as a function: every evaluation is made on the model as it was copied.  C67_evaluation_is_a_function states that the
      evaluations made before do not change the value *)
  Definition train_objective (val : bool) (k : krig T) (h : vec T) : Res T := snd (train_evaluate val h k).
  (** bounds and settings: 710-730, 745-758; initializeKrigingModelObject: 828-844 *)
  Definition train_lower (d : nat) : vec T := repeat n0 d ++ repeat n1 d.
  Definition train_upper (d : nat) : vec T := repeat (nofZ 20) d ++ repeat (nofZ 2) d.
  Definition train_generations (d iters : nat) : nat := if Nat.eqb (iters / (200 * d)) 0 then 1 else iters / (200 * d).
  Definition train_optimizer (t : trainer) (gens iters : nat) : Res (econf T) :=
    let k := t_k t in let d := k_dim k in
    if negb (k_read k) then Throw RuntimeError
    else if negb (k_norm k) then Throw RuntimeError
    else if negb (k_init k) then Throw RuntimeError
    else
      c <- ec_setBounds (mkEC (2 * d) [] [] false n0 (Nat.min (2 * d * 100) (50 * 100)) (200 * d) (180 * d) gens 0 (train_objective (t_val t) k))
             (train_lower d) (train_upper d) ;;
      c <- ec_setMutation c (nlit 1 (-1)) ;;
      ec_setMax c iters.
  (** one iteration of the loop over the threads: 744-763.  [Ok None]: the optimiser is still running *)
  Definition train_thread (c : econf T) (us : nat -> nat -> T) (ws : nat -> genDraw T) : Res (option (ind T)) :=
    oe <- ea_optimize c us ws (ea_new (c_dim c)) ;;
    match oe with None => Ok None | Some e => i <- ea_solution e ;; Ok (Some i) end.
  (** the critical section: 765-776 *)
  Definition train_better (g : vec T * T) (i : ind T) : vec T * T := if i_obj i <! snd g then (i_genes i, i_obj i) else g.
  (** the loop over the threads: 744-777; [order] is the order in which the threads enter the critical section *)
  Fixpoint train_threads (c : econf T) (us : nat -> nat -> nat -> T) (ws : nat -> nat -> genDraw T) (order : list nat) (g : vec T * T) : Res (option (vec T * T)) :=
    match order with
    | [] => Ok (Some g)
    | j :: order =>
        oi <- train_thread c (us j) (ws j) ;;
        match oi with None => Ok None | Some i => train_threads c us ws order (train_better g i) end
    end.
  (** 698-793: the new hyper-parameters, or those of the warm start file *)
  Definition train_search (us : nat -> nat -> nat -> T) (ws : nat -> nat -> genDraw T) (order : list nat) : SM trainer (option unit) :=
    get t <-- sget (fun t => t);
    match t_warm t with
    | Some buf => run in_model (krig_loadHyper buf); sret (Some tt)
    | None =>
        run sthrow_if (Nat.eqb (k_dim (t_k t)) 0) RuntimeError;
        run swhen (t_hasval t) (smod (tset_val true));
        let gens := train_generations (k_dim (t_k t)) (t_iters t) in
        if Nat.eqb (t_threads t) 0 then slift UB
        else
          run smod (tset_iters (t_iters t / t_threads t));
          get t <-- sget (fun t => t);
          get r <-- slift (c <- train_optimizer t gens (t_iters t) ;; train_threads c us ws order ([], ndblmax));
          match r with
          | None => sret None
          | Some (best, _) =>
              get _ <-- slift (vec_head best (k_dim (t_k t))); get _ <-- slift (vec_tail best (k_dim (t_k t)));
              run in_model (in_kcf (fun c => ecf_setHyper c best));
              sret (Some tt)
          end
    end.
  (** 795-814: back to the full data *)
  Definition train_revert : SM (krig T) unit :=
    run in_kdata (data_revert zero_tol);
    run smod (fun k => kset_n (d_n (k_data k)) k);
    get k <-- sget (fun k => k);
    run in_kcf (fun c => let '(b, r) := cb_setInput (ec_b c) (d_X (k_data k)) in (mkE b (ec_theta c) (ec_gamma c), r));
    run swhen (k_uselin k)
      (get yl <-- slift (lin_interpolateAll (k_lin k) (d_X (k_data k)));
       get r <-- slift (vec_sub (d_y (k_data k)) yl);
       in_kdata (data_setOutput r));
    krig_resize.
  (** train: 687-824.  [Ok None]: still running *)
  Definition krig_train (us : nat -> nat -> nat -> T) (ws : nat -> nat -> genDraw T) (order : list nat) : SM trainer (option unit) :=
    get t <-- sget (fun t => t);
    run sthrow_if (negb (k_init (t_k t))) RuntimeError;
    get r <-- train_search us ws order;
    match r with
    | None => sret None
    | Some _ =>
        get t <-- sget (fun t => t);
        run swhen (t_val t) (in_model train_revert);
        run in_model krig_update;
        sret (Some tt)
    end.
End TrainModel.
Arguments trainer : clear implicits.
