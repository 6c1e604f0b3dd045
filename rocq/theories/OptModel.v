(** The optimiser: src/Optimizers/optimization.cpp, efficient_global_optimization.cpp,
    optimization_constraint_functions.cpp, optimization_setter_getters.cpp.
    Logging, timing and files are not modelled.  What the surrogates, the simulations and the random generators deliver is
    given from outside: see the records [ocon] and [env].  The gradient-based step (optimization.cpp:371-658) is dead code
    (its switch is never set by a called function) and is left out.
    unsigned int counters are natural numbers: no wrap-around. *)
From Coq Require Import List Arith Bool ZArith.
From Verif Require Import Base StM Num VecModel MatModel BoundsModel DesignModel HistModel KrigModel.
Import ListNotations.

Section OptModel.
  Context {T : Type} `{NT : Num T}.

  (** std::max, std::min on double *)
  Definition std_max (a b : T) : T := if a <! b then b else a.
  Definition std_min (a b : T) : T := if b <! a then b else a.

  (** m(i,j) = x: operator() of matrix.cpp:145-157 *)
  Definition mat_put (m : mat T) (i j : nat) (x : T) : Res (mat T) :=
    if (Nat.leb (nrows m) i || Nat.leb (ncols m) j)%bool then Throw OutOfRange else Ok (mset m i j x).

  (** *** Constraints *)
  (** what the optimiser uses of a ConstraintFunction: ID, inequality type ('>' when oc_gt), target, whether it is user
      defined, the function evaluated for a design and the training data read for it *)
  Record ocon := mkOC { oc_id : nat; oc_gt : bool; oc_target : T; oc_user : bool; oc_fun : vec T -> Res T; oc_data : mat T }.
  (** ConstraintFunction::checkFeasibility: constraint_functions.cpp:136-150 *)
  Definition con_feasible (c : ocon) (v : T) : bool := if oc_gt c then v >! oc_target c else v <! oc_target c.
  (** checkConstraintFeasibility: optimization_constraint_functions.cpp:70-92; the i-th constraint is compared with the i-th value *)
  Definition cons_feasible (cs : list ocon) (v : vec T) : Res bool :=
    if Nat.ltb (length v) (length cs) then Throw InvalidArgument
    else Ok (forallb (fun i => con_feasible (nth i cs (mkOC 0 true n0 true (fun _ => Ok n0) mat_empty)) (vget v i)) (seq 0 (length cs))).
  (** evaluateConstraints: 121-130 and ConstraintFunction::evaluateDesign (d.constraintTrueValues(ID) = value) *)
  Fixpoint cons_eval (cs : list ocon) (x : vec T) (v : vec T) : Res (vec T) :=
    match cs with
    | [] => Ok v
    | c :: t => y <- oc_fun c x ;; w <- vec_set v (oc_id c) y ;; cons_eval t x w
    end.
  (** checkIfBoxConstraintsAreSatisfied: optimization.cpp:984-1010 (boxes set) *)
  Definition box_satisfied (d : nat) (lb ub x : vec T) : Res bool :=
    if (Nat.eqb (length x) 0 || negb (Nat.eqb (length x) d) || negb (Nat.eqb (length x) (length lb)))%bool then Throw InvalidArgument
    else Ok (forallb (fun i => negb ((vget x i <! vget lb i) || (vget x i >! vget ub i))) (seq 0 d)).

  (** *** Discrete parameters *)
  (** generateDiscreteValues: 1348-1358.  static_cast<unsigned int> of a negative or too large quotient is undefined. *)
  Definition discreteValues (lb ub dx : T) : Res (vec T) :=
    match nfloor ((ub -! lb) /! dx) with
    | None => UB
    | Some z => if ((z <? 0) || (2 ^ 32 - 1 <=? z))%Z then UB
                else Ok (vbuild (Z.to_nat z + 1) (fun k => lb +! nofnat k *! dx))
    end.
  (** findClosestDiscreteValue: 1332-1346 (the list is not empty) *)
  Definition closest (value : T) (vs : vec T) : nat :=
    snd (loop_from 1 (length vs) (fun i st => let d := nabs (value -! vget vs i) in if d <! fst st then (d, i) else st)
              (nabs (value -! vget vs 0), 0)).
  (** roundDiscreteParameters: 1360-1375; the list holds index and increment of each discrete parameter *)
  Fixpoint roundDiscrete (lb ub : vec T) (l : list (nat * T)) (x : vec T) : Res (vec T) :=
    match l with
    | [] => Ok x
    | (i, dx) :: t =>
        v <- vec_at x i ;; l0 <- vec_at lb i ;; u0 <- vec_at ub i ;;
        vs <- discreteValues l0 u0 dx ;;
        y <- vec_at vs (closest v vs) ;;
        x1 <- vec_set x i y ;; roundDiscrete lb ub t x1
    end.

  (** *** Trust region *)
  (** trimVectorSoThatItStaysWithinTheBounds: 443-455 *)
  Definition trim (d : nat) (x : vec T) : vec T :=
    vbuild d (fun i => let v := if vget x i <! n0 then n0 else vget x i in if v >! n1 /! nofnat d then n1 /! nofnat d else v).
  (** defineTrustRegion: 346-369 *)
  Definition trustRegion (d : nat) (dv : vec T) (len : T) : Res (vec T * vec T) :=
    if Nat.eqb d 0 then Throw RuntimeError
    else if negb (Nat.eqb (length dv) d) then Throw RuntimeError
    else let delta := (n1 /! nofnat d) *! len in Ok (trim d (vec_subs dv delta), trim d (vec_adds dv delta)).

  (** *** Maximisation of the acquisition function *)
  (** a candidate: design vector and acquisition value *)
  Definition cand := (vec T * T)%type.
  (** One search loop (707-740, 666-704) run by several threads.  Iteration i generates candidate i and compares it with the
      shared best design outside the critical section ([Check i]); if it is better the shared design is overwritten inside the
      critical section later ([Write i]).  A schedule is any list of such events; a Write of an iteration that did not pass
      its check does nothing.  The single-threaded loop is the schedule [seq_schedule].
      Simplification: the unsynchronised read of the shared value is taken as atomic (in C++ it is a data race). *)
  Inductive event := Check (i : nat) | Write (i : nat).
  Definition sched_step (cs : nat -> cand) (st : cand * list nat) (e : event) : cand * list nat :=
    let '(best, pend) := st in
    match e with
    | Check i => if snd (cs i) >! snd best then (best, i :: pend) else st
    | Write i => if existsb (Nat.eqb i) pend then (cs i, filter (fun j => negb (Nat.eqb i j)) pend) else st
    end.
  Definition search (cs : nat -> cand) (sch : list event) (start : cand) : cand := fst (fold_left (sched_step cs) sch (start, [])).
  Definition seq_schedule (n : nat) : list event := flat_map (fun i => [Check i; Write i]) (seq 0 n).
  (** generateRandomDesignVector(lb,ub): design_bo.cpp:87-90; [u] are the draws *)
  Definition randomDesign (d : nat) (lb ub : vec T) (u : nat -> T) : Res (vec T) :=
    let '(v, r) := vec_fillRandomV (repeat n0 d) lb ub u in rmap (fun _ => v) r.
  (** generateRandomDesignVectorAroundASample: 92-110, factor = 0.01 *)
  Definition randomAround (d : nat) (s lb ub : vec T) (u : nat -> T) : Res (vec T) :=
    if negb (Nat.eqb (length s) d) then Throw InvalidArgument
    else if (Nat.ltb (length lb) d || Nat.ltb (length ub) d)%bool then Throw OutOfRange
    else let dx := nlit 1 (-2) /! nofnat d in
         randomDesign d (vbuild d (fun i => std_max (vget s i -! dx) (vget lb i))) (vbuild d (fun i => std_min (vget s i +! dx) (vget ub i))) u.
  (** all candidates of a loop of n iterations, or the exception of the first iteration that fails *)
  Fixpoint cands (n : nat) (gen : nat -> Res (vec T)) (acq : vec T -> T) : Res (list cand) :=
    match n with
    | O => Ok []
    | S k => l <- cands k gen acq ;; v <- gen k ;; Ok (l ++ [(v, acq v)])
    end.
  Definition run_search (d n : nat) (gen : nat -> Res (vec T)) (acq : vec T -> T) (sch : list event) (start : cand) : Res cand :=
    l <- cands n gen acq ;; Ok (search (fun i => nth i l start) sch start).

  (** calculateGradientOfAcquisitionFunction: 792-828; [ei] is the acquisition value without the constraint factor *)
  Definition acqGradient (ei : vec T -> T) (d : nat) (dv : vec T) : vec T :=
    vbuild d (fun i => let e := std_max (vget dv i *! nlit 1 (-5)) (nlit 1 (-8)) in
                       let p := vget dv i +! e in
                       let m := p -! nofZ 2 *! e in
                       (ei (upd dv i p) -! ei (upd dv i m)) /! (nofZ 2 *! e)).
  (** gradientUpdateDesignVector: design_bo.cpp:63-78 *)
  Definition gradientUpdate (d : nat) (dv g lb ub : vec T) (step : T) : vec T :=
    vbuild d (fun k => let v := vget dv k +! vget g k *! step in
                       let v := if v <! vget lb k then vget lb k else v in if v >! vget ub k then vget ub k else v).
  (** the line search: while(1) at 861-894.  None: the bound on the number of steps is exceeded; Some None: no ascent *)
  Fixpoint lineSearch (fuel : nat) (acq : vec T -> T) (d : nat) (dv g lb ub : vec T) (f0 step : T) : option (option cand) :=
    match fuel with
    | O => None
    | S k => let v := gradientUpdate d dv g lb ub step in
             if acq v >! f0 then Some (Some (v, acq v))
             else let step := step *! nlit 5 (-1) in
                  if step <! nlit 10 (-12) then Some None else lineSearch k acq d dv g lb ub f0 step
    end.
  (** maximizeAcqusitionFunctionGradientBased: 834-910; n = iterGradientEILoop; the result is the design vector and the best value f0 *)
  Fixpoint ascent (n : nat) (fuel : nat) (ei acq : vec T -> T) (d : nat) (lb ub : vec T) (dv : vec T) (f0 : T) : option cand :=
    match n with
    | O => Some (dv, f0)
    | S k => match lineSearch fuel acq d dv (acqGradient ei d dv) lb ub f0 (nlit 1 (-3)) with
             | None => None
             | Some (Some (v, a)) => ascent k fuel ei acq d lb ub v a
             | Some None => Some (dv, f0)
             end
    end.
  Definition ls_fuel : nat := 28.
  Definition maximize (ei acq : vec T -> T) (d : nat) (lb ub : vec T) (dv : vec T) : option cand :=
    ascent 100 ls_fuel ei acq d lb ub dv (acq dv).

  (** *** Improvement *)
  (** calculateImprovementValue: 1378-1399; returns bestFeasibleInitialValue and the improvement *)
  Definition improvement (best : T) (feas : bool) (f : T) : T * T :=
    if feas then
      let '(best, imp) := if nabs (best +! ndblmax) <! nlit 1 (-5) then (f, ndbleps) else (best, n0) in
      (best, if f <! best then best -! f else imp)
    else (best, n0).

  (** *** The state *)
  (** settings, not changed by a run *)
  Record cfg := mkCfg { c_dim : nat; c_lb : vec T; c_ub : vec T; c_N : nat; c_how : nat; c_inner : nat; c_disc : list (nat * T);
    c_cons : list ocon; c_var : bool; c_objset : bool; c_boxset : bool; c_data : mat T }.
  (** trust region members: optimization.hpp:175-182; sigma members: 196-202 *)
  Record ost := mkO { s_iter : nat; s_evals : nat; s_hist : hist T; s_gopt : gopt T; s_cur : design T; s_best : T;
    s_trLen : T; s_trMax : T; s_trMin : T; s_succ : nat; s_fail : nat; s_delta : T; s_mult : T; s_sigma : T; s_coef : T; s_init : bool;
    s_pts : list (vec T); s_trained : list nat }.
  (** the last two fields are ghosts: the points evaluated and the iterations in which the models were trained *)
  (** what the outside world delivers in one iteration: the outcome of initialising and training the surrogates; the
      acquisition functions (without and with constraint factor) for given best value and sigma factor; the draws of the two
      searches and their schedules; the simulation; the outcome of adding the sample to the data; the random multiplier *)
  Record env := mkEnv { e_train : Res unit; e_ei : T -> T -> vec T -> T; e_acq : T -> T -> vec T -> T;
    e_u1 : nat -> nat -> T; e_u2 : nat -> nat -> T; e_s1 : list event; e_s2 : list event; e_eval : vec T -> Res T; e_add : Res unit;
    e_mult : option T }.

  Definition set_hist h s := mkO (s_iter s) (s_evals s) h (s_gopt s) (s_cur s) (s_best s) (s_trLen s) (s_trMax s) (s_trMin s) (s_succ s) (s_fail s) (s_delta s) (s_mult s) (s_sigma s) (s_coef s) (s_init s) (s_pts s) (s_trained s).
  Definition set_gopt g s := mkO (s_iter s) (s_evals s) (s_hist s) g (s_cur s) (s_best s) (s_trLen s) (s_trMax s) (s_trMin s) (s_succ s) (s_fail s) (s_delta s) (s_mult s) (s_sigma s) (s_coef s) (s_init s) (s_pts s) (s_trained s).
  Definition set_cur d s := mkO (s_iter s) (s_evals s) (s_hist s) (s_gopt s) d (s_best s) (s_trLen s) (s_trMax s) (s_trMin s) (s_succ s) (s_fail s) (s_delta s) (s_mult s) (s_sigma s) (s_coef s) (s_init s) (s_pts s) (s_trained s).
  Definition set_best b s := mkO (s_iter s) (s_evals s) (s_hist s) (s_gopt s) (s_cur s) b (s_trLen s) (s_trMax s) (s_trMin s) (s_succ s) (s_fail s) (s_delta s) (s_mult s) (s_sigma s) (s_coef s) (s_init s) (s_pts s) (s_trained s).
  Definition set_tr l su fa s := mkO (s_iter s) (s_evals s) (s_hist s) (s_gopt s) (s_cur s) (s_best s) l (s_trMax s) (s_trMin s) su fa (s_delta s) (s_mult s) (s_sigma s) (s_coef s) (s_init s) (s_pts s) (s_trained s).
  Definition set_trlim mx mn s := mkO (s_iter s) (s_evals s) (s_hist s) (s_gopt s) (s_cur s) (s_best s) (s_trLen s) mx mn (s_succ s) (s_fail s) (s_delta s) (s_mult s) (s_sigma s) (s_coef s) (s_init s) (s_pts s) (s_trained s).
  Definition set_sig de mu si co s := mkO (s_iter s) (s_evals s) (s_hist s) (s_gopt s) (s_cur s) (s_best s) (s_trLen s) (s_trMax s) (s_trMin s) (s_succ s) (s_fail s) de mu si co (s_init s) (s_pts s) (s_trained s).
  Definition set_iter i s := mkO i (s_evals s) (s_hist s) (s_gopt s) (s_cur s) (s_best s) (s_trLen s) (s_trMax s) (s_trMin s) (s_succ s) (s_fail s) (s_delta s) (s_mult s) (s_sigma s) (s_coef s) (s_init s) (s_pts s) (s_trained s).
  Definition set_evals n s := mkO (s_iter s) n (s_hist s) (s_gopt s) (s_cur s) (s_best s) (s_trLen s) (s_trMax s) (s_trMin s) (s_succ s) (s_fail s) (s_delta s) (s_mult s) (s_sigma s) (s_coef s) (s_init s) (s_pts s) (s_trained s).
  Definition set_init b s := mkO (s_iter s) (s_evals s) (s_hist s) (s_gopt s) (s_cur s) (s_best s) (s_trLen s) (s_trMax s) (s_trMin s) (s_succ s) (s_fail s) (s_delta s) (s_mult s) (s_sigma s) (s_coef s) b (s_pts s) (s_trained s).
  Definition set_ghost p t s := mkO (s_iter s) (s_evals s) (s_hist s) (s_gopt s) (s_cur s) (s_best s) (s_trLen s) (s_trMax s) (s_trMin s) (s_succ s) (s_fail s) (s_delta s) (s_mult s) (s_sigma s) (s_coef s) (s_init s) p t.
  Definition in_hist {A} (m : SM (hist T) A) : SM ost A := szoom s_hist set_hist m.
  Definition in_gopt {A} (m : SM (gopt T) A) : SM ost A := szoom s_gopt set_gopt m.
  Definition on_cur (f : design T -> design T) : SM ost unit := smod (fun s => set_cur (f (s_cur s)) s).

  (** a new Optimizer with default members: optimization.hpp:139-310 *)
  Definition ost_new : ost := mkO 0 0 hist_new gopt_new design_new n0 (nlit 8 (-1)) n0 n0 0 0 n0 n1 n1 n0 false [] [].

  (** *** One iteration *)
  (** findTheGlobalOptimalDesign: 306-333 *)
  Definition findOptimum (c : cfg) : SM ost unit :=
    run sthrow_if (negb (c_boxset c)) RuntimeError;
    get h <-- sget s_hist;
    run sthrow_if (Nat.eqb (nrows (h_data h)) 0 || Nat.eqb (ncols (h_data h)) 0) RuntimeError;
    in_gopt (gopt_fromHistory (h_data h)).
  (** findTheMostPromisingDesignEGO: 745-784; LARGE = 10E14 *)
  Definition mostPromising (c : cfg) (e : env) : SM ost (cand * (vec T * vec T)) :=
    get s <-- sget (fun s => s);
    let g := go_d (s_gopt s) in
    run sthrow_if (negb (s_init s) || Nat.eqb (length (ds_xn g)) 0) RuntimeError;
    get b <-- slift (trustRegion (c_dim c) (ds_xn g) (s_trLen s));
    let fmin := if ds_feas g then ds_f g else nlit 10 14 in
    let acq := e_acq e fmin (s_sigma s) in
    get c1 <-- slift (run_search (c_dim c) (c_inner c) (fun i => randomDesign (c_dim c) (fst b) (snd b) (e_u1 e i)) acq (e_s1 e) (repeat n0 (c_dim c), nopp (nlit 10 14)));
    get x <-- slift (vec_denormalize (ds_xn g) (c_lb c) (c_ub c));
    get inb <-- slift (box_satisfied (c_dim c) (c_lb c) (c_ub c) x);
    get c2 <-- slift (if inb : bool then run_search (c_dim c) (c_inner c) (fun i => randomAround (c_dim c) (ds_xn g) (fst b) (snd b) (e_u2 e i)) acq (e_s2 e) c1 else Ok c1);
    sret (c2, b).
  (** findTheMostPromisingDesignToBeSimulated: 1179-1211 *)
  Definition findDesign (c : cfg) (e : env) : SM ost unit :=
    get cb <-- mostPromising c e;
    get s <-- sget (fun s => s);
    let g := go_d (s_gopt s) in
    let fmin := if ds_feas g then ds_f g else nlit 10 14 in
    match maximize (e_ei e fmin (s_sigma s)) (e_acq e fmin (s_sigma s)) (c_dim c) (fst (snd cb)) (snd (snd cb)) (fst (fst cb)) with
    | None => slift UB
    | Some (dv, _) =>
        get x <-- slift (vec_denormalize dv (c_lb c) (c_ub c));
        get x <-- slift (roundDiscrete (c_lb c) (c_ub c) (c_disc c) x);
        on_cur (ds_set_point x dv)
    end.
  (** computeConstraintsandPenaltyTerm: optimization_constraint_functions.cpp:156-176 *)
  Definition evalConstraints (c : cfg) : SM ost unit :=
    match c_cons c with
    | [] => sret tt
    | _ => get d <-- sget s_cur;
           get v <-- slift (cons_eval (c_cons c) (ds_x d) (ds_con d));
           run on_cur (ds_set_con v);
           get f <-- slift (cons_feasible (c_cons c) v);
           on_cur (ds_set_feas f)
    end.
  (** success and failure of the trust region: efficient_global_optimization.cpp:50-96 *)
  Definition trSuccess (s : ost) : ost :=
    let '(len, su) := if Nat.eqb (S (s_succ s)) 3
                      then (let l := s_trLen s *! nofZ 2 in (if l >! s_trMax s then s_trMax s else l), 0) else (s_trLen s, S (s_succ s)) in
    let s1 := set_tr len su 0 s in
    let di := ds_imp (s_cur s) -! ds_imp (go_d (s_gopt s)) in
    let bd := if di >! s_delta s then di else s_delta s in
    let pc := di /! bd *! nofZ 100 in
    set_sig bd (if pc >! nofZ 10 then n1 else s_mult s) (s_sigma s) (s_coef s) s1.
  Definition trFailure (s : ost) : ost :=
    let '(len, fa) := if Nat.eqb (S (s_fail s)) 15
                      then (let l := s_trLen s /! nofZ 2 in (if l <! s_trMin s then s_trMin s else l), 0) else (s_trLen s, S (s_fail s)) in
    set_tr len 0 fa s.
  Definition trUpdate (s : ost) : ost := if ds_imp (s_cur s) >! ds_imp (go_d (s_gopt s)) then trSuccess s else trFailure s.
  (** adjustSigmaFactor: optimization.cpp:1260-1290, sigmaFactorMin = 1, sigmaFactorMax = 100 *)
  Definition sigmaValue (mult coef cf : T) (m : option T) : T :=
    let s := mult *! (coef /! cf) in
    let s := match m with Some k => s *! k | None => s end in
    let s := if s <! n1 then n1 else s in
    if s >! nofZ 100 then nofZ 100 else s.
  Definition adjustSigma (e : env) : SM ost unit :=
    run in_hist hist_crowding;
    smod (fun s => set_sig (s_delta s) (s_mult s) (sigmaValue (s_mult s) (s_coef s) (h_crowd (s_hist s)) (e_mult e)) (s_coef s) s).
  (** the body of the loop: efficient_global_optimization.cpp:10-124 *)
  Definition iteration (c : cfg) (e : env) : SM ost unit :=
    run smod (fun s => set_iter (S (s_iter s)) s);
    get it <-- sget s_iter;
    run (if Nat.eqb (c_how c) 0 then slift UB
         else swhen (Nat.eqb (it mod c_how c) 1)
                (run slift (e_train e); smod (fun s => set_init true (set_ghost (s_pts s) (s_trained s ++ [it]) s))));
    run findDesign c e;
    get d <-- sget s_cur;
    run smod (fun s => set_ghost (s_pts s ++ [ds_x d]) (s_trained s) s);
    get f <-- slift (e_eval e (ds_x d));
    run on_cur (ds_set_f f);
    run smod (fun s => set_evals (S (s_evals s)) s);
    run evalConstraints c;
    run smod (fun s => let '(b, im) := improvement (s_best s) (ds_feas (s_cur s)) (ds_f (s_cur s)) in
                       set_best b (set_cur (ds_set_imp im (s_cur s)) s));
    get d <-- sget s_cur;
    run sthrow_if (design_hasNan d) RuntimeError;
    run slift (e_add e);
    run in_hist (hist_update d);
    run smod trUpdate;
    run swhen (c_var c) (run adjustSigma e; smod (fun s => set_sig (s_delta s) (s_mult s *! nlit 101 (-2)) (s_sigma s) (s_coef s) s));
    findOptimum c.
  (** performEfficientGlobalOptimizationOnlyWithFunctionalValues: 8-127.  [es k] is the environment of the k-th iteration of
      this run; the loop ends when outerIterationNumber >= maxNumberOfSamples.  [fuel] bounds the recursion only:
      None = not finished. *)
  Fixpoint egoLoop (fuel : nat) (k : nat) (c : cfg) (es : nat -> env) (s : ost) : option (ost * Res unit) :=
    match fuel with
    | O => None
    | S f => match iteration c (es k) s with
             | (s1, Ok _) => if Nat.leb (c_N c) (s_iter s1) then Some (s1, Ok tt) else egoLoop f (S k) c es s1
             | (s1, r) => Some (s1, r)
             end
    end.

  (** *** Setting up an optimiser *)
  (** the calls a client makes: Optimizer(name, dim) (optimization.cpp:26-35, setDimension: optimization_setter_getters.cpp:96-108),
      addConstraint for each constraint (optimization_constraint_functions.cpp:21-28), setBoxConstraints (setter_getters:49-74;
      the objective function is specified).  Bounds are taken to have a set flag, as checked by GlobalOptimalDesign. *)
  Definition on_god {A} (m : SM (design T) A) : SM ost A := in_gopt (szoom go_d (fun d g => mkGO d (go_box g)) m).
  Definition optSetup (c : cfg) : SM ost unit :=
    run sthrow_if (Nat.eqb (c_dim c) 0) RuntimeError;
    run on_god (design_setDimension (c_dim c));
    run szoom s_cur set_cur (design_setDimension (c_dim c));
    run in_hist (hist_setDimension (c_dim c));
    run sloop (length (c_cons c)) (fun i => on_god (design_setNumberOfConstraints (S i)));
    run sthrow_if (negb (Nat.eqb (length (c_lb c)) (length (c_ub c)))) InvalidArgument;
    run sthrow_if (existsb (fun i => vget (c_lb c) i >! vget (c_ub c) i) (seq 0 (length (c_lb c)))) InvalidArgument;
    run sassert (c_objset c);
    in_gopt (gopt_setBox (mkB (length (c_lb c)) (c_lb c) (c_ub c) true)).

  (** *** Start of a run *)
  (** setOptimizationHistoryConstraintsData: optimization.cpp:913-980 *)
  Definition conColumn (c : cfg) (oc : ocon) (m : mat T) : Res (mat T) :=
    if Nat.leb (length (c_cons c)) (oc_id oc) then Throw OutOfRange
    else if oc_user oc then
      loopR (nrows m) (fun i m => x <- vec_head (mrow m i) (c_dim c) ;; y <- oc_fun oc x ;; mat_put m i (c_dim c + oc_id oc + 1) y) m
    else
      xs <- mat_submat (oc_data oc) 0 (nrows (oc_data oc) - 1) 0 (c_dim c - 1) ;;
      loopR (nrows m) (fun i m => x <- vec_head (mrow m i) (c_dim c) ;; ix <- mat_findRowIndex xs x (nlit 1 (-8)) ;;
        v <- (if (0 <=? ix)%Z then mat_at (oc_data oc) (Z.to_nat ix) (c_dim c) else Ok (if oc_gt oc then nopp (nlit 1 15) else nlit 1 15)) ;;
        mat_put m i (c_dim c + oc_id oc + 1) v) m.
  Fixpoint conColumns (c : cfg) (l : list ocon) (m : mat T) : Res (mat T) :=
    match l with [] => Ok m | oc :: t => m <- conColumn c oc m ;; conColumns c t m end.
  (** setOptimizationHistoryDataFeasibilityValues: 1012-1075 *)
  Definition feasColumn (c : cfg) (m : mat T) : Res (mat T) :=
    if Nat.eqb (nrows m) 0 then Throw InvalidArgument
    else if Nat.eqb (c_dim c) 0 then Throw InvalidArgument
    else loopR (nrows m) (fun i m =>
           match c_cons c with
           | [] => mat_put m i (ncols m - 1) n1
           | _ => let r := mrow m i in
                  x <- vec_head r (c_dim c) ;;
                  cv <- loopR (length (c_cons c)) (fun j acc => y <- vec_at r (j + c_dim c + 1) ;; Ok (acc ++ [y])) [] ;;
                  f <- cons_feasible (c_cons c) cv ;;
                  b <- box_satisfied (c_dim c) (c_lb c) (c_ub c) x ;;
                  mat_put m i (ncols m - 1) (if (f && b)%bool then n1 else n0)
           end) m.
  (** setOptimizationHistoryData: 1117-1176.  dimension > getNCols()-1 in unsigned arithmetic: 0 columns wrap around *)
  Definition startHistory (c : cfg) : Res (mat T) :=
    let td := c_data c in
    if (Nat.ltb 0 (ncols td) && Nat.ltb (ncols td - 1) (c_dim c))%bool then Throw OutOfRange
    else
      _ <- mat_submat td 0 (nrows td - 1) 0 (c_dim c - 1) ;;
      m <- loopR (c_dim c + 1) (fun i m => v <- mat_getCol td (Z.of_nat i) ;; mat_setCol m v i)
             (mat_zero (nrows td) (c_dim c + 1 + length (c_cons c) + 2)) ;;
      m <- conColumns c (c_cons c) m ;;
      feasColumn c m.
  Definition setHistory (c : cfg) : SM ost unit :=
    get m <-- slift (startHistory c);
    run in_hist (hist_setData m);
    get h <-- sget s_hist;
    get b <-- slift (hist_initialImprovement h);
    run smod (set_best b);
    run in_hist hist_save;
    run in_hist (smod (fun h => mkH (h_dim h) (h_cn h) (h_data h) (h_crowd h) (nrows (c_data c))));
    findOptimum c.
  (** initializeOptimizationHistory: 1079-1115 *)
  Definition initHistory (c : cfg) : SM ost unit :=
    run in_hist (hist_setDimension (c_dim c));
    run in_hist (sloop (length (c_cons c)) (fun _ => hist_addConstraint));
    run setHistory c;
    swhen (c_var c) (run in_hist hist_crowding;
      smod (fun s => set_sig (s_delta s) (s_mult s) (s_sigma s) (h_crowd (s_hist s) *! s_sigma s) s)).
  (** initializeOptimizerSettings: 50-66; pow(0.5,8) = 1/256 *)
  Definition initSettings (c : cfg) : SM ost unit :=
    run sthrow_if (Nat.eqb (c_dim c) 0) RuntimeError;
    smod (fun s => let mx := n1 /! nofnat (c_dim c) in
                   set_trlim mx (nlit 390625 (-8) *! mx) (set_sig (s_delta s) (s_mult s) n1 (s_coef s) s)).
  (** checkIfSettingsAreOK: 292-303, checkBoxConstraints: 121-129 *)
  Definition settingsOk (c : cfg) : SM ost unit :=
    run sthrow_if (Nat.eqb (c_N c) 0) RuntimeError;
    sthrow_if (existsb (fun i => vget (c_lb c) i >=! vget (c_ub c) i) (seq 0 (c_dim c))) RuntimeError.
  (** performEfficientGlobalOptimization: efficient_global_optimization.cpp:130-166; [ini] is the outcome of initializeSurrogates and of
      saveDesignVector (only when the API is not used: optimization.cpp:1219-1221; see MainModel and DesignFileModel for it) *)
  Definition startRun (c : cfg) (ini : Res unit) : SM ost unit :=
    run sthrow_if (negb (c_objset c)) RuntimeError;
    run sthrow_if (negb (c_boxset c)) RuntimeError;
    run settingsOk c;
    run initSettings c;
    run slift ini;
    run smod (set_init true);
    run szoom s_cur set_cur (design_setNumberOfConstraints (length (c_cons c)));
    run on_cur (ds_set_feas true);
    initHistory c.
  Definition ego (fuel : nat) (c : cfg) (ini : Res unit) (es : nat -> env) (s : ost) : option (ost * Res unit) :=
    match startRun c ini s with
    | (s1, Ok _) => egoLoop fuel 0 c es s1
    | (s1, r) => Some (s1, r)
    end.
End OptModel.
Arguments ocon : clear implicits.
Arguments cand : clear implicits.
Arguments cfg : clear implicits.
Arguments ost : clear implicits.
Arguments env : clear implicits.
