(** Model of the gradient-descent optimiser (src/InternalOptimizers/gradient_optimizer.cpp and INCLUDE/gradient_optimizer.hpp).
    The user's callbacks are pure functions of the vector they are given (simplification: a C++ callback could keep state).
    The counter of evaluations is a natural number (simplification: unsigned int, no wrap-around).
    The two while(true) loops take a number of rounds [fuel]; [None] means that the loop is still running after them. *)
From Coq Require Import List Arith Bool ZArith.
From Verif Require Import Base StM Num VecModel.
Import ListNotations.

Section Grad.
  Context {T : Type} {NT : Num T}.

  (** struct designPoint: gradient_optimizer.hpp:17-22 *)
  Record dpoint := mkP { p_x : vec T; p_g : vec T; p_f : T; p_norm : T }.
  Definition pset_x x p := mkP x (p_g p) (p_f p) (p_norm p).
  Definition pset_g g p := mkP (p_x p) g (p_f p) (p_norm p).
  Definition pset_f f p := mkP (p_x p) (p_g p) f (p_norm p).
  Definition pset_norm n p := mkP (p_x p) (p_g p) (p_f p) n.

  (** the strings "", "central" and "forward" of finiteDifferenceMethod: gradient_optimizer.hpp:31 *)
  Inductive fdmethod := FdNone | FdCentral | FdForward | FdOther.
  Definition fd_is_central m := match m with FdCentral => true | _ => false end.
  Definition fd_is_forward m := match m with FdForward => true | _ => false end.

  (** the fields of class GradientOptimizer that its methods use: gradient_optimizer.hpp:26-60, general_purpose_optimizer.hpp.
      [g_fun]/[g_grad] are the callbacks with their "is set" flags; the line-search method is always "backtracking_line_search" (no setter). *)
  Record gopt := mkG { g_dim : nat; g_fun : option (vec T -> T); g_grad : option (vec T -> vec T); g_bounds : option (vec T * vec T); g_init : bool;
    g_useFD : bool; g_method : fdmethod; g_cur : dpoint; g_next : dpoint; g_tol : T; g_eps : T; g_maxStep : T; g_lsIter : Z; g_opt : T; g_maxEval : Z; g_n : nat }.
  Definition gset_dim d s := mkG d (g_fun s) (g_grad s) (g_bounds s) (g_init s) (g_useFD s) (g_method s) (g_cur s) (g_next s) (g_tol s) (g_eps s) (g_maxStep s) (g_lsIter s) (g_opt s) (g_maxEval s) (g_n s).
  Definition gset_fun f s := mkG (g_dim s) f (g_grad s) (g_bounds s) (g_init s) (g_useFD s) (g_method s) (g_cur s) (g_next s) (g_tol s) (g_eps s) (g_maxStep s) (g_lsIter s) (g_opt s) (g_maxEval s) (g_n s).
  Definition gset_grad f s := mkG (g_dim s) (g_fun s) f (g_bounds s) (g_init s) (g_useFD s) (g_method s) (g_cur s) (g_next s) (g_tol s) (g_eps s) (g_maxStep s) (g_lsIter s) (g_opt s) (g_maxEval s) (g_n s).
  Definition gset_bounds b s := mkG (g_dim s) (g_fun s) (g_grad s) b (g_init s) (g_useFD s) (g_method s) (g_cur s) (g_next s) (g_tol s) (g_eps s) (g_maxStep s) (g_lsIter s) (g_opt s) (g_maxEval s) (g_n s).
  Definition gset_init b s := mkG (g_dim s) (g_fun s) (g_grad s) (g_bounds s) b (g_useFD s) (g_method s) (g_cur s) (g_next s) (g_tol s) (g_eps s) (g_maxStep s) (g_lsIter s) (g_opt s) (g_maxEval s) (g_n s).
  Definition gset_fd m s := mkG (g_dim s) (g_fun s) (g_grad s) (g_bounds s) (g_init s) true m (g_cur s) (g_next s) (g_tol s) (g_eps s) (g_maxStep s) (g_lsIter s) (g_opt s) (g_maxEval s) (g_n s).
  Definition gset_cur p s := mkG (g_dim s) (g_fun s) (g_grad s) (g_bounds s) (g_init s) (g_useFD s) (g_method s) p (g_next s) (g_tol s) (g_eps s) (g_maxStep s) (g_lsIter s) (g_opt s) (g_maxEval s) (g_n s).
  Definition gset_next p s := mkG (g_dim s) (g_fun s) (g_grad s) (g_bounds s) (g_init s) (g_useFD s) (g_method s) (g_cur s) p (g_tol s) (g_eps s) (g_maxStep s) (g_lsIter s) (g_opt s) (g_maxEval s) (g_n s).
  Definition gset_tol t s := mkG (g_dim s) (g_fun s) (g_grad s) (g_bounds s) (g_init s) (g_useFD s) (g_method s) (g_cur s) (g_next s) t (g_eps s) (g_maxStep s) (g_lsIter s) (g_opt s) (g_maxEval s) (g_n s).
  Definition gset_eps e s := mkG (g_dim s) (g_fun s) (g_grad s) (g_bounds s) (g_init s) (g_useFD s) (g_method s) (g_cur s) (g_next s) (g_tol s) e (g_maxStep s) (g_lsIter s) (g_opt s) (g_maxEval s) (g_n s).
  Definition gset_maxStep v s := mkG (g_dim s) (g_fun s) (g_grad s) (g_bounds s) (g_init s) (g_useFD s) (g_method s) (g_cur s) (g_next s) (g_tol s) (g_eps s) v (g_lsIter s) (g_opt s) (g_maxEval s) (g_n s).
  Definition gset_lsIter v s := mkG (g_dim s) (g_fun s) (g_grad s) (g_bounds s) (g_init s) (g_useFD s) (g_method s) (g_cur s) (g_next s) (g_tol s) (g_eps s) (g_maxStep s) v (g_opt s) (g_maxEval s) (g_n s).
  Definition gset_opt v s := mkG (g_dim s) (g_fun s) (g_grad s) (g_bounds s) (g_init s) (g_useFD s) (g_method s) (g_cur s) (g_next s) (g_tol s) (g_eps s) (g_maxStep s) (g_lsIter s) v (g_maxEval s) (g_n s).
  Definition gset_maxEval v s := mkG (g_dim s) (g_fun s) (g_grad s) (g_bounds s) (g_init s) (g_useFD s) (g_method s) (g_cur s) (g_next s) (g_tol s) (g_eps s) (g_maxStep s) (g_lsIter s) (g_opt s) v (g_n s).
  Definition gset_n v s := mkG (g_dim s) (g_fun s) (g_grad s) (g_bounds s) (g_init s) (g_useFD s) (g_method s) (g_cur s) (g_next s) (g_tol s) (g_eps s) (g_maxStep s) (g_lsIter s) (g_opt s) (g_maxEval s) v.

  (** the default member values: gradient_optimizer.hpp:17-60 (10E-6 = 1e-5; FLT_MAX = (2^24-1)*2^104) *)
  Definition point0 : dpoint := mkP [] [] n0 n0.
  Definition grad_new : gopt :=
    mkG 0 None None None false false FdNone point0 point0 (nlit 1 (-5)) (nlit 1 (-3)) n0 10 (nofZ ((2 ^ 24 - 1) * 2 ^ 104)) 0 0.

  (** a signed argument stored in an unsigned int *)
  Definition to_unsigned (z : Z) : Z := (z mod 2 ^ 32)%Z.

  (** setDimension, setBounds(vec,vec), setObjectiveFunction: general_purpose_optimizer.cpp:18-20, 47-62, 138-144 *)
  Definition grad_setDimension (d : nat) : SM gopt unit := smod (gset_dim d).
  Definition grad_setBounds (lb ub : vec T) : SM gopt unit :=
    get s <-- sget (fun s => s);
    run sthrow_if (negb (Nat.eqb (length lb) (length ub))) InvalidArgument;
    run sthrow_if (negb (Nat.eqb (length lb) (g_dim s))) InvalidArgument;
    get ok <-- slift (vec_gt ub lb);
    run sthrow_if (negb ok) InvalidArgument;
    smod (gset_bounds (Some (lb, ub))).
  Definition grad_setFunction (f : vec T -> T) : SM gopt unit := smod (gset_fun (Some f)).
  (** setInitialPoint: gradient_optimizer.cpp:36-43 *)
  Definition grad_setInitialPoint (x : vec T) : SM gopt unit :=
    get s <-- sget (fun s => s);
    run sassert (Nat.eqb (length x) (g_dim s));
    smod (fun s => gset_init true (gset_cur (pset_x x (g_cur s)) s)).
  (** setMaximumStepSize, setTolerance, setMaximumNumberOfIterationsInLineSearch: gradient_optimizer.cpp:47-59 *)
  Definition grad_setMaxStep (v : T) : SM gopt unit := smod (gset_maxStep v).
  Definition grad_setTolerance (v : T) : SM gopt unit := smod (gset_tol v).
  Definition grad_setLineSearchIterations (v : Z) : SM gopt unit := smod (gset_lsIter (to_unsigned v)).
  (** setGradientFunction, setMaximumNumberOfFunctionEvaluations: gradient_optimizer.cpp:64-80 *)
  Definition grad_setGradient (g : vec T -> vec T) : SM gopt unit := smod (gset_grad (Some g)).
  Definition grad_setMaxEval (v : Z) : SM gopt unit := smod (gset_maxEval (to_unsigned v)).
  (** setFiniteDifferenceMethod: gradient_optimizer.cpp:82-89 *)
  Definition grad_setFD (m : fdmethod) : SM gopt unit :=
    run sassert (fd_is_central m || fd_is_forward m); smod (gset_fd m).
  (** setEpsilonForFiniteDifference: gradient_optimizer.cpp:101-107 *)
  Definition grad_setEps (v : T) : SM gopt unit :=
    run sassert (v >! n0); run sassert (v <! nlit 1 (-1)); smod (gset_eps v).

  (** checkIfOptimizationSettingsAreOk: gradient_optimizer.cpp:91-99 *)
  Definition grad_check : SM gopt unit :=
    get s <-- sget (fun s => s);
    run sassert (Nat.ltb 0 (g_dim s));
    run sassert (g_init s);
    run sassert (0 <? g_maxEval s)%Z;
    sassert (match g_bounds s with Some _ => true | None => false end).

  (** evaluateObjectiveFunction: gradient_optimizer.cpp:185-204.  Without a callback the base-class function throws
      std::logic_error (general_purpose_optimizer.cpp:158-161). *)
  Definition grad_eval (p : dpoint) : SM gopt dpoint :=
    get s <-- sget (fun s => s);
    match g_fun s with
    | Some f => run smod (fun s => gset_n (S (g_n s)) s); sret (pset_f (f (p_x p)) p)
    | None => sthrow LogicError
    end.

  (** vec::operator()(i) of the point: out of range throws *)
  Definition point_get (p : dpoint) (i : nat) : SM gopt T :=
    if Nat.ltb i (length (p_x p)) then sret (vget (p_x p) i) else sthrow OutOfRange.

  (** one round of the loop of calculateCentralFiniteDifferences: gradient_optimizer.cpp:130-141 *)
  Definition central_step (p : dpoint) (i : nat) : SM gopt (dpoint * T) :=
    get save <-- point_get p i;
    get eps <-- (get s <-- sget (fun s => s); sret (g_eps s *! save));
    get p1 <-- grad_eval (pset_x (upd (p_x p) i (save +! eps)) p);
    get p2 <-- grad_eval (pset_x (upd (p_x p1) i (vget (p_x p1) i -! nofZ 2 *! eps)) p1);
    sret (pset_x (upd (p_x p2) i save) p2, (p_f p1 -! p_f p2) /! (nofZ 2 *! eps)).
  (** calculateCentralFiniteDifferences: gradient_optimizer.cpp:126-144; the point is a reference and comes back changed *)
  Fixpoint central_loop (n : nat) (p : dpoint) : SM gopt (dpoint * vec T) :=
    match n with
    | O => sret (p, [])
    | S k => get r <-- central_loop k p; get q <-- central_step (fst r) k; sret (fst q, snd r ++ [snd q])
    end.
  Definition grad_central (p : dpoint) : SM gopt (dpoint * vec T) :=
    get s <-- sget (fun s => s); central_loop (g_dim s) p.

  (** calculateForwardFiniteDifferences: gradient_optimizer.cpp:146-162 *)
  Definition forward_step (f0 : T) (p : dpoint) (i : nat) : SM gopt (dpoint * T) :=
    get save <-- point_get p i;
    get eps <-- (get s <-- sget (fun s => s); sret (g_eps s *! save));
    get p1 <-- grad_eval (pset_x (upd (p_x p) i (save +! eps)) p);
    sret (pset_x (upd (p_x p1) i save) p1, (p_f p1 -! f0) /! eps).
  Fixpoint forward_loop (f0 : T) (n : nat) (p : dpoint) : SM gopt (dpoint * vec T) :=
    match n with
    | O => sret (p, [])
    | S k => get r <-- forward_loop f0 k p; get q <-- forward_step f0 (fst r) k; sret (fst q, snd r ++ [snd q])
    end.
  Definition grad_forward (p : dpoint) : SM gopt (dpoint * vec T) :=
    get p0 <-- grad_eval p;
    get s <-- sget (fun s => s); forward_loop (p_f p0) (g_dim s) p0.

  (** approximateGradientUsingFiniteDifferences: gradient_optimizer.cpp:164-183; the result of the forward variant is dropped *)
  Definition grad_approx (p : dpoint) : SM gopt dpoint :=
    get s <-- sget (fun s => s);
    run sassert (Nat.ltb 0 (g_dim s));
    match g_method s with
    | FdCentral => get r <-- grad_central p; sret (pset_g (snd r) (fst r))
    | FdForward => get r <-- grad_forward p; sret (fst r)
    | _ => sret p
    end.

  (** evaluateGradientFunction: gradient_optimizer.cpp:207-234.  The callback writes [g_dim] numbers.  Without a callback
      calculateGradientFunctionInternal (lines 111-124) asserts that there is one. *)
  Definition grad_evalGradient (p : dpoint) : SM gopt dpoint :=
    get s <-- sget (fun s => s);
    get p1 <-- (if g_useFD s then grad_approx p
                else match g_grad s with
                     | Some g => sret (pset_g (vbuild (g_dim s) (vget (g (p_x p)))) p)
                     | None => sthrow AssertFail
                     end);
    sret (pset_norm (vec_norm L2 (p_g p1)) p1).

  (** the while(true) loop of performBacktrackingLineSearch: gradient_optimizer.cpp:252-274 *)
  Fixpoint backtrack (fuel : nat) (step : T) (s : gopt) : option (gopt * Res unit) :=
    match fuel with
    | O => None
    | S k =>
        let try := (get x <-- slift (vec_sub (p_x (g_cur s)) (vec_scale (p_g (g_cur s)) step));
                    run smod (fun s => gset_next (pset_x x (g_next s)) s);
                    get p <-- grad_eval (pset_x x (g_next s));
                    smod (gset_next p)) in
        match try s with
        | (s1, Ok _) => if p_f (g_next s1) <! p_f (g_cur s1) then Some (s1, Ok tt) else backtrack k (step *! nlit 5 (-1)) s1
        | (s1, Throw e) => Some (s1, Throw e)
        | (s1, UB) => Some (s1, UB)
        end
    end.
  (** performBacktrackingLineSearch: gradient_optimizer.cpp:246-286 *)
  Definition line_search (fuel : nat) (s : gopt) : option (gopt * Res unit) :=
    if negb (g_maxStep s >! n0) then Some (s, Throw AssertFail)
    else match backtrack fuel (g_maxStep s) s with
         | None => None
         | Some (s1, Ok _) =>
             Some ((run smod (fun s => gset_cur (g_next s) s);
                    get p <-- grad_evalGradient (g_next s1);
                    run smod (gset_cur p);
                    smod (fun s => gset_opt (p_f (g_cur s)) s)) s1)
         | Some r => Some r
         end.
  (** the loop of optimize: gradient_optimizer.cpp:317-338; [fuel] bounds every line search, [rounds] their number *)
  Fixpoint descend (fuel rounds : nat) (s : gopt) : option (gopt * Res unit) :=
    match rounds with
    | O => None
    | S k =>
        if p_norm (g_cur s) <! g_tol s then Some (s, Ok tt)
        else match line_search fuel s with
             | None => None
             | Some (s1, Ok _) => if (g_maxEval s1 <=? Z.of_nat (g_n s1))%Z then Some (s1, Ok tt) else descend fuel k s1
             | Some r => Some r
             end
    end.
  (** the evaluations before the loop: gradient_optimizer.cpp:310-313 *)
  Definition grad_start : SM gopt unit :=
    run grad_check;
    get s <-- sget (fun s => s);
    get p <-- grad_eval (g_cur s);
    run smod (gset_cur p);
    get p <-- grad_evalGradient p;
    smod (gset_cur p).
  (** optimize: gradient_optimizer.cpp:307-343 *)
  Definition grad_optimize (fuel rounds : nat) (s : gopt) : option (gopt * Res unit) :=
    match grad_start s with
    | (s1, Ok _) => descend fuel rounds s1
    | r => Some r
    end.
End Grad.
Arguments dpoint : clear implicits.
Arguments gopt : clear implicits.
