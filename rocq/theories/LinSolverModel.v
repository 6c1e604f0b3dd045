(** CholeskySystem and LUSystem: src/LinearAlgebra/linear_solver.cpp, INCLUDE/linear_solver.hpp. *)
From Coq Require Import List Arith Bool ZArith.
From Verif Require Import Base Num VecModel MatModel.
Import ListNotations.

Section LinSolverModel.
  Context {T : Type} `{NT : Num T}.

  (** Private members of CholeskySystem (linear_solver.hpp:46-51).  [cs_fact] is [None] after a failed
      factorisation: the partially filled matrix then stored by factorize is not modelled. *)
  Record chol_sys := mkChol {
    cs_dim : nat; cs_A : mat T; cs_fact : option (mat T); cs_done : bool; cs_set : bool }.
  (** default constructor: linear_solver.hpp:58, initialisers 46-51 *)
  Definition chol_new : chol_sys := mkChol 0 (mat_zero 0 0) (Some (mat_zero 0 0)) false false.
  (** setDimension: linear_solver.cpp:43-53 (the two flags are not touched) *)
  Definition chol_setDimension (s : chol_sys) (d : nat) : chol_sys :=
    mkChol d (mat_zero d d) (Some (mat_zero d d)) (cs_done s) (cs_set s).
  (** CholeskySystem(unsigned): linear_solver.cpp:38-40 *)
  Definition chol_new_dim (d : nat) : chol_sys := chol_setDimension chol_new d.
  (** setMatrix: linear_solver.cpp:105-116 *)
  Definition chol_setMatrix (s : chol_sys) (m : mat T) : chol_sys :=
    mkChol (nrows m) m (Some (mat_zero (nrows m) (nrows m))) false true.
  (** factorize: linear_solver.cpp:129-147; a non-square matrix makes A.cholesky throw before any assignment *)
  Definition chol_factorize (s : chol_sys) : chol_sys * Res unit :=
    match mat_cholesky (cs_A s) with
    | Ok (Some L) => (mkChol (cs_dim s) (cs_A s) (Some L) true (cs_set s), Ok tt)
    | Ok None => (mkChol (cs_dim s) (cs_A s) None false (cs_set s), Ok tt)
    | Throw e => (s, Throw e)
    | UB => (s, UB)
    end.
  (** isFactorizationDone: linear_solver.cpp:123-127 *)
  Definition chol_isDone (s : chol_sys) : bool := cs_done s.
  (** solveLinearSystem: linear_solver.cpp:150-155 (assert active: LinearAlgebra is built without NDEBUG) *)
  Definition chol_solve (s : chol_sys) (b : vec T) : Res (vec T) :=
    if negb (cs_done s) then Throw AssertFail
    else match cs_fact s with Some L => mat_solveCholesky L b | None => UB end.
  (** calculateDeterminant: linear_solver.cpp:75-85 *)
  Definition chol_det (s : chol_sys) : Res T :=
    if negb (cs_done s) then Throw AssertFail
    else match cs_fact s with
         | Some L => d <- mat_diag L ;; Ok (vec_product d *! vec_product d)
         | None => UB end.
  (** calculateLogDeterminant: linear_solver.cpp:87-102 *)
  Definition chol_logdet `{NF : NumFun T} (s : chol_sys) : Res T :=
    if negb (cs_done s) then Throw AssertFail
    else match cs_fact s with
         | Some L => d <- mat_diag L ;;
             if Nat.ltb (length d) (cs_dim s) then UB
             else Ok (nofZ 2 *! nsum (cs_dim s) (fun i => nlog (vget d i)))
         | None => UB end.

  (** The state-changing calls a client can make. *)
  Inductive sys_op := SetDimension (d : nat) | SetMatrix (m : mat T) | Factorize.
  Definition chol_step (s : chol_sys) (o : sys_op) : chol_sys :=
    match o with
    | SetDimension d => chol_setDimension s d
    | SetMatrix m => chol_setMatrix s m
    | Factorize => fst (chol_factorize s)
    end.
  Definition chol_run (ops : list sys_op) (s : chol_sys) : chol_sys := fold_left chol_step ops s.

  (** Private members of LUSystem (linear_solver.hpp:83-88).  [ls_fact] is [None] after a failed factorisation
      (the result of luNaive then owns a null array, matrix.cpp:1530-1535). *)
  Record lu_sys := mkLU {
    ls_dim : nat; ls_A : mat T; ls_fact : option (mat T); ls_piv : list nat; ls_done : bool; ls_set : bool }.
  Definition lu_new : lu_sys := mkLU 0 (mat_zero 0 0) (Some (mat_zero 0 0)) [] false false.
  (** std::vector<int>::resize *)
  Definition piv_resize (p : list nat) (n : nat) : list nat := firstn n p ++ repeat 0 (n - length p).
  (** setDimension: linear_solver.cpp:169-185 *)
  Definition lu_setDimension (s : lu_sys) (d : nat) : lu_sys * Res unit :=
    if Nat.eqb d 0 then (s, Throw InvalidArgument)
    else (mkLU d (mat_zero d d) (Some (mat_zero d d)) (piv_resize (ls_piv s) d) (ls_done s) (ls_set s), Ok tt).
  (** setMatrix: linear_solver.cpp:208-221 *)
  Definition lu_setMatrix (s : lu_sys) (m : mat T) : lu_sys :=
    mkLU (nrows m) m (Some (mat_zero (nrows m) (nrows m))) (piv_resize (ls_piv s) (nrows m)) false true.
  (** factorize: linear_solver.cpp:234-246 with luNaive matrix.cpp:1518-1539; an empty pivot vector has a null
      data() pointer (libstdc++, never allocated), which luNaive rejects after the square test.  On a failed
      factorisation the pivots keep the permutation reached so far, which is not modelled (left unchanged). *)
  Definition lu_factorize (s : lu_sys) : lu_sys * Res unit :=
    match mat_lu (ls_A s) with
    | Ok r =>
        if Nat.eqb (length (ls_piv s)) 0 then (s, Throw InvalidArgument)
        else match r with
             | Some (lu, p) => (mkLU (ls_dim s) (ls_A s) (Some lu) p true (ls_set s), Ok tt)
             | None => (mkLU (ls_dim s) (ls_A s) None (ls_piv s) false (ls_set s), Ok tt)
             end
    | Throw e => (s, Throw e)
    | UB => (s, UB)
    end.
  (** solveLinearSystem: linear_solver.cpp:249-260 *)
  Definition lu_solveSystem (s : lu_sys) (b : vec T) : Res (vec T) :=
    if negb (Nat.eqb (length b) (ls_dim s)) then Throw InvalidArgument
    else if negb (ls_done s) then Throw AssertFail
    else match ls_fact s with Some lu => mat_solveLU lu (ls_piv s) b | None => UB end.
  Definition lu_sys_step (s : lu_sys) (o : sys_op) : lu_sys :=
    match o with
    | SetDimension d => fst (lu_setDimension s d)
    | SetMatrix m => lu_setMatrix s m
    | Factorize => fst (lu_factorize s)
    end.
  Definition lu_run (ops : list sys_op) (s : lu_sys) : lu_sys := fold_left lu_sys_step ops s.
End LinSolverModel.
Arguments sys_op : clear implicits.
Arguments chol_sys : clear implicits.
Arguments lu_sys : clear implicits.
