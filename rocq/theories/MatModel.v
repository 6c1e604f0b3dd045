(** Model of class mat, /repo/src/LinearAlgebra/matrix.cpp: nrows, ncols and the column-major array,
    entry (row,col) stored at matrix[col*nrows+row].  The "Naive" code paths are modelled (OPENBLAS undefined). *)
From Coq Require Import List Arith Lia ZArith Bool.
From Verif Require Import Base Num VecModel.
Import ListNotations.

Record mat (T : Type) := mkMat { nrows : nat; ncols : nat; mdata : list T }.
Arguments mkMat {T}. Arguments nrows {T}. Arguments ncols {T}. Arguments mdata {T}.

(** std::sort followed by std::unique on a vector<int> (matrix.cpp:329-332) *)
Fixpoint zinsert (x : Z) (l : list Z) : list Z :=
  match l with
  | [] => [x]
  | y :: t => if (y <? x)%Z then y :: zinsert x t else x :: l
  end.
Definition zsort (l : list Z) : list Z := fold_right zinsert [] l.
Fixpoint zunique (l : list Z) : list Z :=
  match l with
  | x :: ((y :: _) as t) => if (x =? y)%Z then zunique t else x :: zunique t
  | _ => l
  end.

Section MatModel.
  Context {T : Type} `{NT : Num T}.

  (** class invariant: the allocated array has nrows*ncols elements *)
  Definition wf (m : mat T) : Prop := length (mdata m) = nrows m * ncols m.

  (** matrix[j*nrows+i] (raw access) *)
  Definition mget (m : mat T) (i j : nat) : T := nth (j * nrows m + i) (mdata m) n0.
  Definition mset (m : mat T) (i j : nat) (x : T) : mat T :=
    mkMat (nrows m) (ncols m) (upd (mdata m) (j * nrows m + i) x).
  (** a fresh r x c array all of whose entries are written: entry (i,j) = f i j *)
  Definition mbuild (r c : nat) (f : nat -> nat -> T) : mat T :=
    mkMat r c (flat_map (fun j => map (fun i => f i j) (seq 0 r)) (seq 0 c)).
  (** mat(): 70-71; mat(rows,cols): 60-63; mat(rows,cols,val): 75-79 *)
  Definition mat_empty : mat T := mkMat 0 0 [].
  Definition mat_zero (r c : nat) : mat T := mkMat r c (repeat n0 (r * c)).
  Definition mat_const (r c : nat) (x : T) : mat T := mkMat r c (repeat x (r * c)).
  (** isEmpty: matrix.hpp:100-103 *)
  Definition mat_isEmpty (m : mat T) : bool := (Nat.eqb (nrows m) 0 || Nat.eqb (ncols m) 0)%bool.

  (** operator()(row,col): matrix.cpp:145-157 *)
  Definition mat_at (m : mat T) (i j : nat) : Res T :=
    if (Nat.leb (nrows m) i || Nat.leb (ncols m) j)%bool then Throw OutOfRange else Ok (mget m i j).

  (** submat: matrix.cpp:159-185 *)
  Definition mat_submat (m : mat T) (r0 r1 c0 c1 : nat) : Res (mat T) :=
    if (Nat.leb (nrows m) r0 || Nat.leb (nrows m) r1 || Nat.leb (ncols m) c0 || Nat.leb (ncols m) c1
        || Nat.ltb r1 r0 || Nat.ltb c1 c0)%bool
    then Throw InvalidArgument
    else Ok (mbuild (r1 - r0 + 1) (c1 - c0 + 1) (fun i j => mget m (r0 + i) (c0 + j))).

  (** addRow: matrix.cpp:188-228.  Returns the object after the call and the outcome.
      position = -1 means "at the end"; any other negative position writes in front of the array (UB)
      unless there are no columns.  On an empty matrix ncols is overwritten before the checks; if the matrix had
      rows but no columns the old array is then too short for the copy (UB). *)
  Definition mat_addRow (m : mat T) (r : vec T) (position : Z) : mat T * Res unit :=
    let position := if (position =? -1)%Z then Z.of_nat (nrows m) else position in
    let m := if mat_isEmpty m then mkMat (nrows m) (length r) (mdata m) else m in
    if (Z.of_nat (nrows m) <? position)%Z then (m, Throw InvalidArgument)
    else if negb (Nat.eqb (length r) (ncols m)) then (m, Throw InvalidArgument)
    else if ((position <? 0)%Z || Nat.ltb (length (mdata m)) (nrows m * ncols m))%bool then (m, UB)
    else
      let p := Z.to_nat position in
      (mbuild (nrows m + 1) (ncols m)
         (fun i j => if Nat.ltb i p then mget m i j else if Nat.eqb i p then vget r j else mget m (i - 1) j), Ok tt).

  (** addColumn: matrix.cpp:231-276 *)
  Definition mat_addColumn (m : mat T) (c : vec T) (position : Z) : mat T * Res unit :=
    let position := if (position =? -1)%Z then Z.of_nat (ncols m) else position in
    let m := if mat_isEmpty m then mkMat (length c) (ncols m) (mdata m) else m in
    if (Z.of_nat (ncols m) <? position)%Z then (m, Throw InvalidArgument)
    else if negb (Nat.eqb (length c) (nrows m)) then (m, Throw InvalidArgument)
    else if ((position <? 0)%Z || Nat.ltb (length (mdata m)) (nrows m * ncols m))%bool then (m, UB)
    else
      let p := Z.to_nat position in
      (mbuild (nrows m) (ncols m + 1)
         (fun i j => if Nat.ltb j p then mget m i j else if Nat.eqb j p then vget c i else mget m i (j - 1)), Ok tt).

  (** deleteRow: matrix.cpp:279-320.  -1 is the last row; other negative values leave rows uninitialised (UB).
      On a matrix without rows [nrows-1] wraps around: UB. *)
  Definition mat_deleteRow (m : mat T) (rowIndex : Z) : mat T * Res unit :=
    let r := if (rowIndex =? -1)%Z then (Z.of_nat (nrows m) - 1)%Z else rowIndex in
    if (Z.of_nat (nrows m) <=? r)%Z then (m, Throw OutOfRange)
    else if Nat.eqb (nrows m) 0 then (m, UB)
    else if Nat.ltb 0 (nrows m - 1) then
      if (r <? 0)%Z then (m, UB)
      else
        let p := Z.to_nat r in
        (mbuild (nrows m - 1) (ncols m) (fun i j => if Nat.ltb i p then mget m i j else mget m (i + 1) j), Ok tt)
    else (mat_empty, Ok tt).

  (** deleteRows: matrix.cpp:322-373.  The copying loop (358-367) walks the old rows with a cursor into the
      sorted unique indices: state (new row counter, cursor, new array). *)
  Definition mat_deleteRows (m : mat T) (rowIndices : list Z) : mat T * Res unit :=
    match rowIndices with
    | [] => (m, Ok tt)
    | _ =>
      let s := zunique (zsort rowIndices) in
      if ((Z.of_nat (nrows m) <=? last s 0%Z) || (hd 0%Z s <? 0))%Z%bool then (m, Throw OutOfRange)
      else
        let newRowCount := nrows m - length s in
        if Nat.eqb newRowCount 0 then (mat_empty, Ok tt)
        else
          let '(_, _, res) :=
            loop (nrows m)
              (fun oldRow '(newRow, deleteIndex, res) =>
                 if (Nat.ltb deleteIndex (length s) && (Z.of_nat oldRow =? nth deleteIndex s 0)%Z)%bool
                 then (newRow, S deleteIndex, res)
                 else (S newRow, deleteIndex,
                       loop (ncols m) (fun col r => mset r newRow col (mget m oldRow col)) res))
              (0, 0, mat_zero newRowCount (ncols m)) in
          (res, Ok tt)
    end.

  (** resize: matrix.cpp:377-402 *)
  Definition mat_resize (m : mat T) (r c : nat) : mat T :=
    mbuild r c (fun i j => if (Nat.ltb i (Nat.min (nrows m) r) && Nat.ltb j (Nat.min (ncols m) c))%bool
                           then mget m i j else n0).

  (** fill: matrix.cpp:405-407 *)
  Definition mat_fill (m : mat T) (x : T) : mat T := mat_const (nrows m) (ncols m) x.

  (** fillRandom(a,b): matrix.cpp:415-429; [u k] = rand()/RAND_MAX of the k-th call, in [0,1] *)
  Definition mat_fillRandom (m : mat T) (a b : T) (u : nat -> T) : Res (mat T) :=
    if a >=! b then Throw InvalidArgument
    else Ok (mkMat (nrows m) (ncols m) (map (fun k => u k *! (b -! a) +! a) (seq 0 (nrows m * ncols m)))).
  (** fillRandom(lb,ub) with vec: matrix.cpp:431-446, and with std::vector: 448-468.
      [u row col] is the draw used for that entry.  Outcome only: columns before a rejected one are already
      overwritten when it throws (not modelled). *)
  Definition mat_fillRandomV (m : mat T) (lb ub : vec T) (u : nat -> nat -> T) : Res (mat T) :=
    if negb (Nat.eqb (length lb) (ncols m) && Nat.eqb (length ub) (ncols m)) then Throw InvalidArgument
    else if existsb (fun j => vget lb j >! vget ub j) (seq 0 (ncols m)) then Throw InvalidArgument
    else Ok (mbuild (nrows m) (ncols m) (fun i j => vget lb j +! u i j *! (vget ub j -! vget lb j))).
  (** fillRandomLHS: matrix.cpp:471-505 and 508-542.  [u row col] are the draws in [0,1) and
      [perm col] the permutation of 0..nrows-1 applied by std::shuffle to column col. *)
  Definition mat_fillRandomLHS (m : mat T) (lb ub : vec T) (u : nat -> nat -> T) (perm : nat -> list nat) : Res (mat T) :=
    if negb (Nat.eqb (length lb) (ncols m) && Nat.eqb (length ub) (ncols m)) then Throw InvalidArgument
    else if existsb (fun j => vget lb j >! vget ub j) (seq 0 (ncols m)) then Throw InvalidArgument
    else
      let intervalSize j := (vget ub j -! vget lb j) /! nofnat (nrows m) in
      let intervals j := vbuild (nrows m) (fun row =>
            let lower := vget lb j +! nofnat row *! intervalSize j in
            let upper := vget lb j +! nofnat (row + 1) *! intervalSize j in
            unif lower upper (u row j)) in
      Ok (mbuild (nrows m) (ncols m) (fun i j => vget (intervals j) (nth i (perm j) 0))).

  (** eye: matrix.cpp:544-554 *)
  Definition mat_eye (m : mat T) : Res (mat T) :=
    if negb (Nat.eqb (nrows m) (ncols m)) then Throw InvalidArgument
    else Ok (loop (nrows m) (fun row a => mset a row row n1) m).

  (** getCol: matrix.cpp:557-575.  On a matrix without columns, -1 stays -1: reads in front of the array
      (UB) when there are rows. *)
  Definition mat_getCol (m : mat T) (c : Z) : Res (vec T) :=
    if (Z.of_nat (ncols m) <=? c)%Z then Throw OutOfRange
    else if (c <? -1)%Z then Throw InvalidArgument
    else let c := if (c =? -1)%Z then (Z.of_nat (ncols m) - 1)%Z else c in
         if (c <? 0)%Z then (if Nat.eqb (nrows m) 0 then Ok [] else UB)
         else Ok (vbuild (nrows m) (fun i => mget m i (Z.to_nat c))).
  (** setCol: matrix.cpp:578-590 *)
  Definition mat_setCol (m : mat T) (v : vec T) (c : nat) : Res (mat T) :=
    if Nat.leb (ncols m) c then Throw OutOfRange
    else if negb (Nat.eqb (length v) (nrows m)) then Throw InvalidArgument
    else Ok (loop (nrows m) (fun i a => mset a i c (vget v i)) m).
  (** getRow: matrix.cpp:592-610 *)
  Definition mat_getRow (m : mat T) (r : Z) : Res (vec T) :=
    if (Z.of_nat (nrows m) <=? r)%Z then Throw OutOfRange
    else if (r <? -1)%Z then Throw InvalidArgument
    else let r := if (r =? -1)%Z then (Z.of_nat (nrows m) - 1)%Z else r in
         if (r <? 0)%Z then (if Nat.eqb (ncols m) 0 then Ok [] else UB)
         else Ok (vbuild (ncols m) (fun j => mget m (Z.to_nat r) j)).
  (** setRow: matrix.cpp:613-625 *)
  Definition mat_setRow (m : mat T) (v : vec T) (r : nat) : Res (mat T) :=
    if Nat.leb (nrows m) r then Throw OutOfRange
    else if negb (Nat.eqb (length v) (ncols m)) then Throw InvalidArgument
    else Ok (loop (ncols m) (fun j a => mset a r j (vget v j)) m).
  (** row i as a vector, i in range: the value computed by getRow (592-610) *)
  Definition mrow (m : mat T) (i : nat) : vec T := vbuild (ncols m) (fun j => mget m i j).

  (** diag: matrix.cpp:628-642 (reads matrix[i*(nrows+1)]) *)
  Definition mat_diag (m : mat T) : Res (vec T) :=
    if negb (Nat.eqb (nrows m) (ncols m)) then Throw InvalidArgument
    else if mat_isEmpty m then Throw InvalidArgument
    else Ok (vbuild (nrows m) (fun i => nth (i * (nrows m + 1)) (mdata m) n0)).
  (** isSymmetric: matrix.cpp:645-664 *)
  Definition mat_isSymmetric (m : mat T) (tol : T) : Res bool :=
    if tol <! n0 then Throw InvalidArgument
    else if negb (Nat.eqb (nrows m) (ncols m)) then Ok false
    else Ok (forallb (fun i => forallb (fun d => let j := i + 1 + d in
                                         negb (nabs (mget m i j -! mget m j i) >! tol))
                                       (seq 0 (ncols m - (i + 1)))) (seq 0 (nrows m))).
  (** isEqual: matrix.cpp:667-679 *)
  Definition mat_isEqual (m o : mat T) (tol : T) : bool :=
    if negb (Nat.eqb (nrows m) (nrows o) && Nat.eqb (ncols m) (ncols o)) then false
    else forallb (fun k => negb (nabs (nth k (mdata m) n0 -! nth k (mdata o) n0) >! tol)) (seq 0 (nrows m * ncols m)).

  (** matVecProduct(Naive): matrix.cpp:1058-1098 *)
  Definition mat_vec (m : mat T) (v : vec T) : Res (vec T) :=
    if negb (Nat.eqb (length v) (ncols m)) then Throw InvalidArgument
    else Ok (vbuild (nrows m) (fun i => nsum (ncols m) (fun j => mget m i j *! vget v j))).
  (** transpose(Naive): matrix.cpp:1100-1115 *)
  Definition mat_transpose (m : mat T) : mat T := mbuild (ncols m) (nrows m) (fun i j => mget m j i).
  (** operator+, operator-: matrix.cpp:1195-1216; operator*(double): 1227-1233 *)
  Definition mat_add (m o : mat T) : Res (mat T) :=
    if negb (Nat.eqb (nrows m) (nrows o) && Nat.eqb (ncols m) (ncols o)) then Throw InvalidArgument
    else Ok (mkMat (nrows m) (ncols m) (vbuild (nrows m * ncols m) (fun k => nth k (mdata m) n0 +! nth k (mdata o) n0))).
  Definition mat_sub (m o : mat T) : Res (mat T) :=
    if negb (Nat.eqb (nrows m) (nrows o) && Nat.eqb (ncols m) (ncols o)) then Throw InvalidArgument
    else Ok (mkMat (nrows m) (ncols m) (vbuild (nrows m * ncols m) (fun k => nth k (mdata m) n0 -! nth k (mdata o) n0))).
  Definition mat_scale (m : mat T) (a : T) : mat T :=
    mkMat (nrows m) (ncols m) (vbuild (nrows m * ncols m) (fun k => a *! nth k (mdata m) n0)).
  (** matMatProduct(Naive), operator*: matrix.cpp:1219-1225, 1240-1272 *)
  Definition mat_mul (m o : mat T) : Res (mat T) :=
    if negb (Nat.eqb (ncols m) (nrows o)) then Throw InvalidArgument
    else Ok (mbuild (nrows m) (ncols o) (fun i j => nsum (ncols m) (fun k => mget m i k *! mget o k j))).
  (** addEpsilonToDiagonal: matrix.cpp:1347-1352 *)
  Definition mat_addEps (m : mat T) (eps : T) : mat T :=
    loop (Nat.min (nrows m) (ncols m)) (fun i a => mset a i i (mget a i i +! eps)) m.

  (** choleskyNaive: matrix.cpp:1156-1191.  The result is the pair (ret, L).  The doubly nested loop stops at
      the first negative pivot: state [Some L] while running, [None] after "ret = -1; return L"; the returned
      partial L is dropped (callers only look at ret, linear_solver.cpp:126-144). *)
  Definition chol_entry (A L : mat T) (i j : nat) : option (mat T) :=
    let sum := nsum j (fun k => mget L i k *! mget L j k) in
    if Nat.eqb i j then
      let fac := mget A i i -! sum in
      if fac <! n0 then None else Some (mset L i j (nsqrt fac))
    else Some (mset L i j (n1 /! mget L j j *! (mget A i j -! sum))).
  Definition chol_row (A : mat T) (i : nat) (st : option (mat T)) : option (mat T) :=
    loop (i + 1) (fun j st => match st with None => None | Some L => chol_entry A L i j end) st.
  Definition chol_loop (A : mat T) (n : nat) : option (mat T) :=
    loop n (fun i st => chol_row A i st) (Some (mat_zero n n)).
  Definition zero_upper (L : mat T) : mat T :=
    loop (nrows L) (fun i a => loop_from (i + 1) (ncols L) (fun j b => mset b i j n0) a) L.
  (** cholesky: matrix.cpp:1117-1128 *)
  Definition mat_cholesky (A : mat T) : Res (option (mat T)) :=
    if negb (Nat.eqb (nrows A) (ncols A)) then Throw InvalidArgument
    else Ok (option_map zero_upper (chol_loop A (nrows A))).

  (** solveCholeskyNaive: matrix.cpp:1318-1344 *)
  Definition chol_forward (L : mat T) (b : vec T) (n : nat) : vec T :=
    loop n (fun i y => upd y i ((vget b i -! nsum i (fun j => mget L i j *! vget y j)) /! mget L i i)) (repeat n0 n).
  Definition chol_backward (L : mat T) (y : vec T) (n : nat) : vec T :=
    loop_down n (fun i x => upd x i ((vget y i -! nsum (n - (i + 1)) (fun d => mget L (i + 1 + d) i *! vget x (i + 1 + d)))
                                     /! mget L i i)) (repeat n0 n).
  (** solveCholesky: matrix.cpp:1284-1296 *)
  Definition mat_solveCholesky (L : mat T) (b : vec T) : Res (vec T) :=
    if negb (Nat.eqb (nrows L) (ncols L) && Nat.eqb (nrows L) (length b)) then Throw InvalidArgument
    else Ok (chol_backward L (chol_forward L b (nrows L)) (nrows L)).

  (** lu_decomposition: matrix.cpp:1591-1650. State: lu array and permutation p. *)
  Definition lu_pivot (lu : mat T) (k n : nat) : nat :=
    loop_from (k + 1) n (fun i mr => if nabs (mget lu i k) >! nabs (mget lu mr k) then i else mr) k.
  Definition lu_swap (lu : mat T) (p : list nat) (k r n : nat) : mat T * list nat :=
    if Nat.eqb r k then (lu, p)
    else (loop n (fun j a => let temp := mget a k j in mset (mset a k j (mget a r j)) r j temp) lu,
          upd (upd p k (nth r p 0)) r (nth k p 0)).
  Definition lu_elim (lu : mat T) (k n : nat) : mat T :=
    let l1 := loop_from (k + 1) n (fun i a => mset a i k (mget a i k /! mget a k k)) lu in
    loop_from (k + 1) n (fun j a => loop_from (k + 1) n (fun i b => mset b i j (mget b i j -! mget b i k *! mget b k j)) a) l1.
  Definition lu_step (n k : nat) (st : option (mat T * list nat)) : option (mat T * list nat) :=
    match st with
    | None => None
    | Some (lu, p) =>
        let '(lu, p) := lu_swap lu p k (lu_pivot lu k n) n in
        if nabs (mget lu k k) <! nlit 10 (-10) then None else Some (lu_elim lu k n, p)
    end.
  Definition lu_decomposition (A : mat T) (n : nat) : option (mat T * list nat) :=
    loop n (lu_step n) (Some (A, seq 0 n)).
  (** lu/luNaive: matrix.cpp:1427-1440, 1518-1539; [None] is return_value = -1 (and a null array) *)
  Definition mat_lu (A : mat T) : Res (option (mat T * list nat)) :=
    if negb (Nat.eqb (nrows A) (ncols A)) then Throw InvalidArgument
    else Ok (lu_decomposition A (nrows A)).
  (** forward_substitution: matrix.cpp:1666-1679 *)
  Definition lu_forward (LU : mat T) (p : list nat) (b : vec T) (n : nat) : vec T :=
    let y0 := vbuild n (fun i => vget b (nth i p 0)) in
    loop n (fun i y => loop i (fun j z => upd z i (vget z i -! mget LU i j *! vget z j)) y) y0.
  (** backward_substitution: matrix.cpp:1681-1690 *)
  Definition lu_backward (LU : mat T) (y : vec T) (n : nat) : vec T :=
    loop_down n (fun i x =>
      let x := upd x i (vget y i) in
      let x := loop_from (i + 1) n (fun j z => upd z i (vget z i -! mget LU i j *! vget z j)) x in
      upd x i (vget x i /! mget LU i i)) (repeat n0 n).
  (** solveLUNaive / lu_solve: matrix.cpp:1542-1555, 1651-1665 *)
  Definition mat_solveLU (LU : mat T) (p : list nat) (b : vec T) : Res (vec T) :=
    if negb (Nat.eqb (nrows LU) (ncols LU) && Nat.eqb (nrows LU) (length b)) then Throw InvalidArgument
    else Ok (lu_backward LU (lu_forward LU p b (nrows LU)) (nrows LU)).
  (** invert/invertNaive: matrix.cpp:1355-1395.  For n = 0 the pivot array std::vector<int>(0).data() is null
      (libstdc++), which luNaive (1523-1525) rejects. *)
  Definition mat_invert (A : mat T) : Res (mat T) :=
    if negb (Nat.eqb (nrows A) (ncols A)) then Throw InvalidArgument
    else if Nat.eqb (nrows A) 0 then Throw InvalidArgument
    else
      let n := nrows A in
      match lu_decomposition A n with
      | None => Throw RuntimeError
      | Some (LU, p) =>
          Ok (loop n (fun i inv =>
                let col := lu_backward LU (lu_forward LU p (upd (repeat n0 n) i n1) n) n in
                loop n (fun j a => mset a j i (vget col j)) inv) (mat_zero n n))
      end.

  (** shuffleRows: matrix.cpp:1726-1755; [perm] is the shuffled row index list *)
  Definition mat_shuffleRows (m : mat T) (perm : list nat) : mat T :=
    mbuild (nrows m) (ncols m) (fun i j => mget m (nth i perm 0) j).
  (** row i of m matches v within tol: the inner loops of matrix.cpp:1764-1770 and 1787-1795 *)
  Definition row_matches (m : mat T) (v : vec T) (tol : T) (i : nat) : bool :=
    forallb (fun j => negb (nabs (mget m i j -! vget v j) >! tol)) (seq 0 (ncols m)).
  (** isRowInMatrix: matrix.cpp:1758-1777 *)
  Definition mat_isRowIn (m : mat T) (v : vec T) (tol : T) : bool :=
    if negb (Nat.eqb (length v) (ncols m)) then false
    else existsb (row_matches m v tol) (seq 0 (nrows m)).
  (** findRowIndex: matrix.cpp:1780-1802 *)
  Definition mat_findRowIndex (m : mat T) (v : vec T) (tol : T) : Res Z :=
    if negb (Nat.eqb (length v) (ncols m)) then Throw InvalidArgument
    else match find (row_matches m v tol) (seq 0 (nrows m)) with
         | Some i => Ok (Z.of_nat i)
         | None => Ok (-1)%Z
         end.
  (** normalizeMatrix: matrix.cpp:1805-1841 *)
  Definition mat_normalize (m : mat T) (xmin xmax : vec T) : Res (mat T) :=
    let dim := length xmin in
    if negb (Nat.eqb dim (length xmax)) then Throw InvalidArgument
    else if negb (Nat.eqb dim (ncols m)) then Throw InvalidArgument
    else if existsb (fun i => vget xmin i >=! vget xmax i) (seq 0 dim) then Throw InvalidArgument
    else Ok (mat_scale (mbuild (nrows m) (ncols m)
                          (fun i j => (mget m i j -! vget xmin j) /! (vget xmax j -! vget xmin j)))
                       (n1 /! nofnat dim)).
  (** concatenateRowWise: matrix.cpp:1861-1895 *)
  Definition mat_concatRows (m o : mat T) : Res (mat T) :=
    if Nat.eqb (nrows m) 0 then Ok o
    else if Nat.eqb (nrows o) 0 then Ok m
    else if negb (Nat.eqb (ncols m) (ncols o)) then Throw InvalidArgument
    else Ok (mbuild (nrows m + nrows o) (ncols m)
               (fun i j => if Nat.ltb i (nrows m) then mget m i j else mget o (i - nrows m) j)).
  (** concatenateColumnWise: matrix.cpp:1898-1933 *)
  Definition mat_concatCols (m o : mat T) : Res (mat T) :=
    if Nat.eqb (ncols m) 0 then Ok o
    else if Nat.eqb (ncols o) 0 then Ok m
    else if negb (Nat.eqb (nrows m) (nrows o)) then Throw InvalidArgument
    else Ok (mbuild (nrows m) (ncols m + ncols o)
               (fun i j => if Nat.ltb j (ncols m) then mget m i j else mget o i (j - ncols m))).
End MatModel.

Section CorrMat.
  Context {T : Type} `{NT : Num T} `{NF : NumFun T}.
  (** the loops shared by computeCorrelationMatrix{Exponential,Gaussian}Naive: matrix.cpp:745-774, 830-859 *)
  Definition corr_loops (X : mat T) (corr : vec T -> vec T -> T) : mat T :=
    let n := nrows X in
    let R0 := loop n (fun i a => mset a i i n1) (mat_zero n n) in
    loop n (fun i a => loop i (fun j b =>
        let c := corr (mrow X i) (mrow X j) in mset (mset b j i c) i j c) a) R0.
  (** computeCorrelationMatrixExponential: matrix.cpp:725-742 *)
  Definition corrmat_exp (X : mat T) (theta gamma : vec T) : Res (mat T) :=
    if negb (Nat.eqb (length theta) (length gamma)) then Throw InvalidArgument
    else if negb (Nat.eqb (ncols X) (length theta)) then Throw InvalidArgument
    else Ok (corr_loops X (fun a b => exp_corr a b theta gamma (ncols X))).
  (** computeCorrelationMatrixGaussian: matrix.cpp:813-827 *)
  Definition corrmat_gauss (X : mat T) (theta : vec T) : Res (mat T) :=
    if negb (Nat.eqb (ncols X) (length theta)) then Throw InvalidArgument
    else Ok (corr_loops X (fun a b => gauss_corr a b theta (ncols X))).
End CorrMat.
