(** Independent specification of the matrix operations: a matrix seen as the list of its rows / columns. *)
From Coq Require Import List Arith Lia ZArith Bool.
From Verif Require Import Base Num VecModel MatModel.
Import ListNotations.

Section MatSpec.
  Context {T : Type} {NT : Num T}.
  (** the rows and the columns, top to bottom and left to right; entry (i,j) is matrix[j*nrows+i] *)
  Definition rows (m : mat T) : list (list T) := map (fun i => map (fun j => mget m i j) (seq 0 (ncols m))) (seq 0 (nrows m)).
  Definition cols (m : mat T) : list (list T) := map (fun j => map (fun i => mget m i j) (seq 0 (nrows m))) (seq 0 (ncols m)).

  (** invariant of a matrix used as a table: rows have at least one column *)
  Definition table (m : mat T) : Prop := wf m /\ (nrows m > 0 -> ncols m > 0).

  Definition insert_at {A} (p : nat) (x : A) (l : list A) : list A := firstn p l ++ x :: skipn p l.
  Definition remove_at {A} (p : nat) (l : list A) : list A := firstn p l ++ skipn (S p) l.
  Definition replace_at {A} (p : nat) (x : A) (l : list A) : list A := firstn p l ++ x :: skipn (S p) l.
  (** keep the elements whose index (counted from [i0]) is not in [S] *)
  Fixpoint drop_indices {A} (Ix : list Z) (i0 : nat) (l : list A) : list A :=
    match l with
    | [] => []
    | x :: t => if existsb (Z.eqb (Z.of_nat i0)) Ix then drop_indices Ix (i0 + 1) t else x :: drop_indices Ix (i0 + 1) t
    end.

  (** Row edits on a list of rows; [None]: the call is rejected. Index -1 means "end"/"last". *)
  Inductive rowop := AddRow (r : list T) (position : Z) | DelRow (i : Z) | DelRows (Ix : list Z) | SetRow (r : list T) (i : nat).
  Definition fits (r : list T) (rs : list (list T)) : bool :=
    match rs with [] => true | r0 :: _ => Nat.eqb (length r) (length r0) end.
  Definition spec_rowop (rs : list (list T)) (o : rowop) : option (list (list T)) :=
    match o with
    | AddRow r p =>
        let p := if (p =? -1)%Z then Z.of_nat (length rs) else p in
        if ((p <=? Z.of_nat (length rs))%Z && fits r rs)%bool then Some (insert_at (Z.to_nat p) r rs) else None
    | DelRow i =>
        let i := if (i =? -1)%Z then (Z.of_nat (length rs) - 1)%Z else i in
        if (i <? Z.of_nat (length rs))%Z then Some (remove_at (Z.to_nat i) rs) else None
    | DelRows Ix =>
        if forallb (fun i => (0 <=? i) && (i <? Z.of_nat (length rs)))%Z Ix then Some (drop_indices Ix 0 rs) else None
    | SetRow r i =>
        if (Nat.ltb i (length rs) && fits r rs)%bool then Some (replace_at i r rs) else None
    end.
  (** arguments for which the C++ call has defined behaviour in a state with [n] rows *)
  Definition rowop_defined (n : nat) (o : rowop) : Prop :=
    match o with
    | AddRow r p => (-1 <= p)%Z /\ r <> []
    | DelRow i => (-1 <= i)%Z /\ (i = (-1)%Z -> 0 < n)
    | DelRows _ => True
    | SetRow r i => True
    end.
  (** the modelled C++ call *)
  Definition run_rowop (m : mat T) (o : rowop) : mat T * Res unit :=
    match o with
    | AddRow r p => mat_addRow m r p
    | DelRow i => mat_deleteRow m i
    | DelRows Ix => mat_deleteRows m Ix
    | SetRow r i => match mat_setRow m r i with Ok m' => (m', Ok tt) | Throw e => (m, Throw e) | UB => (m, UB) end
    end.
  (** a sequence of row edits, with the list of "accepted" flags *)
  Fixpoint spec_run (rs : list (list T)) (ops : list rowop) : list (list T) * list bool :=
    match ops with
    | [] => (rs, [])
    | o :: t => match spec_rowop rs o with
                | Some rs' => let '(r, l) := spec_run rs' t in (r, true :: l)
                | None => let '(r, l) := spec_run rs t in (r, false :: l)
                end
    end.
  Fixpoint ops_defined (rs : list (list T)) (ops : list rowop) : Prop :=
    match ops with
    | [] => True
    | o :: t => rowop_defined (length rs) o /\ ops_defined (match spec_rowop rs o with Some rs' => rs' | None => rs end) t
    end.
  (** the C++ object after the calls (a throwing call leaves its state), and which calls returned normally;
      [None] if some call was undefined *)
  Fixpoint run_ops (m : mat T) (ops : list rowop) : option (mat T * list bool) :=
    match ops with
    | [] => Some (m, [])
    | o :: t => match run_rowop m o with
                | (_, UB) => None
                | (m', Ok _) => match run_ops m' t with Some (r, l) => Some (r, true :: l) | None => None end
                | (m', Throw _) => match run_ops m' t with Some (r, l) => Some (r, false :: l) | None => None end
                end
    end.
End MatSpec.
