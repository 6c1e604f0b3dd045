(** Model of the text of the CSV files: mat::saveAsCSV, mat::readFromCSV (src/LinearAlgebra/matrix.cpp), vec::appendToCSV,
    vec::saveToCSV, vec::readFromCSV (src/LinearAlgebra/vector.cpp).  The file system is the table of texts of ExtModel.  The texts the
    stream operator prints for a number ([fixed p]: std::fixed with std::setprecision(p); [general]: the default format) and the files
    that can be opened for writing ([writable]) are given from outside.  A file that exists can be read; a write never fails half way.
    Line ends are single newline characters. *)
From Coq Require Import Ascii String ZArith Bool Arith List.
From Verif Require Import Base StM Num VecModel MatModel StrModel ExtModel DataModel CorrModel KrigModel.
Import ListNotations.

(** while(std::getline(stream, piece, c)): the pieces between the delimiters; nothing after a final delimiter *)
Fixpoint pieces (c : ascii) (s : str) : list str :=
  match s with
  | [] => []
  | x :: t => if Ascii.eqb x c then [] :: pieces c t
              else match pieces c t with [] => [[x]] | h :: r => (x :: h) :: r end
  end.
Definition nl : ascii := ascii_of_nat 10.
(** the loops that print a separator after every element but the last *)
Fixpoint joined (sep : str) (l : list str) : str :=
  match l with
  | [] => []
  | a :: r => match r with [] => a | _ => a ++ sep ++ joined sep r end
  end.

Section Csv.
  Context {T : Type} {NT : Num T}.
  Context (writable : str -> bool) (fixed : nat -> T -> str) (general : T -> str).

  (** one line of numbers: matrix.cpp:970-978, vector.cpp:682-688 *)
  Definition rowText (p : nat) (r : vec T) : str := joined (lit ",") (map (fixed p) r) ++ newline.
  (** mat::saveAsCSV: matrix.cpp:945-990.  Opening the file empties it *)
  Definition mat_saveAsCSV (name : str) (p : nat) (header : list str) (m : mat T) : SM files unit :=
    run sthrow_if (negb (writable name)) RuntimeError;
    run smod (put name []);
    run sthrow_if (negb (is_empty header) && negb (Nat.eqb (length header) (ncols m))) InvalidArgument;
    smod (put name ((if is_empty header then [] else joined (lit ",") header ++ newline)
                    ++ concat (map (fun i => rowText p (vbuild (ncols m) (fun j => mget m i j))) (seq 0 (nrows m))))).

  (** the loops of mat::readFromCSV over the lines and cells: matrix.cpp:1011-1022 *)
  Fixpoint readRow (cells : list str) : Res (vec T) :=
    match cells with [] => Ok [] | c :: l => v <- stod c ;; r <- readRow l ;; Ok (v :: r) end.
  Fixpoint readRows (lines : list str) : Res (list (vec T)) :=
    match lines with [] => Ok [] | l :: ls => r <- readRow (pieces ","%char l) ;; rs <- readRows ls ;; Ok (r :: rs) end.
  (** the matrix made of the rows: matrix.cpp:1026-1047.  When the rows differ in length the object has its new size but no defined
      contents; the object after an exception is not modelled *)
  Definition fillMatrix (rs : list (vec T)) : Res (mat T) :=
    match rs with
    | [] => Throw RuntimeError
    | r0 :: _ =>
        if forallb (fun r => Nat.eqb (length r) (length r0)) rs then Ok (mbuild (length rs) (length r0) (fun i j => vget (nth i rs []) j))
        else Throw RuntimeError
    end.
  (** mat::readFromCSV: matrix.cpp:993-1048, the contents of the file *)
  Definition csvMatrix (hasHeader : bool) (text : str) : Res (mat T) :=
    let ls := pieces nl text in rs <- readRows (if hasHeader then tl ls else ls) ;; fillMatrix rs.
  Definition mat_readFromCSV (name : str) (hasHeader : bool) : SM files (mat T) :=
    get c <-- sget (fun fs => fs name);
    match c with None => sthrow RuntimeError | Some t => slift (csvMatrix hasHeader t) end.

  (** vec::appendToCSV: vector.cpp:649-690 *)
  Definition vec_appendToCSV (name : str) (p : nat) (v : vec T) : SM files unit :=
    get c <-- sget (fun fs => fs name);
    run match c with
        | None => sret tt
        | Some t => match pieces nl t with
                    | [] => sret tt
                    | l :: _ => sthrow_if (negb (Nat.eqb (length (pieces ","%char l)) (length v))) RuntimeError
                    end
        end;
    run sthrow_if (negb (writable name)) RuntimeError;
    smod (put name (match c with None => [] | Some t => t end ++ rowText p v)).

  (** vec::saveToCSV: vector.cpp:693-706; no newline after the last number *)
  Definition vec_saveToCSV (name : str) (v : vec T) : SM files unit :=
    run sthrow_if (negb (writable name)) RuntimeError;
    smod (put name (joined newline (map general v))).
  (** vec::readFromCSV: vector.cpp:708-731; of every line only the first number is used *)
  Fixpoint readColumn (lines : list str) : Res (vec T) :=
    match lines with
    | [] => Ok []
    | l :: ls => v <- readValues 1 l ;; r <- readColumn ls ;; Ok (v ++ r)
    end.
  Definition vec_readFromCSV (name : str) : SM files (vec T) :=
    get c <-- sget (fun fs => fs name);
    match c with None => sthrow RuntimeError | Some t => slift (readColumn (pieces nl t)) end.

  (** KrigingModel::saveHyperParameters: kriging_training.cpp:327-345 *)
  Definition krig_saveHyper (name : str) (k : krig T) : SM files unit :=
    run sthrow_if (is_empty name) InvalidArgument;
    get h <-- slift (krig_getHyper k);
    vec_saveToCSV name h.
  (** KrigingModel::loadHyperParameters: kriging_training.cpp:347-380; the model after the call and its outcome *)
  Definition krig_loadHyperFile (name : str) (fs : files) : SM (krig T) unit :=
    get k <-- sget (fun k => k);
    run sthrow_if (Nat.eqb (k_dim k) 0) RuntimeError;
    run sthrow_if (is_empty name) InvalidArgument;
    get buf <-- slift (snd (vec_readFromCSV name fs));
    krig_loadHyper buf.
End Csv.
