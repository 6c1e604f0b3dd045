(** Model of the files and texts made of a design: Design::saveDesignVector, saveDesignVectorAsCSVFile, saveToAFile,
    generateFormattedString, generateOutputString (src/Design/design.cpp:537-680; the function generateFormattedString of
    src/Optimizers/aux.cpp:71-91 and of src/ObjectiveFunctions/objective_function.cpp:891-912 is the same text).
    The file system is the table of texts of ExtModel; [writable]: the files that can be opened for writing, [general p]: the text a stream
    prints for a number in the default format with p digits, [fixed p]: with std::fixed and p decimals (std::to_string is [fixed 6]).
    A write never fails half way. *)
From Coq Require Import Ascii String ZArith Bool Arith List.
From Verif Require Import Base StM Num VecModel DesignModel StrModel ExtModel CsvModel.
Import ListNotations.

(** int numEquals = static_cast<int>((totalLength - msg.length() - 2) / 2): the difference is a 64 bit unsigned number, the conversion
    keeps the low 32 bits (design.cpp:546, aux.cpp:80) *)
Definition border_size (total len : Z) : Z :=
  let q := (((total - len - 2) mod 2 ^ 64) / 2)%Z in ((q + 2 ^ 31) mod 2 ^ 32 - 2 ^ 31)%Z.
(** std::string(n, c) for an int n: a negative number becomes a huge size, which is refused with std::length_error, a std::logic_error *)
Definition repeated (n : Z) (c : ascii) : Res str := if (n <? 0)%Z then Throw LogicError else Ok (repeat c (Z.to_nat n)).
(** generateFormattedString: design.cpp:537-557, aux.cpp:71-91 *)
Definition formattedString (msg : str) (c : ascii) (total : Z) : Res str :=
  if (total <? 0)%Z then Throw InvalidArgument
  else
    let m := if Nat.eqb (length msg mod 2) 1 then msg ++ lit " " else msg in
    b <- repeated (border_size total (Z.of_nat (length m))) c ;;
    Ok (b ++ lit " " ++ m ++ lit " " ++ b).
(** generateFormattedString of one argument: aux.cpp:94-113; the width is 120 *)
Definition boxedString (content : str) : Res str :=
  if Nat.ltb 120 (length content) then Throw InvalidArgument
  else
    let p := (120 - length content) / 2 in let extra := (120 - length content) mod 2 in
    let border := repeat "*"%char 120 in
    Ok (border ++ newline ++ repeat " "%char p ++ content ++ repeat " "%char (p + extra) ++ newline ++ border).

Section DesignFile.
  Context {T : Type} {NT : Num T}.
  Context (writable : str -> bool) (general fixed : nat -> T -> str).

  (** saveDesignVector: 664-680 *)
  Definition saveDesignVector (name : str) (d : design T) : SM files unit :=
    run sthrow_if (is_empty name) InvalidArgument;
    run sthrow_if (negb (writable name)) RuntimeError;
    smod (put name (concat (map (fun a => general 10 a ++ newline) (ds_x d)))).
  (** saveDesignVectorAsCSVFile: 642-661.  Opening the file empties it.  Without parameters the loop runs to 2^32 - 1 and its first
      access is out of range *)
  Definition saveDesignVectorCsv (name : str) (d : design T) : SM files unit :=
    run sthrow_if (is_empty name) InvalidArgument;
    run sthrow_if (negb (writable name)) RuntimeError;
    run smod (put name []);
    match ds_x d with
    | [] => slift (v <- vec_at (ds_x d) 0 ;; Ok tt)
    | x => smod (put name (joined (lit ",") (map (general 10) x)))
    end.
  (** saveToAFile: 599-640; it is not checked whether the file could be opened *)
  Definition designFileText (tag : str) (d : design T) : str :=
    tag ++ newline ++ lit "Design parameters vector:" ++ newline ++ concat (map (general 6) (ds_x d)) ++
    lit "Objective function = " ++ fixed 6 (ds_f d) ++ newline ++
    (if Nat.eqb (ds_nc d) 0 then [] else lit "Constraint values vector:" ++ newline ++ concat (map (fixed 6) (ds_con d))) ++
    lit "Feasibility = " ++ (if ds_feas d then lit "YES" else lit "NO") ++ newline.
  Definition saveToAFile (name tag : str) (d : design T) : SM files unit :=
    run sthrow_if (is_empty name) InvalidArgument;
    swhen (writable name) (smod (put name (designFileText tag d))).
  (** generateOutputString: 560-595; parameter i is read for i < dimension *)
  Fixpoint numbersText (x : vec T) (is : list nat) : Res str :=
    match is with [] => Ok [] | i :: is => v <- vec_at x i ;; r <- numbersText x is ;; Ok (fixed 6 v ++ lit " " ++ r) end.
  Definition outputString (tag : str) (d : design T) : Res str :=
    h <- formattedString tag "-"%char 100 ;;
    p <- numbersText (ds_x d) (seq 0 (ds_dim d)) ;;
    c <- numbersText (ds_con d) (seq 0 (length (ds_con d))) ;;
    Ok (h ++ newline ++ lit "Design parameters = " ++ newline ++ p ++ newline ++
        lit "Objective function value : " ++ fixed 6 (ds_f d) ++ newline ++
        (match ds_con d with [] => [] | _ => lit "Constraint values = " ++ newline ++ c ++ newline end) ++
        repeat "-"%char 100 ++ newline).
End DesignFile.
