(** What the text of a CSV file means, without the functions of the model. *)
From Coq Require Import Ascii String ZArith Bool Arith Reals List.
From Verif Require Import Base Num RealNum MatModel StrModel StrSpec DriverSpec ExtSpec.
Import ListNotations.

(** a text cut at every character [c]; what follows the last [c] counts only if it is not empty *)
Inductive cut (c : ascii) : str -> list str -> Prop :=
| cut_end : cut c [] []
| cut_last a : a <> [] -> ~ In c a -> cut c a [a]
| cut_more a r l : ~ In c a -> cut c r l -> cut c (a ++ c :: r) (a :: l).
Definition newline_char : ascii := ascii_of_nat 10.
(** the lines of a text, and the rows of numbers they hold: every cell starts with a number *)
Definition row_numbers (line : str) (r : list R) : Prop := exists cells, cut ","%char line cells /\ Forall2 number_of cells r.
Definition text_numbers (lines : list str) (rs : list (list R)) : Prop := Forall2 row_numbers lines rs.
(** the matrix with given rows *)
Definition has_rows (m : mat R) (rs : list (list R)) : Prop :=
  nrows m = length rs /\ (forall r, In r rs -> length r = ncols m) /\ length (mdata m) = nrows m * ncols m /\
  forall i j, i < nrows m -> j < ncols m -> mget m i j = nth j (nth i rs []) 0%R.

(** a number in fixed notation with [p] decimals: the nearest multiple of 10^-p; a minus sign for every negative number *)
Definition fixed_text_of (p : nat) (x : R) (t : str) : Prop :=
  exists ip n fp f, decimal ip n /\ ip <> [] /\ decimal fp f /\ length fp = p /\
    t = (if Rltb x 0 then lit "-" else []) ++ ip ++ (match p with 0 => [] | _ => lit "." ++ fp end) /\
    (Rabs (IZR (n * 10 ^ Z.of_nat p + f) - Rabs x * 10 ^ p) <= / 2)%R.
(** a multiple of 10^-p; [y] is the multiple of 10^-p printed for [x] *)
Definition decimals (p : nat) (y : R) : Prop := exists k : Z, y = (IZR k / 10 ^ p)%R.
Definition rounds (p : nat) (x y : R) : Prop := decimals p y /\ (Rabs (y - x) <= / 2 / 10 ^ p)%R.
(** a number small enough for its printed text to be read back *)
Definition in_range (x : R) : Prop := (Rabs x + 1 <= ndblmax)%R.
