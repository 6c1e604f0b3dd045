(** What a population file means, without the functions of the model. *)
From Coq Require Import Ascii String ZArith Bool Arith Reals List.
From Verif Require Import Base Num RealNum StrModel StrSpec DriverSpec CsvSpec EaModel.
Import ListNotations.

(** the nearest number with ten significant digits *)
Definition ten_digits_of (x v : R) : Prop :=
  (x = 0 /\ v = 0)%R \/
  exists M E : Z, (1000000000 <= Z.abs M < 10000000000)%Z /\ v = (IZR M * powerRZ 10 E)%R /\ (Rabs (x - v) <= powerRZ 10 E / 2)%R.
(** a number in scientific notation with nine decimals: one digit before the point, an exponent of at least two digits with a sign *)
Definition scientific_text_of (x : R) (t : str) : Prop :=
  exists d fp f (eneg : bool) es e, d < 10 /\ decimal fp f /\ length fp = 9 /\ decimal es e /\ 2 <= length es /\
    t = (if Rltb x 0 then lit "-" else []) ++ [digit d] ++ lit "." ++ fp ++ lit "e" ++ (if eneg then lit "-" else lit "+") ++ es /\
    let M := (Z.of_nat d * 1000000000 + f)%Z in let E := (with_sign eneg e - 9)%Z in
    ((x = 0%R /\ M = 0%Z) \/ (0 < d /\ (Rabs (IZR M * powerRZ 10 E - Rabs x) <= powerRZ 10 E / 2)%R)).
(** a number whose printed text is in the range of double *)
Definition printable (x : R) : Prop := x = 0%R \/ (2 * ndblmin <= Rabs x /\ 2 * Rabs x <= ndblmax)%R.

(** the cells of a line: what stands between its commas; there is always at least one *)
Inductive cells_of : str -> list str -> Prop :=
| cells_last a : ~ In ","%char a -> cells_of a [a]
| cells_more a r l : ~ In ","%char a -> cells_of r l -> cells_of (a ++ ","%char :: r) (a :: l).
(** the k-th token taken from a line: the last cell stands for all the missing ones *)
Definition token (cells : list str) (k : nat) : str := nth k cells (last cells []).
(** the individual of dimension [d] in a line *)
Definition row_of (d : nat) (line : str) (i : ind R) : Prop :=
  exists cells z, cells_of line cells /\ (forall k, k < 5 + d -> token cells k <> []) /\
    integer_text (token cells 0) z /\ Z.of_nat (i_id i) = (z mod 2 ^ 32)%Z /\
    number_of (token cells 1) (i_obj i) /\ number_of (token cells 2) (i_fit i) /\
    number_of (token cells 3) (i_rep i) /\ (0 < i_rep i < 1)%R /\ number_of (token cells 4) (i_death i) /\ (0 <= i_death i <= 1)%R /\
    i_dim i = d /\ length (i_genes i) = d /\ forall k, k < d -> number_of (token cells (5 + k)) (nth k (i_genes i) 0%R).
(** individuals whose line can be read back, and the individual then read *)
Definition keepable (d : nat) (i : ind R) : Prop :=
  (Z.of_nat (i_id i) <= 2147483647)%Z /\ length (i_genes i) = d /\ (forall g, In g (i_genes i) -> printable g) /\
  printable (i_obj i) /\ printable (i_fit i) /\ printable (i_rep i) /\ printable (i_death i) /\
  (0 < i_rep i <= 1 - / 1000000000)%R /\ (0 <= i_death i <= 1)%R.
Definition same_to_ten_digits (i j : ind R) : Prop :=
  i_id j = i_id i /\ i_dim j = length (i_genes i) /\ Forall2 ten_digits_of (i_genes i) (i_genes j) /\
  ten_digits_of (i_obj i) (i_obj j) /\ ten_digits_of (i_fit i) (i_fit j) /\ ten_digits_of (i_rep i) (i_rep j) /\ ten_digits_of (i_death i) (i_death j).
