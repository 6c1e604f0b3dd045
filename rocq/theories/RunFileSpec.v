(** What the files of an optimisation hold, without the functions of the model. *)
From Coq Require Import Ascii String ZArith Bool Arith Reals List.
From Verif Require Import Base Num RealNum MatModel HistSpec OptModel OptSpec StrModel StrSpec ExtModel CsvSpec RunFileModel.
Import ListNotations.

Definition newline_text : str := [newline_char].
(** cells separated by commas *)
Inductive comma_line : list str -> str -> Prop :=
| cl_one a : comma_line [a] a
| cl_more a l t : comma_line l t -> comma_line (a :: l) (a ++ lit "," ++ t).
(** a line of numbers with six decimals *)
Definition number_line (r : list R) (t : str) : Prop := exists cells, Forall2 (fixed_text_of 6) r cells /\ comma_line cells t.
(** a table with named columns: one line for the names, one line for every row *)
Definition table_text (cols : list str) (rs : list (list R)) (t : str) : Prop :=
  exists h ls, comma_line cols h /\ Forall2 number_line rs ls /\ t = h ++ newline_text ++ concat (map (fun l => l ++ newline_text) ls).
(** the text of a non-negative integer *)
Definition count_text (n : nat) (t : str) : Prop := decimal t (Z.of_nat n) /\ t <> [].
(** the columns of the history: parameters (named by the user, or x1, x2, ...), objective, constraints, improvement, feasibility *)
Definition column_names (user cons : list str) (d : nat) (cols : list str) : Prop :=
  exists ps, cols = ps ++ [lit "Objective"] ++ cons ++ [lit "Improvement"; lit "Feasibility"] /\ length ps = d /\
    (if is_empty user then forall i, i < d -> exists t, count_text (S i) t /\ nth i ps [] = lit "x" ++ t else ps = user).

(** the list of numbers in an element of the report *)
Inductive item_lines : list R -> str -> Prop :=
| it_end : item_lines [] []
| it_more x xs u t : fixed_text_of 6 x u -> item_lines xs t ->
    item_lines (x :: xs) (lit "	<item>" ++ u ++ lit "</item>" ++ newline_text ++ t).
(** the report of a design: its number, objective value, parameters, constraint values and feasibility *)
Definition describes (t : str) (id : nat) (f : R) (x cs : list R) (fe : bool) : Prop :=
  (exists u, looks_up (lit "DesignID") t (Content u) /\ count_text id u) /\
  (exists u, looks_up (lit "ObjectiveFunction") t (Content u) /\ fixed_text_of 6 f u) /\
  (exists u, looks_up (lit "DesignParameters") t (Content (newline_text ++ u)) /\ item_lines x u) /\
  (if is_empty cs then looks_up (lit "ConstraintValues") t Missing
   else exists u, looks_up (lit "ConstraintValues") t (Content (newline_text ++ u)) /\ item_lines cs u) /\
  looks_up (lit "Feasibility") t (Content (if fe then lit "YES" else lit "NO")).

(** the history file holds the rows [rs]; the report describes the best of the rows [rs] *)
Definition table_of (name : str) (cols : list str) (rs : list (list R)) (disk : files) : Prop := exists t, disk name = Some t /\ table_text cols rs t.
Definition report_of (name : str) (d nc : nat) (rs : list (list R)) (disk : files) : Prop :=
  exists t fe i, disk name = Some t /\ best_row d rs fe i /\
    describes t i (row_obj d (rowi rs i)) (row_x d (rowi rs i)) (row_con d nc (rowi rs i)) fe.
(** the disk at some moment between two writes of a run that has recorded the rows [rs], the first [k0] of them at its start *)
Definition moment (hist rep : str) (cols : list str) (d nc k0 : nat) (rs : list (list R)) (disk : files) : Prop :=
  exists k j, k0 <= j <= k /\ k <= S j /\ k <= length rs /\
    ((disk hist = Some [] /\ report_of rep d nc (firstn j rs) disk) \/
     (table_of hist cols (firstn k rs) disk /\ disk rep = Some []) \/
     (table_of hist cols (firstn k rs) disk /\ report_of rep d nc (firstn j rs) disk)).
(** the names fit the study: two different files that can be written, a name for every parameter (or none) and for every constraint *)
Definition names_ok (writable : str -> bool) (c : cfg R) (n : fnames) : Prop :=
  writable (f_hist n) = true /\ writable (f_rep n) = true /\ f_rep n <> [] /\ f_hist n <> f_rep n /\
  (f_par n = [] \/ length (f_par n) = c_dim c) /\ length (f_con n) = length (c_cons c).
