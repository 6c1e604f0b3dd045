(** Specification of the test of a surrogate model: the model that is tested, the results file and the errors. *)
From Coq Require Import Ascii String Bool Arith Reals List.
From Verif Require Import Base Num RealNum RSpec StrModel StrSpec ExtModel MatModel MatSpec BoundsModel DataSpec KrigSpec KrigProg TrainReal DataReal CsvSpec RunFileSpec.
Import ListNotations.
Local Open Scope R_scope.

(** a file that holds the rows [rs], all of them with [w] numbers *)
Definition csv_rows (fs : files) (name : str) (w : nat) (rs : list (list R)) : Prop :=
  exists t lines, fs name = Some t /\ cut newline_char t lines /\ text_numbers lines rs /\ rs <> [] /\ forall r, In r rs -> length r = w.
(** [p] gives mean and variance of the Kriging model (universal when [lin]) of the rows [rs] in the box [b], with hyper-parameters in the
    range that is searched by the training and the nugget 1e-12: one set of coefficients for all points *)
Definition trained_kriging (d : nat) (b : bnds R) (lin : bool) (rs : list (list R)) (p : list R -> R * R) : Prop :=
  exists th ga cl be w s2, trained_range d th ga /\
    kriging d th ga (1 / 10 ^ 12) (points b d rs) (fun i => output d rs i - (if lin then lpredict d cl (nth i (points b d rs) []) else 0)) be w s2 /\
    (lin = true -> normal_eqs d (points b d rs) (output d rs) (1 / 10 ^ 8) cl) /\
    forall x, length x = d -> exists u, kvar_factor d th ga (1 / 10 ^ 12) (points b d rs) x u /\
      p x = ((if lin then lpredict d cl x else 0) + kpredict d th ga (points b d rs) be w x, s2 * u).
(** the linear regression of the rows *)
Definition fitted_linear (d : nat) (b : bnds R) (rs : list (list R)) (p : list R -> R) : Prop :=
  exists cl, normal_eqs d (points b d rs) (output d rs) (1 / 10 ^ 8) cl /\ forall x, length x = d -> p x = lpredict d cl x.

(** the scaled inputs of a row *)
Definition scaled (b : bnds R) (d : nat) (row : list R) : list R := unit_row b d (firstn d row).
(** a line of the results: the inputs as in the test file, the estimate, the value in the test file and the squared difference (when the test
    file has values), the variance (when asked for) *)
Definition result_row (d : nat) (tf var : bool) (b : bnds R) (p : list R -> R * R) (row : list R) : list R :=
  let e := p (scaled b d row) in
  firstn d row ++ [fst e] ++ (if tf then [nth d row 0; (nth d row 0 - fst e) ^ 2] else []) ++ (if var then [snd e] else []).
Definition result_columns (d : nat) (tf var : bool) (cols : list str) : Prop :=
  exists xs, cols = xs ++ [lit "Estimated value"] ++ (if tf then [lit "True value"; lit "Squared Error"] else []) ++ (if var then [lit "Variance"] else []) /\
    length xs = d /\ forall i, (i < d)%nat -> exists t, count_text (S i) t /\ nth i xs [] = lit "x" ++ t.
Definition result_text (d : nat) (tf var : bool) (b : bnds R) (p : list R -> R * R) (rs : list (list R)) (t : str) : Prop :=
  exists cols, result_columns d tf var cols /\ table_text cols (map (result_row d tf var b p) rs) t.
(** the mean squared difference between the estimates and the last column of the rows *)
Definition mean_squared_error (d : nat) (b : bnds R) (p : list R -> R) (rs : list (list R)) : R :=
  rsum (length rs) (fun i => (p (scaled b d (nth i rs [])) - nth d (nth i rs []) 0) ^ 2) / INR (length rs).
(** an admissible name for a data file *)
Definition data_file_name (f : str) : Prop :=
  (forall c, In c f -> ~ In c (lit "\/:*?""<>|")) /\ exists stem, f = stem ++ lit ".csv".
(** the rows a model is trained with: all of them, or those left by the validation set taken from the front of the shuffled indices *)
Definition training_rows (ratio : option R) (perm : list nat) (rs tr : list (list R)) : Prop :=
  match ratio with None => tr = rs | Some v => exists q, INR q <= v * INR (length rs) < INR q + 1 /\ tr = unpicked (firstn q perm) rs end.
(** the estimate for the i-th training row [tr] compared with the value in the i-th row of the file [rs] *)
Definition reported_error (d : nat) (b : bnds R) (p : list R -> R) (tr rs : list (list R)) : R :=
  rsum (length tr) (fun i => (p (scaled b d (nth i tr [])) - nth d (nth i rs []) 0) ^ 2) / INR (length tr).
