(** Specification of the optimiser. *)
From Coq Require Import List Arith Bool ZArith Reals.
From Verif Require Import Base Num RealNum OptModel.
Import ListNotations.

(** all interleavings of the programs of several threads *)
Inductive interleaving {E : Type} : list (list E) -> list E -> Prop :=
| il_done ts : (forall t, In t ts -> t = []) -> interleaving ts []
| il_step pre e t post sch : interleaving (pre ++ t :: post) sch -> interleaving (pre ++ (e :: t) :: post) (e :: sch).
(** the program of a thread that executes the iterations [is]: compare, then overwrite *)
Definition thread (is : list nat) : list event := flat_map (fun i => [Check i; Write i]) is.

Local Open Scope R_scope.
(** every parameter lies between its bounds *)
Definition in_box (lb ub x : list R) : Prop :=
  length x = length lb /\ forall i, (i < length x)%nat -> nth i lb 0 <= nth i x 0 <= nth i ub 0.
(** the admissible values of a discrete parameter *)
Definition grid (lb ub dx y : R) : Prop := exists k : nat, y = lb + INR k * dx /\ y <= ub.
(** the grid value of least distance to v, the smaller one on a tie *)
Definition nearest (lb ub dx v y : R) : Prop :=
  grid lb ub dx y /\ forall z, grid lb ub dx z -> Rabs (v - y) <= Rabs (v - z) /\ (z < y -> Rabs (v - y) < Rabs (v - z)).

(** improvement values of a sequence of evaluated designs (feasible?, objective value), relative to the value [ref] *)
Definition improvement_over (ref : R) (d : bool * R) : R := if fst d then Rmax 0 (ref - snd d) else 0.
(** the program: improvement of each design in turn, starting with the reference value of the initial data *)
Fixpoint improvements (best : R) (l : list (bool * R)) : list R :=
  match l with [] => [] | (fe, f) :: t => let '(b, im) := improvement best fe f in im :: improvements b t end.

(** the settings of a run: d parameters with lower < upper bounds, discrete parameters with positive increments and not
    too many values, constraints numbered in order *)
Definition settings_ok (c : cfg R) : Prop :=
  (0 < c_dim c)%nat /\ length (c_lb c) = c_dim c /\ length (c_ub c) = c_dim c /\
  (forall i, (i < c_dim c)%nat -> nth i (c_lb c) 0 < nth i (c_ub c) 0) /\
  NoDup (map fst (c_disc c)) /\
  (forall i dx, In (i, dx) (c_disc c) -> (i < c_dim c)%nat /\ 0 < dx /\ (nth i (c_ub c) 0 - nth i (c_lb c) 0) / dx < 2 ^ 32 - 1) /\
  map oc_id (c_cons c) = seq 0 (length (c_cons c)) /\ c_how c <> 0%nat /\ c_boxset c = true.
(** simulations succeed inside the box, training and storing samples succeed, the draws are in [0,1) *)
Definition world_ok (c : cfg R) (e : env R) : Prop :=
  e_train e = Ok tt /\ e_add e = Ok tt /\ (forall k j, 0 <= e_u1 e k j < 1) /\ (forall k j, 0 <= e_u2 e k j < 1) /\
  (forall x, in_box (c_lb c) (c_ub c) x -> isOk (e_eval e x) = true).
Definition constraints_ok (c : cfg R) : Prop := forall oc x, In oc (c_cons c) -> in_box (c_lb c) (c_ub c) x -> isOk (oc_fun oc x) = true.
(** the values of the constraints at x, and whether they satisfy the inequalities strictly *)
Definition values_at (c : cfg R) (x : list R) (vs : list R) : Prop := map (fun oc => oc_fun oc x) (c_cons c) = map Ok vs.
Definition satisfies (oc : ocon R) (v : R) : Prop := if oc_gt oc then v > oc_target oc else v < oc_target oc.
Definition feasible_values (c : cfg R) (vs : list R) : Prop := Forall2 satisfies (c_cons c) vs.
(** x is admissible: inside the box, and the discrete parameters on their grids *)
Definition admissible (c : cfg R) (x : list R) : Prop :=
  in_box (c_lb c) (c_ub c) x /\ forall i dx, In (i, dx) (c_disc c) -> grid (nth i (c_lb c) 0) (nth i (c_ub c) 0) dx (nth i x 0).

(** *** the history at the start of a run *)
From Verif Require Import MatModel MatSpec HistModel HistSpec.
Definition near (tol : R) (r x : list R) : Prop := forall j, (j < length x)%nat -> Rabs (nth j r 0 - nth j x 0) <= tol.
(** value of a constraint for a training sample x: computed by the user's function, or looked up in the training data of
    the constraint, or a value that violates the constraint when there is no such sample *)
Definition start_value (d : nat) (oc : ocon R) (x : list R) (v : R) : Prop :=
  if oc_user oc then oc_fun oc x = Ok v
  else (exists r, In r (rows (oc_data oc)) /\ near (1 / 10 ^ 8) (firstn d r) x /\ v = nth d r 0) \/
       ((forall r, In r (rows (oc_data oc)) -> ~ near (1 / 10 ^ 8) (firstn d r) x) /\ v = if oc_gt oc then - 10 ^ 15 else 10 ^ 15).
(** the history row of a training sample *)
Definition start_row (c : cfg R) (sample row : list R) : Prop :=
  exists vs fl, row = history_row (firstn (c_dim c) sample) (nth (c_dim c) sample 0) vs 0 fl /\
    Forall2 (fun oc v => start_value (c_dim c) oc (firstn (c_dim c) sample) v) (c_cons c) vs /\
    (fl = true <-> c_cons c = [] \/ (feasible_values c vs /\ in_box (c_lb c) (c_ub c) (firstn (c_dim c) sample))).
(** training data usable for a run *)
Definition data_ok (c : cfg R) : Prop :=
  wf (c_data c) /\ (0 < nrows (c_data c))%nat /\ (c_dim c < ncols (c_data c))%nat /\
  forall oc, In oc (c_cons c) ->
    if oc_user oc then forall r, In r (rows (c_data c)) -> isOk (oc_fun oc (firstn (c_dim c) r)) = true
    else wf (oc_data oc) /\ (0 < nrows (oc_data oc))%nat /\ (c_dim c < ncols (oc_data oc))%nat.
(** the smallest objective value of the feasible rows, or -DBL_MAX *)
Definition initial_best (d : nat) (rs : list (list R)) (b : R) : Prop :=
  (exists i, best_feasible d rs i /\ b = row_obj d (rowi rs i)) \/ ((forall i, ~ candidate d rs i) /\ b = - @ndblmax R RNum).

(** *** the trust region *)
(** number of equal outcomes at the end of a sequence of outcomes (latest first) *)
Fixpoint streak (b : bool) (l : list bool) : nat := match l with [] => 0 | o :: t => if Bool.eqb o b then S (streak b t) else 0 end.
(** its length after a sequence of outcomes (latest first; true = success): every third success in a row doubles it up to
    [mx], every fifteenth failure in a row halves it down to [mn] *)
Fixpoint region_length (mn mx len : R) (l : list bool) : R :=
  match l with
  | [] => len
  | o :: t => let r := region_length mn mx len t in
              if o then (if (streak true l mod 3 =? 0)%nat then Rmin (2 * r) mx else r)
              else (if (streak false l mod 15 =? 0)%nat then Rmax (r / 2) mn else r)
  end.

(** *** the run *)
(** what one evaluation observed: the design, its objective value, its constraint values, feasible?, improvement, success? *)
Record outcome := Outcome { o_x : list R; o_f : R; o_vs : list R; o_fe : bool; o_im : R; o_ok : bool }.
Definition outcome_row (o : outcome) : list R := history_row (o_x o) (o_f o) (o_vs o) (o_im o) (o_fe o).
(** the best row of a table: the best feasible one, or the one of least objective value when none is feasible *)
Definition best_row (d : nat) (rs : list (list R)) (fe : bool) (i : nat) : Prop :=
  if fe then best_feasible d rs i else (forall j, ~ candidate d rs j) /\ best_any d rs i.
(** an evaluation is correct, given the rows recorded before it *)
Definition outcome_ok (c : cfg R) (e : env R) (before : list (list R)) (o : outcome) : Prop :=
  admissible c (o_x o) /\ e_eval e (o_x o) = Ok (o_f o) /\ values_at c (o_x o) (o_vs o) /\
  (o_fe o = true <-> feasible_values c (o_vs o)) /\
  exists fe i, best_row (c_dim c) before fe i /\ (o_ok o = true <-> o_im o > row_imp (rowi before i)).
Fixpoint outcomes_ok (c : cfg R) (es : nat -> env R) (k : nat) (before : list (list R)) (os : list outcome) : Prop :=
  match os with
  | [] => True
  | o :: t => outcome_ok c (es k) before o /\ outcomes_ok c es (S k) (before ++ [outcome_row o]) t
  end.
