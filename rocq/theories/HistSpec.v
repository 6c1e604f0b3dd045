(** Specification of the optimisation history: a list of rows [x, f, constraints, improvement, feasibility]. *)
From Coq Require Import List Arith Bool ZArith.
From Verif Require Import Base StM Num VecModel MatModel MatSpec BoundsModel DesignModel HistModel.
Import ListNotations.

Section HistSpec.
  Context {T : Type} {NT : Num T}.
  (** the row of one design *)
  Definition history_row (x : list T) (f : T) (cs : list T) (imp : T) (feas : bool) : list T :=
    x ++ [f] ++ cs ++ [imp; if feas then n1 else n0].
  (** the fields of a row of a problem with [d] parameters and [c] constraints *)
  Definition row_x (d : nat) (r : list T) : list T := firstn d r.
  Definition row_obj (d : nat) (r : list T) : T := nth d r n0.
  Definition row_con (d c : nat) (r : list T) : list T := firstn c (skipn (d + 1) r).
  Definition row_imp (r : list T) : T := nth (length r - 2) r n0.
  Definition row_feas (r : list T) : Prop := nltb n0 (last r n0) = true.
  Definition rowi (rs : list (list T)) (i : nat) : list T := nth i rs [].
  (** row [i] can be chosen as best feasible row *)
  Definition candidate (d : nat) (rs : list (list T)) (i : nat) : Prop :=
    i < length rs /\ row_feas (rowi rs i) /\ nltb (row_obj d (rowi rs i)) ndblmax = true.
  (** [i] is the first candidate with the smallest objective *)
  Definition best_feasible (d : nat) (rs : list (list T)) (i : nat) : Prop :=
    candidate d rs i /\
    (forall j, candidate d rs j -> nleb (row_obj d (rowi rs i)) (row_obj d (rowi rs j)) = true) /\
    (forall j, candidate d rs j -> j < i -> nltb (row_obj d (rowi rs i)) (row_obj d (rowi rs j)) = true).
  (** [i] is the first row with the smallest objective *)
  Definition best_any (d : nat) (rs : list (list T)) (i : nat) : Prop :=
    i < length rs /\
    (forall j, j < length rs -> nleb (row_obj d (rowi rs i)) (row_obj d (rowi rs j)) = true) /\
    (forall j, j < i -> nltb (row_obj d (rowi rs i)) (row_obj d (rowi rs j)) = true).
  (** a history table of [n] rows with [d] parameters and [c] constraints *)
  Definition history (d c : nat) (m : mat T) : Prop := table m /\ ncols m = d + 1 + c + 2.
  (** the optimum object: dimension, constraint count and box are set *)
  Definition gopt_ready (d c : nat) (g : gopt T) : Prop :=
    0 < d /\ ds_dim (go_d g) = d /\ ds_nc (go_d g) = c /\ b_set (go_box g) = true /\
    length (b_lo (go_box g)) = d /\ length (b_up (go_box g)) = d.
  (** the report of row [i] with feasibility flag [fe] *)
  Definition reports (d c : nat) (b : bnds T) (rs : list (list T)) (i : nat) (fe : bool) (s : design T) : Prop :=
    ds_ID s = Z.of_nat i /\ ds_feas s = fe /\ ds_x s = row_x d (rowi rs i) /\ ds_f s = row_obj d (rowi rs i) /\
    ds_con s = row_con d c (rowi rs i) /\ ds_imp s = row_imp (rowi rs i) /\
    vec_normalize (row_x d (rowi rs i)) (b_lo b) (b_up b) = Ok (ds_xn s).
  (** the client program: append designs one after the other *)
  Fixpoint append_designs (ds : list (design T)) : SM (hist T) unit :=
    match ds with [] => sret tt | s :: t => run hist_update s; append_designs t end.
  (** a design that fits the history *)
  Definition fits_history (h : hist T) (s : design T) : Prop := length (ds_x s) = h_dim h /\ h_cn h <= length (ds_con s).
  Definition row_of (h : hist T) (s : design T) : list T :=
    history_row (ds_x s) (ds_f s) (firstn (h_cn h) (ds_con s)) (ds_imp s) (ds_feas s).
End HistSpec.
