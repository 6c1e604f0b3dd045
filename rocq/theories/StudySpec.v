(** Specification of a study: the Kriging model of a table of samples, the acquisition function made of such models, and the samples
    an evaluated design adds to the files. *)
From Coq Require Import Reals List Arith.
From Verif Require Import Base Num RealNum RSpec MatModel MatSpec BoundsModel KrigSpec KrigProg ErfMath AcqModel AcqSpec PropsAcq OptModel OptSpec.
Import ListNotations.
Local Open Scope R_scope.

(** [p] gives mean and variance of the Kriging model (universal when [lin], ordinary otherwise) of the rows [rs] in the box [b], with
    admissible hyper-parameters and the nugget 1e-12: one set of coefficients for all points *)
Definition kmodel (d : nat) (b : bnds R) (lin : bool) (rs : list (list R)) (p : list R -> R * R) : Prop :=
  exists th ga cl be w s2, kparams d th ga /\
    kriging d th ga (1 / 10 ^ 12) (points b d rs) (fun i => output d rs i - (if lin then lpredict d cl (nth i (points b d rs) []) else 0)) be w s2 /\
    (lin = true -> normal_eqs d (points b d rs) (output d rs) (1 / 10 ^ 8) cl) /\
    forall x, length x = d -> exists u, kvar_factor d th ga (1 / 10 ^ 12) (points b d rs) x u /\
      p x = ((if lin then lpredict d cl x else 0) + kpredict d th ga (points b d rs) be w x, s2 * u).

(** the factor a constraint contributes at the scaled point x: the probability that it holds, by its own model or, for a user defined
    function that returns, 1 or 0 *)
Definition weight (c : cfg R) (oc : ocon R) (p : list R -> R * R) (x : list R) (w : R) : Prop :=
  let cf := fun k => mkCF (oc_id oc) (if oc_gt oc then GT else LT) (oc_target oc) k in
  if oc_user oc
  then forall f v, oc_fun oc (unscale (c_lb c) (c_ub c) x) = Ok v -> (satisfied_or_active (cf (UserFun f)) v -> w = 1) /\ (~ satisfied_or_active (cf (UserFun f)) v -> w = 0)
  else is_prob (cf (Surrogate p)) (fst (p x)) (sqrt (snd (p x))) w.
(** the acquisition functions of an iteration are those of the model [po] of the objective and the models [pc] of the constraints: the
    expected improvement, and its product with the probabilities of all the constraints *)
Definition acquires (c : cfg R) (e : env R) (po : list R -> R * R) (pc : nat -> list R -> R * R) : Prop :=
  forall fmin k x, 0 <= k -> length x = c_dim c ->
    let m := fst (po x) in let s := k * sqrt (snd (po x)) in
    0 <= e_ei e fmin k x /\ (s <= 1 / 10 ^ 13 -> e_ei e fmin k x = 0) /\
    (1 / 10 ^ 13 < s -> Rabs (e_ei e fmin k x - EI fmin m s) <= Rabs (fmin - m) / 10 ^ 18 + s / 10 ^ 16) /\
    exists ws, length ws = length (c_cons c) /\ (forall i oc, nth_error (c_cons c) i = Some oc -> weight c oc (pc i) x (nth i ws 0)) /\
      e_acq e fmin k x = e_ei e fmin k x * product ws.

(** the samples of evaluated designs: for the objective function, and for constraint number i *)
Definition objective_sample (o : outcome) : list R := o_x o ++ [o_f o].
Definition constraint_sample (i : nat) (o : outcome) : list R := o_x o ++ [nth i (o_vs o) 0].
(** the tables for models of all functions: number of parameters + 1 columns; and a box wide enough for them *)
Definition models_ok (c : cfg R) (lin : nat -> bool) : Prop :=
  ncols (c_data c) = S (c_dim c) /\ (forall oc, In oc (c_cons c) -> oc_user oc = false -> ncols (oc_data oc) = S (c_dim c)) /\
  (forall i, (i < c_dim c)%nat -> 1 / 10 ^ 9 < nth i (c_ub c) 0 - nth i (c_lb c) 0) /\ (forall k, lin k = true -> (c_dim c < 100)%nat).
(** the functions with a model: number 0 is the objective function, number i + 1 the i-th constraint unless it is user defined; the table
    given for it, and the sample an evaluated design adds *)
Definition modelled (c : cfg R) (k : nat) : option (mat R) :=
  match k with O => Some (c_data c) | S i => match nth_error (c_cons c) i with Some oc => if oc_user oc then None else Some (oc_data oc) | None => None end end.
Definition sample_of (k : nat) (o : outcome) : list R := match k with O => objective_sample o | S i => constraint_sample i o end.
