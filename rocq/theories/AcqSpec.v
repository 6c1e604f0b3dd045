(** Specification of the acquisition functions, independent of the model. *)
From Coq Require Import Reals List Permutation.
From Coquelicot Require Import Coquelicot.
From Verif Require Import AcqModel.
Import ListNotations.
Local Open Scope R_scope.

(** the standard normal density and distribution function *)
Definition phi (z : R) : R := / sqrt (2 * PI) * exp (- (z * z / 2)).
Definition Phi (z : R) : R := 1 / 2 + RInt phi 0 z.
(** the probability that a normal variable with mean mu and standard deviation s is below / above v *)
Definition prob_below (v mu s : R) : R := Phi ((v - mu) / s).
Definition prob_above (v mu s : R) : R := 1 - prob_below v mu s.
(** expected improvement below fmin of a normal variable with mean mu and standard deviation s (Jones et al.) *)
Definition EI (fmin mu s : R) : R := (fmin - mu) * Phi ((fmin - mu) / s) + s * phi ((fmin - mu) / s).

(** the constraint holds with equality allowed *)
Definition satisfied_or_active (c : cfun) (v : R) : Prop := match cf_ty c with LT => v <= cf_target c | GT => cf_target c < v end.
(** the constraint identifiers are 0, 1, ..., n-1 in some order *)
Definition ids_ok (cs : list cfun) : Prop := Permutation (map cf_id cs) (seq 0 (length cs)).
Definition product (l : list R) : R := fold_right Rmult 1 l.
(** mean and standard deviation of a constraint at a normalised point: user defined functions are evaluated at the
    point in original units, surrogates at the normalised point *)
Definition unscale (lb ub x : list R) : list R := map (fun i => nth i x 0 * INR (length x) * (nth i ub 0 - nth i lb 0) + nth i lb 0) (seq 0 (length x)).
Definition mean_of (lb ub : list R) (c : cfun) (x : list R) : R := match cf_kind c with UserFun f => f (unscale lb ub x) | Surrogate p => fst (p x) end.
