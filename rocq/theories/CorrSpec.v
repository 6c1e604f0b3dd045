(** Specification of the two correlation kernels, for points given by their coordinates. *)
From Coq Require Import Reals List Arith.
From Verif Require Import Base Num RealNum RSpec MatModel.
Local Open Scope R_scope.

(** exp(- sum_k theta_k (x_k - y_k)^2) *)
Definition Kgauss (d : nat) (theta x y : nat -> R) : R := exp (- rsum d (fun k => theta k * (x k - y k) ^ 2)).
(** exp(- sum_k theta_k |x_k - y_k|^gamma_k), with 0^0 = 1 and 0^g = 0 for g <> 0 *)
Definition Kexp (d : nat) (theta gamma x y : nat -> R) : R := exp (- rsum d (fun k => theta k * Rpow (Rabs (x k - y k)) (gamma k))).
(** coordinates of a std vector *)
Definition co (v : list R) (k : nat) : R := nth k v 0.
