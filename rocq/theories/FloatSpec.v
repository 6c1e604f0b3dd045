(** What a spec_float of the model means: which of them are doubles, and the real number each stands for. *)
From Coq Require Import ZArith Reals SpecFloat List Arith.
From Verif Require Import NumFloat.
Local Open Scope R_scope.

(** a value a C++ double can hold (any sign, NaN, infinities, zeros, subnormals): the mantissa and exponent are canonical *)
Definition double (f : F) : Prop := valid_binary prec64 emax64 f = true.
(** neither NaN nor infinite *)
Definition finite (f : F) : Prop := match f with S754_zero _ | S754_finite _ _ _ => True | _ => False end.
Definition nan_free (l : list F) : Prop := forall x, In x l -> x <> S754_nan.
(** the real number of a finite double *)
Definition val (f : F) : R :=
  match f with
  | S754_finite s m e => IZR (if s then Z.neg m else Z.pos m) * powerRZ 2 e
  | _ => 0
  end.
Definition pow2 (k : Z) : R := powerRZ 2 k.
Definition moderate (b : R) (f : F) : Prop := double f /\ finite f /\ Rabs (val f) <= b.
(** the i-th entry *)
Definition ent (v : list F) (i : nat) : F := nth i v (S754_zero false).
(** a box of doubles: lower bounds below upper bounds, neither so large that a difference could overflow *)
Definition float_box (d : nat) (lb ub : list F) : Prop :=
  length lb = d /\ length ub = d /\
  forall i, (i < d)%nat -> moderate (pow2 1020) (ent lb i) /\ moderate (pow2 1020) (ent ub i) /\ val (ent lb i) < val (ent ub i).
(** what a random number generator delivers *)
Definition draw (u : F) : Prop := double u /\ finite u /\ 0 <= val u < 1.
(** exactly between two numbers *)
Definition between_doubles (a b x : F) : Prop := double x /\ finite x /\ val a <= val x <= val b.
(** inside the box, except that the upper bound may be exceeded by eps times the larger of the magnitudes of the two bounds *)
Definition almost_inside (eps : R) (d : nat) (lb ub x : list F) : Prop :=
  length x = d /\
  forall i, (i < d)%nat -> double (ent x i) /\ finite (ent x i) /\
    val (ent lb i) <= val (ent x i) <= val (ent ub i) + eps * Rmax (Rabs (val (ent lb i))) (Rabs (val (ent ub i))).
(** the steps of the discrete parameters: positive, each for a parameter of the problem *)
Definition increments (d : nat) (l : list (nat * F)) : Prop := forall i dx, In (i, dx) l -> (i < d)%nat /\ double dx /\ finite dx /\ 0 < val dx.
(** an acquisition function that never prefers a design with a NaN in it to one without (it may be a NaN there, or the smallest
    value it takes elsewhere: comparisons with NaN are false, and the expected improvement is 0 where the error is not above its threshold) *)
Definition never_wins (acq : list F -> F) : Prop := forall v w, ~ nan_free v -> nan_free w -> SFltb (acq w) (acq v) = false.
