(** Abstract numbers standing for C++ [double].  The model is generic in an instance of [Num];
    [RealNum.v] instantiates it with the reals and [NumFloat.v] with IEEE-754 binary64. *)
From Coq Require Import List Arith Lia ZArith Bool.
From Verif Require Import Base.
Import ListNotations.

(** The arithmetic and comparison operators the code uses on [double].
    [nltb a b] is the C++ expression [a < b], [nleb a b] is [a <= b], [neqb a b] is [a == b];
    [a > b] is [nltb b a] and [a >= b] is [nleb b a].
    [nlit m e] is the decimal literal m * 10^e, [nofZ] the int-to-double conversion,
    [nfloor]/[nceil] are floor/ceil followed by a cast to an integer ([None]: not representable, UB).
    [ndblmax], [ndblmin], [ndbleps] are std::numeric_limits<double>::max(), min(), epsilon(). *)
Class Num (T : Type) := {
  n0 : T; n1 : T;
  nadd : T -> T -> T; nsub : T -> T -> T; nmul : T -> T -> T; ndiv : T -> T -> T;
  nopp : T -> T; nabs : T -> T; nsqrt : T -> T;
  nltb : T -> T -> bool; nleb : T -> T -> bool; neqb : T -> T -> bool;
  nisnan : T -> bool;
  nofZ : Z -> T; nlit : Z -> Z -> T;
  nfloor : T -> option Z; nceil : T -> option Z;
  ndblmax : T; ndblmin : T; ndbleps : T
}.

(** Transcendental functions of <cmath> used by the code. *)
Class NumFun (T : Type) := {
  nexp : T -> T; nlog : T -> T; npow : T -> T -> T
}.

(** Operators on [double] are written with a trailing "!" to keep them apart from nat and Z. *)
Infix "+!" := nadd (at level 50, left associativity).
Infix "-!" := nsub (at level 50, left associativity).
Infix "*!" := nmul (at level 40, left associativity).
Infix "/!" := ndiv (at level 40, left associativity).
Infix "<!" := nltb (at level 70).
Infix "<=!" := nleb (at level 70).
Notation "a >! b" := (nltb b a) (at level 70, only parsing).
Notation "a >=! b" := (nleb b a) (at level 70, only parsing).
Infix "==!" := neqb (at level 70).

(** unsigned int / int to double *)
Definition nofnat {T} `{Num T} (n : nat) : T := nofZ (Z.of_nat n).

(** Order laws: on values that are not NaN, [<] is a strict weak order and [<=] its dual. *)
Class OrdLaws (T : Type) {NT : Num T} := {
  good : T -> Prop;
  good_isnan : forall a, good a <-> nisnan a = false;
  ltb_irrefl : forall a, good a -> nltb a a = false;
  ltb_trans : forall a b c, good a -> good b -> good c -> nltb a b = true -> nltb b c = true -> nltb a c = true;
  ltb_negtrans : forall a b c, good a -> good b -> good c -> nltb a c = true -> nltb a b = true \/ nltb b c = true;
  leb_ltb : forall a b, good a -> good b -> nleb a b = negb (nltb b a);
  eqb_leb : forall a b, good a -> good b -> neqb a b = (nleb a b && nleb b a)%bool;
  ltb_good : forall a b, nltb a b = true -> good a /\ good b;
  good_n0 : good n0;
  good_n1 : good n1;
  good_max : good ndblmax;
  ltb_01 : nltb n0 n1 = true
}.

(** Model helper: [double acc = 0; for (k=0;k<n;k++) acc += f(k);] *)
Definition nsum {T} `{Num T} (n : nat) (f : nat -> T) : T :=
  loop n (fun k acc => nadd acc (f k)) n0.

Section OrdFacts.
  Context {T : Type} {NT : Num T} {OL : OrdLaws T}.

  Lemma leb_refl a : good a -> nleb a a = true.
  Proof. intros. rewrite leb_ltb, ltb_irrefl; auto. Qed.

  Lemma leb_total a b : good a -> good b -> nleb a b = true \/ nleb b a = true.
  Proof.
    intros Ha Hb. rewrite !leb_ltb by auto. destruct (nltb b a) eqn:E1; auto.
    destruct (nltb a b) eqn:E2; auto.
    pose proof (ltb_trans a b a Ha Hb Ha E2 E1). rewrite ltb_irrefl in H; auto.
  Qed.

  Lemma leb_trans a b c : good a -> good b -> good c -> nleb a b = true -> nleb b c = true -> nleb a c = true.
  Proof.
    intros Ha Hb Hc. rewrite !leb_ltb by auto. rewrite !negb_true_iff.
    intros H1 H2. destruct (nltb c a) eqn:E; auto.
    destruct (ltb_negtrans c b a Hc Hb Ha E); congruence.
  Qed.

  Lemma ltb_leb a b : good a -> good b -> nltb a b = true -> nleb a b = true.
  Proof.
    intros Ha Hb H1. rewrite leb_ltb by auto. destruct (nltb b a) eqn:E; auto.
    pose proof (ltb_trans a b a Ha Hb Ha H1 E). rewrite ltb_irrefl in H; auto.
  Qed.

  Lemma ltb_leb_trans a b c : good a -> good b -> good c -> nltb a b = true -> nleb b c = true -> nltb a c = true.
  Proof.
    intros Ha Hb Hc H1 H2. rewrite leb_ltb in H2 by auto. apply negb_true_iff in H2.
    destruct (ltb_negtrans a c b Ha Hc Hb H1); congruence.
  Qed.

  Lemma leb_ltb_trans a b c : good a -> good b -> good c -> nleb a b = true -> nltb b c = true -> nltb a c = true.
  Proof.
    intros Ha Hb Hc H1 H2. rewrite leb_ltb in H1 by auto. apply negb_true_iff in H1.
    destruct (ltb_negtrans b a c Hb Ha Hc H2); congruence.
  Qed.
End OrdFacts.
