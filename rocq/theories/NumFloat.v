(** IEEE-754 binary64 as an instance of [Num], from the standard library's executable specification
    (Coq.Floats.SpecFloat: round to nearest even, NaN, signed zeros, infinities).  No axioms. *)
From Coq Require Import List Arith Lia ZArith Bool SpecFloat.
From Verif Require Import Base Num.
Local Open Scope Z_scope.

Definition prec64 : Z := 53.
Definition emax64 : Z := 1024.
Notation F := spec_float.

(** correctly rounded integer -> binary64 *)
Definition FofZ (z : Z) : F := binary_normalize prec64 emax64 z 0 false.
(** m * 10^e; correctly rounded when m and 10^|e| are exactly representable (|e| <= 22). *)
Definition Flit (m e : Z) : F :=
  if 0 <=? e then FofZ (m * 10 ^ e)
  else SFdiv prec64 emax64 (FofZ m) (FofZ (10 ^ (- e))).
(** floor/ceil of a finite value *)
Definition Ffloor (f : F) : option Z :=
  match f with
  | S754_zero _ => Some 0
  | S754_finite s m e =>
      let v := if s then Z.neg m else Z.pos m in
      Some (if 0 <=? e then v * 2 ^ e else v / 2 ^ (- e))
  | _ => None
  end.
Definition Fceil (f : F) : option Z := option_map Z.opp (Ffloor (SFopp f)).
Definition Fisnan (f : F) : bool := match f with S754_nan => true | _ => false end.

#[export] Instance FNum : Num F := {
  n0 := S754_zero false; n1 := FofZ 1;
  nadd := SFadd prec64 emax64; nsub := SFsub prec64 emax64; nmul := SFmul prec64 emax64; ndiv := SFdiv prec64 emax64;
  nopp := SFopp; nabs := SFabs; nsqrt := SFsqrt prec64 emax64;
  nltb := SFltb; nleb := SFleb; neqb := SFeqb;
  nisnan := Fisnan;
  nofZ := FofZ; nlit := Flit;
  nfloor := Ffloor; nceil := Fceil;
  ndblmax := S754_finite false 9007199254740991 971;
  ndblmin := S754_finite false 4503599627370496 (-1074);
  ndbleps := S754_finite false 4503599627370496 (-104)
}.

(** Lexicographic key of a non-NaN float: sign class, signed exponent, signed mantissa. *)
Definition fkey (f : F) : Z * Z * Z :=
  match f with
  | S754_nan => (3, 0, 0)
  | S754_infinity true => (-2, 0, 0)
  | S754_infinity false => (2, 0, 0)
  | S754_zero _ => (0, 0, 0)
  | S754_finite true m e => (-1, - e, Z.neg m)
  | S754_finite false m e => (1, e, Z.pos m)
  end.
Definition klt (a b : Z * Z * Z) : Prop :=
  match a, b with
  | (a1, a2, a3), (b1, b2, b3) => a1 < b1 \/ (a1 = b1 /\ (a2 < b2 \/ (a2 = b2 /\ a3 < b3)))
  end.

Lemma fcmp_key a b : a <> S754_nan -> b <> S754_nan ->
  match SFcompare a b with
  | Some Lt => klt (fkey a) (fkey b)
  | Some Eq => fkey a = fkey b
  | Some Gt => klt (fkey b) (fkey a)
  | None => False
  end.
Proof.
  intros Ha Hb.
  destruct a as [sa|sa| |sa ma ea], b as [sb|sb| |sb mb eb]; try congruence;
    repeat match goal with s : bool |- _ => destruct s end; cbn -[Z.compare Pos.compare Pos.compare_cont];
    try (solve [reflexivity | left; lia]).
  - destruct (ea ?= eb) eqn:E; cbn -[Pos.compare_cont].
    + apply Z.compare_eq in E; subst. change (Pos.compare_cont Eq ma mb) with (ma ?= mb)%positive. destruct (ma ?= mb)%positive eqn:E2; cbn.
      * apply Pos.compare_eq in E2; subst; auto.
      * right; split; [reflexivity|]. right; split; [reflexivity|]. rewrite Pos.compare_lt_iff in E2. lia.
      * right; split; [reflexivity|]. right; split; [reflexivity|]. rewrite Pos.compare_gt_iff in E2. lia.
    + rewrite Z.compare_lt_iff in E. right; split; [reflexivity|left; lia].
    + rewrite Z.compare_gt_iff in E. right; split; [reflexivity|left; lia].
  - destruct (ea ?= eb) eqn:E; cbn -[Pos.compare_cont].
    + apply Z.compare_eq in E; subst. change (Pos.compare_cont Eq ma mb) with (ma ?= mb)%positive. destruct (ma ?= mb)%positive eqn:E2; cbn.
      * apply Pos.compare_eq in E2; subst; auto.
      * right; split; [reflexivity|]. right; split; [reflexivity|]. rewrite Pos.compare_lt_iff in E2. lia.
      * right; split; [reflexivity|]. right; split; [reflexivity|]. rewrite Pos.compare_gt_iff in E2. lia.
    + rewrite Z.compare_lt_iff in E. right; split; [reflexivity|left; lia].
    + rewrite Z.compare_gt_iff in E. right; split; [reflexivity|left; lia].
Qed.

Lemma klt_irrefl a : ~ klt a a.
Proof. destruct a as [[a1 a2] a3]; simpl; lia. Qed.
Lemma klt_trans a b c : klt a b -> klt b c -> klt a c.
Proof. destruct a as [[a1 a2] a3], b as [[b1 b2] b3], c as [[c1 c2] c3]; simpl; lia. Qed.
Lemma klt_total a b : klt a b \/ a = b \/ klt b a.
Proof.
  destruct a as [[a1 a2] a3], b as [[b1 b2] b3]; simpl.
  destruct (Z.lt_trichotomy a1 b1) as [?|[?|?]]; [lia| |lia].
  destruct (Z.lt_trichotomy a2 b2) as [?|[?|?]]; [lia| |lia].
  destruct (Z.lt_trichotomy a3 b3) as [?|[?|?]]; [lia| |lia].
  subst; auto.
Qed.

Lemma SFltb_key a b : a <> S754_nan -> b <> S754_nan -> (SFltb a b = true <-> klt (fkey a) (fkey b)).
Proof.
  intros Ha Hb. pose proof (fcmp_key a b Ha Hb) as H. unfold SFltb.
  destruct (SFcompare a b) as [[]|]; split; intros; try discriminate; auto; try tauto.
  - rewrite H in H0. exfalso; eapply klt_irrefl; eauto.
  - exfalso; eapply klt_irrefl; eapply klt_trans; eauto.
Qed.
Lemma SFleb_key a b : a <> S754_nan -> b <> S754_nan -> (SFleb a b = true <-> ~ klt (fkey b) (fkey a)).
Proof.
  intros Ha Hb. pose proof (fcmp_key a b Ha Hb) as H. unfold SFleb.
  destruct (SFcompare a b) as [[]|]; split; intros; try discriminate; auto; try tauto.
  - rewrite H. apply klt_irrefl.
  - intro. exfalso; eapply klt_irrefl; eapply klt_trans; eauto.
Qed.
Lemma SFeqb_key a b : a <> S754_nan -> b <> S754_nan -> (SFeqb a b = true <-> fkey a = fkey b).
Proof.
  intros Ha Hb. pose proof (fcmp_key a b Ha Hb) as H. unfold SFeqb.
  destruct (SFcompare a b) as [[]|]; split; intros; try discriminate; auto; try tauto.
  - rewrite H0 in H. exfalso; eapply klt_irrefl; eauto.
  - rewrite H0 in H. exfalso; eapply klt_irrefl; eauto.
Qed.

#[export] Instance FOrd : OrdLaws F.
Proof.
  refine {| good := fun f => f <> S754_nan |}; cbn -[SFltb SFleb SFeqb].
  - intros a; destruct a; cbn; split; congruence.
  - intros a Ha. destruct (SFltb a a) eqn:E; auto. apply SFltb_key in E; auto. exfalso; eapply klt_irrefl; eauto.
  - intros a b c Ha Hb Hc. rewrite !SFltb_key; auto. apply klt_trans.
  - intros a b c Ha Hb Hc. rewrite !SFltb_key; auto. intros H.
    destruct (klt_total (fkey a) (fkey b)) as [?|[E|?]]; auto.
    + right. rewrite <- E; auto.
    + right. eapply klt_trans; eauto.
  - intros a b Ha Hb. apply eq_true_iff_eq. rewrite negb_true_iff, SFleb_key; auto.
    rewrite <- not_true_iff_false, SFltb_key; tauto.
  - intros a b Ha Hb. apply eq_true_iff_eq. rewrite andb_true_iff, SFeqb_key, !SFleb_key; auto.
    split.
    + intros ->. split; apply klt_irrefl.
    + intros [H1 H2]. destruct (klt_total (fkey a) (fkey b)) as [?|[?|?]]; tauto.
  - intros a b H. split; intros ->; cbn in H; [|destruct a]; discriminate.
  - discriminate.
  - discriminate.
  - discriminate.
  - vm_compute; reflexivity.
Defined.
