(** Bridge between the executable doubles of the model ([SpecFloat] of the standard library) and real numbers, through
    Flocq's proofs about its own binary floats.  No definition of the program is here. *)
From Coq Require Import ZArith Reals Lra Lia Bool SpecFloat Psatz.
From Flocq Require Import Core BinarySingleNaN Relative Plus_error.
From Verif Require Import Base Num NumFloat FloatSpec.
Local Open Scope R_scope.

#[export] Instance Hprec64 : Prec_gt_0 prec64 := eq_refl.
#[export] Instance Hmax64 : Prec_lt_emax prec64 emax64 := eq_refl.
Notation BF := (binary_float prec64 emax64).
Notation fexp64 := (FLT_exp (-1074) 53).
Notation rnd := (round radix2 fexp64 ZnearestE).
Notation fmt := (generic_format radix2 fexp64).
#[export] Instance vexp64 : Valid_exp fexp64 := FLT_exp_valid (-1074) 53.

(** *** The operations of SpecFloat are those of Flocq *)
Lemma rne_equiv s m l : round_nearest_even m l = choice_mode mode_NE s m l.
Proof. case l; [reflexivity|intro c]. case c; [ | reflexivity..]. now simpl; unfold Round.cond_incr; case Z.even. Qed.
Lemma bra_equiv sx mx ex lx : SpecFloat.binary_round_aux prec64 emax64 sx mx ex lx = binary_round_aux prec64 emax64 mode_NE sx mx ex lx.
Proof.
  unfold SpecFloat.binary_round_aux, binary_round_aux. set (mrse' := shr_fexp _ _ _). case mrse'; intros mrs' e'; simpl. now rewrite (rne_equiv sx).
Qed.
Lemma br_equiv s m e : SpecFloat.binary_round prec64 emax64 s m e = binary_round prec64 emax64 mode_NE s m e.
Proof. unfold SpecFloat.binary_round, binary_round, shl_align_fexp. set (mez := shl_align _ _ _); case mez as [mz ez]. apply bra_equiv. Qed.
Lemma bn_equiv m e sz : SpecFloat.binary_normalize prec64 emax64 m e sz = B2SF (binary_normalize prec64 emax64 _ _ mode_NE m e sz).
Proof.
  case m as [ | p | p].
  - now simpl.
  - simpl; rewrite B2SF_SF2B; apply br_equiv.
  - simpl; rewrite B2SF_SF2B; apply br_equiv.
Qed.
Lemma add_equiv (x y : BF) : SFadd prec64 emax64 (B2SF x) (B2SF y) = B2SF (Bplus mode_NE x y).
Proof. case x as [sx|sx| |sx mx ex Bx]; case y as [sy|sy| |sy my ey By]; [now (trivial || simpl; case Bool.eqb).. | ]. apply bn_equiv. Qed.
Lemma sub_equiv (x y : BF) : SFsub prec64 emax64 (B2SF x) (B2SF y) = B2SF (Bminus mode_NE x y).
Proof. case x as [sx|sx| |sx mx ex Bx]; case y as [sy|sy| |sy my ey By]; [now (trivial || simpl; case Bool.eqb).. | ]. simpl. unfold Zminus. rewrite <- cond_Zopp_negb. apply bn_equiv. Qed.
Lemma mul_equiv (x y : BF) : SFmul prec64 emax64 (B2SF x) (B2SF y) = B2SF (Bmult mode_NE x y).
Proof. case x as [sx|sx| |sx mx ex Bx]; case y as [sy|sy| |sy my ey By]; [now trivial.. | ]. simpl. rewrite B2SF_SF2B. apply bra_equiv. Qed.
Lemma div_equiv (x y : BF) : SFdiv prec64 emax64 (B2SF x) (B2SF y) = B2SF (Bdiv mode_NE x y).
Proof.
  case x as [sx|sx| |sx mx ex Bx]; case y as [sy|sy| |sy my ey By]; [now trivial.. | ]. simpl. rewrite B2SF_SF2B.
  set (melz := SFdiv_core_binary _ _ _ _ _ _). case melz as [[mz ez] lz]. apply bra_equiv.
Qed.

(** *** doubles and their values *)
Lemma ofB f : double f -> exists x : BF, B2SF x = f.
Proof. intros H. exists (SF2B f H). apply B2SF_SF2B. Qed.
Lemma double_B (x : BF) : double (B2SF x).
Proof. destruct x; try reflexivity. assumption. Qed.
Lemma val_B (x : BF) : val (B2SF x) = B2R x.
Proof. destruct x; try reflexivity. cbn [B2SF val B2R]. unfold F2R. cbn [Fnum Fexp]. rewrite bpow_powerRZ. destruct s; reflexivity. Qed.
Lemma finite_B (x : BF) : finite (B2SF x) <-> is_finite x = true.
Proof. destruct x; cbn; split; auto; try discriminate; tauto. Qed.
Lemma val_fmt f : double f -> fmt (val f).
Proof. intros H. destruct (ofB f H) as (x & <-). rewrite val_B. apply (generic_format_B2R prec64 emax64). Qed.
Lemma finite_nan f : finite f -> f <> S754_nan.
Proof. intros H ->. exact H. Qed.

Definition big : R := bpow radix2 1024.
Definition cap (r : R) : Prop := Rabs r < big.

Lemma add_val x y : double x -> double y -> finite x -> finite y -> cap (rnd (val x + val y)) ->
  double (SFadd prec64 emax64 x y) /\ finite (SFadd prec64 emax64 x y) /\ val (SFadd prec64 emax64 x y) = rnd (val x + val y).
Proof.
  intros Hx Hy. destruct (ofB x Hx) as (x' & <-). destruct (ofB y Hy) as (y' & <-). rewrite !finite_B, !val_B, add_equiv. intros Fx Fy C.
  pose proof (Bplus_correct prec64 emax64 _ _ mode_NE x' y' Fx Fy) as H. rewrite Rlt_bool_true in H by exact C.
  destruct H as (H1 & H2 & _). rewrite val_B, finite_B. split; [apply double_B|]. split; [exact H2|exact H1].
Qed.
Lemma sub_val x y : double x -> double y -> finite x -> finite y -> cap (rnd (val x - val y)) ->
  double (SFsub prec64 emax64 x y) /\ finite (SFsub prec64 emax64 x y) /\ val (SFsub prec64 emax64 x y) = rnd (val x - val y).
Proof.
  intros Hx Hy. destruct (ofB x Hx) as (x' & <-). destruct (ofB y Hy) as (y' & <-). rewrite !finite_B, !val_B, sub_equiv. intros Fx Fy C.
  pose proof (Bminus_correct prec64 emax64 _ _ mode_NE x' y' Fx Fy) as H. rewrite Rlt_bool_true in H by exact C.
  destruct H as (H1 & H2 & _). rewrite val_B, finite_B. split; [apply double_B|]. split; [exact H2|exact H1].
Qed.
Lemma mul_val x y : double x -> double y -> finite x -> finite y -> cap (rnd (val x * val y)) ->
  double (SFmul prec64 emax64 x y) /\ finite (SFmul prec64 emax64 x y) /\ val (SFmul prec64 emax64 x y) = rnd (val x * val y).
Proof.
  intros Hx Hy. destruct (ofB x Hx) as (x' & <-). destruct (ofB y Hy) as (y' & <-). rewrite !finite_B, !val_B, mul_equiv. intros Fx Fy C.
  pose proof (Bmult_correct prec64 emax64 _ _ mode_NE x' y') as H. rewrite Rlt_bool_true in H by exact C.
  destruct H as (H1 & H2 & _). rewrite val_B, finite_B. split; [apply double_B|]. rewrite Fx, Fy in H2. split; [exact H2|exact H1].
Qed.
Lemma div_val x y : double x -> double y -> finite x -> val y <> 0 -> cap (rnd (val x / val y)) ->
  double (SFdiv prec64 emax64 x y) /\ finite (SFdiv prec64 emax64 x y) /\ val (SFdiv prec64 emax64 x y) = rnd (val x / val y).
Proof.
  intros Hx Hy. destruct (ofB x Hx) as (x' & <-). destruct (ofB y Hy) as (y' & <-). rewrite !finite_B, !val_B, div_equiv. intros Fx Fy C.
  pose proof (Bdiv_correct prec64 emax64 _ _ mode_NE x' y' Fy) as H. rewrite Rlt_bool_true in H by exact C.
  destruct H as (H1 & H2 & _). rewrite val_B, finite_B. split; [apply double_B|]. rewrite Fx in H2. split; [exact H2|exact H1].
Qed.
(** the operations never leave the doubles *)
Lemma double_add x y : double x -> double y -> double (SFadd prec64 emax64 x y).
Proof. intros Hx Hy. destruct (ofB x Hx) as (x' & <-). destruct (ofB y Hy) as (y' & <-). rewrite add_equiv. apply double_B. Qed.
Lemma double_sub x y : double x -> double y -> double (SFsub prec64 emax64 x y).
Proof. intros Hx Hy. destruct (ofB x Hx) as (x' & <-). destruct (ofB y Hy) as (y' & <-). rewrite sub_equiv. apply double_B. Qed.
Lemma double_mul x y : double x -> double y -> double (SFmul prec64 emax64 x y).
Proof. intros Hx Hy. destruct (ofB x Hx) as (x' & <-). destruct (ofB y Hy) as (y' & <-). rewrite mul_equiv. apply double_B. Qed.
Lemma double_div x y : double x -> double y -> double (SFdiv prec64 emax64 x y).
Proof. intros Hx Hy. destruct (ofB x Hx) as (x' & <-). destruct (ofB y Hy) as (y' & <-). rewrite div_equiv. apply double_B. Qed.
Lemma double_ofZ z : double (FofZ z).
Proof. unfold FofZ. rewrite bn_equiv. apply double_B. Qed.

(** *** comparisons *)
Lemma ltb_val x y : double x -> double y -> finite x -> finite y -> (SFltb x y = true <-> val x < val y).
Proof.
  intros Hx Hy. destruct (ofB x Hx) as (x' & <-). destruct (ofB y Hy) as (y' & <-). rewrite !finite_B, !val_B. intros Fx Fy.
  pose proof (Bltb_correct prec64 emax64 x' y' Fx Fy) as H. unfold Bltb in H. rewrite H. apply Rlt_bool_iff || (destruct (Rlt_bool_spec (B2R x') (B2R y')); split; intros; auto; try discriminate; lra).
Qed.

(** *** rounding *)
Lemma rnd_le x y : x <= y -> rnd x <= rnd y.
Proof. apply round_le; typeclasses eauto. Qed.
Lemma rnd_id x : fmt x -> rnd x = x.
Proof. apply round_generic; typeclasses eauto. Qed.
Lemma rnd_ub x y : fmt y -> x <= y -> rnd x <= y.
Proof. intros. rewrite <- (rnd_id y) by auto. apply rnd_le; auto. Qed.
Lemma rnd_lb x y : fmt x -> x <= y -> x <= rnd y.
Proof. intros. rewrite <- (rnd_id x) by auto. apply rnd_le; auto. Qed.
Lemma fmt_0 : fmt 0.
Proof. apply generic_format_0. Qed.
Lemma fmt_pow e : (-1074 <= e)%Z -> fmt (bpow radix2 e).
Proof. intros. apply generic_format_FLT_bpow; [reflexivity|auto]. Qed.
Lemma fmt_Z z : (Z.abs z <= 2 ^ 53)%Z -> fmt (IZR z).
Proof.
  intros H. destruct (Z.eq_dec (Z.abs z) (2 ^ 53)) as [E|N].
  - assert (IZR z = bpow radix2 53 \/ IZR z = - bpow radix2 53) as [-> | ->].
    { change (bpow radix2 53) with (IZR (2 ^ 53)). rewrite <- opp_IZR. destruct (Zabs_spec z) as [[_ Q]|[_ Q]]; [left|right]; f_equal; lia. }
    apply fmt_pow; lia. apply generic_format_opp, fmt_pow. lia.
  - apply generic_format_FLT. exists (Float radix2 z 0); cbn [Fnum Fexp]; try lia. unfold F2R. cbn. ring. change (Zpower radix2 53) with (2 ^ 53)%Z. lia.
Qed.
Lemma cap_le x y : fmt y -> Rabs x <= y -> y < big -> cap (rnd x).
Proof.
  intros Fy H B. unfold cap. apply Rabs_le_inv in H. apply Rle_lt_trans with y; auto. apply Rabs_le. split.
  - apply rnd_lb. apply generic_format_opp; auto. tauto.
  - apply rnd_ub; tauto.
Qed.
Lemma ofZ_val z : (Z.abs z <= 2 ^ 53)%Z -> double (FofZ z) /\ finite (FofZ z) /\ val (FofZ z) = IZR z.
Proof.
  intros H. split; [apply double_ofZ|]. unfold FofZ. rewrite bn_equiv, val_B, finite_B.
  pose proof (binary_normalize_correct prec64 emax64 _ _ mode_NE z 0 false) as Q. cbv zeta in Q.
  replace (F2R (Float radix2 z 0)) with (IZR z) in Q by (unfold F2R; cbn; ring).
  change (round radix2 _ (round_mode mode_NE) (IZR z)) with (rnd (IZR z)) in Q. rewrite (rnd_id (IZR z)) in Q by (apply fmt_Z; auto).
  rewrite Rlt_bool_true in Q. tauto. rewrite <- abs_IZR. apply Rle_lt_trans with (IZR (2 ^ 53)). apply IZR_le; auto.
  change (IZR (2 ^ 53)) with (bpow radix2 53). apply bpow_lt. reflexivity.
Qed.
