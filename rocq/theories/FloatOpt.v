(** The generation of a design in doubles. *)
From Coq Require Import ZArith Reals Lra Lia Bool SpecFloat Psatz List Arith.
From Flocq Require Import Core BinarySingleNaN.
From Verif Require Import Base StM Num NumFloat FloatSpec FloatFlocq FloatProofs VecModel VecProofs MatModel MatLemmas DataProofs DesignModel HistModel KrigModel OptModel OptProofs OptRun.
Import ListNotations.
Local Open Scope R_scope.

Lemma pow2_b k : pow2 k = bpow radix2 k.
Proof. unfold pow2. rewrite bpow_powerRZ. reflexivity. Qed.

(** *** one draw *)
Lemma unif_F a b u : moderate (pow2 1021) a -> moderate (pow2 1021) b -> draw u -> val a <= val b -> between_doubles a b (unif a b u).
Proof.
  intros (Da & Fa & Ma) (Db & Fb & Mb) (Du & Fu & U) H. rewrite pow2_b in Ma, Mb. unfold unif. cbn [nmul nsub nadd FNum].
  pose proof (val_fmt _ Da) as Ga. pose proof (val_fmt _ Db) as Gb. pose proof (val_fmt _ Du) as Gu.
  destruct (unif_real (val a) (val b) (val u) Ga Gb Gu H U) as [L1 L2].
  apply Rabs_le_inv in Ma. apply Rabs_le_inv in Mb.
  assert (bpow radix2 1022 = 2 * bpow radix2 1021) as E by (change 1022%Z with (1 + 1021)%Z; rewrite bpow_plus; reflexivity).
  assert (bpow radix2 1022 < big) as Bg by (apply bpow_lt; lia). assert (fmt (bpow radix2 1022)) as G2 by (apply fmt_pow; lia).
  assert (0 < bpow radix2 1021) as P by apply bpow_gt_0.
  destruct (sub_val b a) as (D1 & F1 & V1); auto. { apply (cap_le _ (bpow radix2 1022)); auto. apply Rabs_le. lra. }
  assert (0 <= rnd (val b - val a)) as D0 by (apply rnd_lb; [apply fmt_0|lra]).
  assert (rnd (val b - val a) <= bpow radix2 1022) as D2 by (apply rnd_ub; [auto|lra]).
  destruct (mul_val u (SFsub prec64 emax64 b a)) as (D3 & F3 & V3); auto.
  { rewrite V1. apply (cap_le _ (bpow radix2 1022)); auto. apply Rabs_le. nra. }
  rewrite V1 in V3. destruct (add_val (SFmul prec64 emax64 u (SFsub prec64 emax64 b a)) a) as (D4 & F4 & V4); auto.
  { rewrite V3. unfold cap. apply Rle_lt_trans with (bpow radix2 1022); auto. apply Rabs_le. lra. }
  rewrite V3 in V4. split; auto. split; auto. rewrite V4. auto.
Qed.

(** *** denormalisation of one entry *)
Notation inv_ d := (SFdiv prec64 emax64 (FofZ 1) (FofZ (Z.of_nat d))).
Definition in_unit (d : nat) (w : F) : Prop := double w /\ finite w /\ 0 <= val w <= val (inv_ d).
Lemma inv_val d : (1 <= Z.of_nat d <= 2 ^ 53)%Z -> double (inv_ d) /\ finite (inv_ d) /\ val (inv_ d) = rnd (1 / IZR (Z.of_nat d)) /\ 0 <= val (inv_ d) <= 1.
Proof.
  intros H. destruct (ofZ_val 1 ltac:(cbn; lia)) as (A1 & A2 & A3). destruct (ofZ_val (Z.of_nat d) ltac:(lia)) as (B1 & B2 & B3).
  assert (1 <= IZR (Z.of_nat d)) as N1 by (apply IZR_le; lia).
  assert (0 <= 1 / IZR (Z.of_nat d) <= 1) as Q. { split. apply Rlt_le, Rdiv_lt_0_compat; lra. apply Rmult_le_reg_r with (IZR (Z.of_nat d)); [lra|]. replace (1 / IZR (Z.of_nat d) * IZR (Z.of_nat d)) with 1 by (field; lra). lra. }
  assert (0 <= rnd (1 / IZR (Z.of_nat d)) <= 1) as Q'. { split. apply rnd_lb; [apply fmt_0|tauto]. apply rnd_ub; [apply fmt_1|tauto]. }
  destruct (div_val (FofZ 1) (FofZ (Z.of_nat d))) as (D1 & F1 & V1); auto.
  { rewrite B3. lra. } { rewrite A3, B3. apply (cap_le _ 1). apply fmt_1. rewrite Rabs_pos_eq; lra. change 1 with (bpow radix2 0). apply bpow_lt. lia. }
  rewrite A3, B3 in V1. rewrite V1. auto.
Qed.
Lemma denorm_F d w lb ub : (1 <= Z.of_nat d <= 2 ^ 53)%Z -> moderate (pow2 1020) lb -> moderate (pow2 1020) ub -> val lb <= val ub -> in_unit d w ->
  let x := SFadd prec64 emax64 (SFmul prec64 emax64 (SFmul prec64 emax64 w (FofZ (Z.of_nat d))) (SFsub prec64 emax64 ub lb)) lb in
  double x /\ finite x /\ val lb <= val x <= val (SFadd prec64 emax64 (SFsub prec64 emax64 ub lb) lb) /\
  val (SFadd prec64 emax64 (SFsub prec64 emax64 ub lb) lb) <= val ub + pow2 (-51) * Rmax (Rabs (val lb)) (Rabs (val ub)) /\
  double (SFsub prec64 emax64 ub lb) /\ finite (SFsub prec64 emax64 ub lb) /\ val (SFsub prec64 emax64 ub lb) = rnd (val ub - val lb).
Proof.
  intros Hd (Dl & Fl & Ml) (Du & Fu & Mu) H (Dw & Fw & Hw). rewrite pow2_b in *. cbv zeta.
  destruct (inv_val d Hd) as (_ & _ & Ei & _). rewrite Ei in Hw. destruct (ofZ_val (Z.of_nat d) ltac:(lia)) as (B1 & B2 & B3).
  pose proof (val_fmt _ Dl) as Gl. pose proof (val_fmt _ Du) as Gu. pose proof (val_fmt _ Dw) as Gw.
  destruct (denorm_real (Z.of_nat d) (val w) (val lb) (val ub) Hd Gl Gu Gw H Hw) as (R1 & R2 & R3).
  destruct (upper_real (val lb) (val ub) (Rmax (Rabs (val lb)) (Rabs (val ub))) Gl Gu H (Rmax_l _ _) (Rmax_r _ _)) as [U1 U2].
  assert (Rmax (Rabs (val lb)) (Rabs (val ub)) <= bpow radix2 1020) as MM by (apply Rmax_lub; auto).
  assert (0 <= Rmax (Rabs (val lb)) (Rabs (val ub))) as M0 by (eapply Rle_trans; [apply Rabs_pos|apply Rmax_l]).
  assert (Rabs (val lb) <= bpow radix2 1020 /\ Rabs (val ub) <= bpow radix2 1020) as [Ml' Mu'] by auto. apply Rabs_le_inv in Ml'. apply Rabs_le_inv in Mu'.
  assert (bpow radix2 1021 = 2 * bpow radix2 1020) as E by (change 1021%Z with (1 + 1020)%Z; rewrite bpow_plus; reflexivity).
  assert (bpow radix2 1021 < big) as Bg by (apply bpow_lt; lia). assert (fmt (bpow radix2 1021)) as G2 by (apply fmt_pow; lia).
  assert (0 < bpow radix2 1020) as P by apply bpow_gt_0.
  assert (pow2 (-51) = 4 * uu) as E51. { rewrite pow2_b. change (-51)%Z with (2 + -53)%Z. rewrite bpow_plus. reflexivity. }
  destruct (sub_val ub lb) as (D1 & F1 & V1); auto. { apply (cap_le _ (bpow radix2 1021)); auto. apply Rabs_le. lra. }
  assert (rnd (val ub - val lb) <= bpow radix2 1021) as D2 by (apply rnd_ub; [auto|lra]).
  assert (bpow radix2 1021 + bpow radix2 1020 < big) as Bg2. {
    apply Rlt_trans with (bpow radix2 1022). change 1022%Z with (1 + 1021)%Z. rewrite (bpow_plus radix2 1 1021). change (bpow radix2 1) with 2. lra. apply bpow_lt; lia. }
  assert (4 * uu * Rmax (Rabs (val lb)) (Rabs (val ub)) <= bpow radix2 1020) as Q5. { pose proof uu_small. apply Rle_trans with (1 * bpow radix2 1020); [|lra]. apply Rmult_le_compat; lra. }
  destruct (mul_val w (FofZ (Z.of_nat d))) as (D3 & F3 & V3); auto.
  { rewrite B3. unfold cap. apply Rle_lt_trans with 1. apply Rabs_le. lra. change 1 with (bpow radix2 0). apply bpow_lt; lia. }
  rewrite B3 in V3.
  destruct (mul_val (SFmul prec64 emax64 w (FofZ (Z.of_nat d))) (SFsub prec64 emax64 ub lb)) as (D4 & F4 & V4); auto.
  { rewrite V3, V1. unfold cap. apply Rle_lt_trans with (bpow radix2 1021); auto. apply Rabs_le. lra. }
  rewrite V3, V1 in V4.
  destruct (add_val (SFsub prec64 emax64 ub lb) lb) as (D5 & F5 & V5); auto.
  { rewrite V1. unfold cap. apply Rle_lt_trans with (bpow radix2 1021); auto. apply Rabs_le. lra. }
  rewrite V1 in V5.
  destruct (add_val (SFmul prec64 emax64 (SFmul prec64 emax64 w (FofZ (Z.of_nat d))) (SFsub prec64 emax64 ub lb)) lb) as (D6 & F6 & V6); auto.
  { rewrite V4. unfold cap. apply Rle_lt_trans with (bpow radix2 1021); auto. apply Rabs_le. lra. }
  rewrite V4 in V6. split; auto. split; auto. rewrite V6, V5. rewrite E51 || rewrite <- pow2_b, E51. repeat split; auto; try tauto.
Qed.

(** *** one discrete value *)
Lemma floor_val q z : double q -> finite q -> Ffloor q = Some z -> IZR z <= val q.
Proof.
  intros _ _ H. destruct q as [s| | |s m e]; try discriminate; cbn [Ffloor] in H; injection H as <-; cbn [val]. lra.
  set (v := if s then Z.neg m else Z.pos m). destruct (Z.leb_spec 0 e) as [L|L].
  - rewrite mult_IZR. right. f_equal. rewrite <- bpow_powerRZ with (r := radix2). rewrite <- IZR_Zpower by auto. reflexivity.
  - assert (0 < 2 ^ (- e))%Z as P by (apply Z.pow_pos_nonneg; lia). pose proof (Z.mul_div_le v (2 ^ (- e)) P) as Q. apply IZR_le in Q. rewrite mult_IZR in Q.
    assert (IZR (2 ^ (- e)) = bpow radix2 (- e)) as E by (rewrite <- IZR_Zpower by lia; reflexivity). rewrite E in Q.
    assert (powerRZ 2 e = bpow radix2 e) as -> by (rewrite bpow_powerRZ; reflexivity). rewrite bpow_opp in Q.
    pose proof (bpow_gt_0 radix2 e) as Pe. apply Rmult_le_compat_l with (r := bpow radix2 e) in Q; [|lra].
    replace (bpow radix2 e * (/ bpow radix2 e * IZR (v / 2 ^ (- e)))) with (IZR (v / 2 ^ (- e))) in Q by (field; lra). lra.
Qed.
Lemma discrete_F lb ub dx k : moderate (pow2 1020) lb -> moderate (pow2 1020) ub -> val lb <= val ub -> double dx -> finite dx -> 0 < val dx ->
  forall z, Ffloor (SFdiv prec64 emax64 (SFsub prec64 emax64 ub lb) dx) = Some z -> (Z.of_nat k <= z < 2 ^ 32)%Z ->
  let x := SFadd prec64 emax64 lb (SFmul prec64 emax64 (FofZ (Z.of_nat k)) dx) in
  double x /\ finite x /\ val lb <= val x <= val ub + pow2 (-50) * Rmax (Rabs (val lb)) (Rabs (val ub)).
Proof.
  intros (Dl & Fl & Ml) (Du & Fu & Mu) H Dd Fd Pd z Ez Hk. rewrite pow2_b in Ml, Mu. cbv zeta.
  pose proof (val_fmt _ Dl) as Gl. pose proof (val_fmt _ Du) as Gu. pose proof (val_fmt _ Dd) as Gd.
  assert (Rmax (Rabs (val lb)) (Rabs (val ub)) <= bpow radix2 1020) as MM by (apply Rmax_lub; auto).
  assert (0 <= Rmax (Rabs (val lb)) (Rabs (val ub))) as M0 by (eapply Rle_trans; [apply Rabs_pos|apply Rmax_l]).
  assert (Rabs (val lb) <= bpow radix2 1020 /\ Rabs (val ub) <= bpow radix2 1020) as [Ml' Mu'] by auto. apply Rabs_le_inv in Ml'. apply Rabs_le_inv in Mu'.
  assert (bpow radix2 1021 = 2 * bpow radix2 1020) as E by (change 1021%Z with (1 + 1020)%Z; rewrite bpow_plus; reflexivity).
  assert (bpow radix2 1022 = 4 * bpow radix2 1020) as E' by (change 1022%Z with (2 + 1020)%Z; rewrite bpow_plus; reflexivity).
  assert (bpow radix2 1021 < big) as Bg by (apply bpow_lt; lia). assert (fmt (bpow radix2 1021)) as G2 by (apply fmt_pow; lia).
  assert (bpow radix2 1022 < big) as Bg' by (apply bpow_lt; lia).
  assert (0 < bpow radix2 1020) as P by apply bpow_gt_0.
  destruct (sub_val ub lb) as (D1 & F1 & V1); auto. { apply (cap_le _ (bpow radix2 1021)); auto. apply Rabs_le. lra. }
  set (D := SFsub prec64 emax64 ub lb) in *.
  (* the quotient cannot overflow, its integer part is small *)
  assert (cap (rnd (val D / val dx))) as C.
  { destruct (Rlt_or_le (Rabs (rnd (val D / val dx))) big) as [|C]; auto. exfalso.
    destruct (ofB D D1) as (D' & ED). destruct (ofB dx Dd) as (d' & Ed). rewrite <- ED, <- Ed in Ez, C. rewrite !val_B in C. rewrite div_equiv in Ez.
    pose proof (Bdiv_correct prec64 emax64 _ _ mode_NE D' d') as Q. rewrite Rlt_bool_false in Q by exact C. rewrite Q in Ez.
    cbn in Ez. discriminate Ez. rewrite <- Ed, val_B in Pd. lra. }
  destruct (div_val D dx) as (D2 & F2 & V2); auto. lra.
  pose proof (floor_val _ _ D2 F2 Ez) as Hf. rewrite V2, V1 in Hf.
  destruct (ofZ_val (Z.of_nat k) ltac:(lia)) as (B1 & B2 & B3).
  destruct (discrete_real (Z.of_nat k) (val lb) (val ub) (val dx) (Rmax (Rabs (val lb)) (Rabs (val ub))) Gl Gu Gd H Pd (Rmax_l _ _) (Rmax_r _ _)) as [R1 R2].
  { lia. } { eapply Rle_trans; [|exact Hf]. apply IZR_le; lia. }
  destruct (mul_val (FofZ (Z.of_nat k)) dx) as (D3 & F3 & V3); auto.
  { rewrite B3. unfold cap. apply Rle_lt_trans with (bpow radix2 1022); auto. apply Rabs_le. lra. }
  rewrite B3 in V3. pose proof uu_small as Us.
  assert (8 * uu * Rmax (Rabs (val lb)) (Rabs (val ub)) <= bpow radix2 1020) as Q5. { apply Rle_trans with (1 * bpow radix2 1020); [|lra]. apply Rmult_le_compat; lra. }
  destruct (add_val lb (SFmul prec64 emax64 (FofZ (Z.of_nat k)) dx)) as (D4 & F4 & V4); auto.
  { rewrite V3. unfold cap. apply Rle_lt_trans with (bpow radix2 1021); auto. apply Rabs_le. lra. }
  rewrite V3 in V4. split; auto. split; auto. rewrite V4. split. tauto.
  assert (pow2 (-50) = 8 * uu) as ->. { rewrite pow2_b. change (-50)%Z with (3 + -53)%Z. rewrite bpow_plus. reflexivity. } tauto.
Qed.

(** *** order facts that also cover infinities *)
Notation ok_ x := (x <> S754_nan).
Notation lt_ := (@nltb F FNum).
Lemma gd (x : F) : ok_ x -> good x.
Proof. intros H. apply good_isnan. destruct x; try reflexivity. congruence. Qed.
Lemma lt_irr (x : F) : ok_ x -> lt_ x x = false.
Proof. intros. apply ltb_irrefl. apply gd; auto. Qed.
Lemma le_tr a b c : ok_ a -> ok_ b -> ok_ c -> lt_ b a = false -> lt_ c b = false -> lt_ c a = false.
Proof. intros Ha Hb Hc H1 H2. destruct (lt_ c a) eqn:E; auto. destruct (ltb_negtrans c b a (gd _ Hc) (gd _ Hb) (gd _ Ha) E); congruence. Qed.
Lemma between_finite a b x : finite a -> finite b -> ok_ x -> lt_ x a = false -> lt_ b x = false -> finite x.
Proof.
  intros Fa Fb Hx H1 H2. destruct x as [s|s| |s m e]; cbn; auto; try congruence.
  destruct s; [destruct a as [|?| |]|destruct b as [|?| |]]; try contradiction; try (cbn in H1; discriminate H1); try (cbn in H2; discriminate H2).
Qed.
Lemma lt_val a b : double a -> double b -> finite a -> finite b -> lt_ a b = false -> val b <= val a.
Proof. intros Da Db Fa Fb H. destruct (Rle_or_lt (val b) (val a)) as [|L]; auto. apply (ltb_val a b) in L; auto. cbn in H. congruence. Qed.
Lemma val_lt a b : double a -> double b -> finite a -> finite b -> val b <= val a -> lt_ a b = false.
Proof. intros Da Db Fa Fb H. destruct (lt_ a b) eqn:E; auto. apply (ltb_val a b) in E; auto. lra. Qed.
Lemma zero_double : double (@n0 F FNum). Proof. reflexivity. Qed.

Section Dim.
  Variable d : nat.
  Hypothesis Hd : (1 <= Z.of_nat d <= 2 ^ 53)%Z.
  Lemma inv_ok : double (inv_ d) /\ finite (inv_ d) /\ ok_ (inv_ d) /\ lt_ (inv_ d) n0 = false.
  Proof.
    destruct (inv_val d Hd) as (A & B & _ & C). split; auto. split; auto. split; [apply finite_nan; auto|]. apply val_lt; auto. reflexivity. exact I. cbn [val n0 FNum]. lra.
  Qed.
  (** between 0 and 1/d in the order of the doubles *)
  Definition unit_ord (w : F) : Prop := double w /\ ok_ w /\ lt_ w n0 = false /\ lt_ (inv_ d) w = false.
  Lemma unit_ord_val w : unit_ord w -> in_unit d w.
  Proof.
    intros (Dw & Nw & L1 & L2). destruct inv_ok as (A & B & _ & _).
    assert (finite w) as Fw by (apply (between_finite n0 (inv_ d)); auto; exact I). split; auto. split; auto.
    split; [apply (lt_val w n0) in L1; auto; reflexivity || exact I|apply lt_val; auto].
  Qed.
  Lemma unit_zero : unit_ord n0.
  Proof. destruct inv_ok as (A & B & _ & C). split. reflexivity. split. discriminate. split. reflexivity. exact C. Qed.
  Lemma unit_inv : unit_ord (inv_ d).
  Proof. destruct inv_ok as (A & B & N & C). split; auto. split; auto. split; auto. apply lt_irr; auto. Qed.
  Lemma trim_unit v : double v -> ok_ v -> unit_ord (let w := if lt_ v n0 then n0 else v in if lt_ (inv_ d) w then inv_ d else w).
  Proof.
    intros Dv Nv. cbv zeta. destruct (lt_ v n0) eqn:E1.
    - destruct (lt_ (inv_ d) n0); [apply unit_inv|apply unit_zero].
    - destruct (lt_ (inv_ d) v) eqn:E2; [apply unit_inv|]. split; auto.
  Qed.
  Lemma clamp_unit lo up v : unit_ord lo -> unit_ord up -> double v ->
    let w := (let w := if lt_ v lo then lo else v in if lt_ up w then up else w) in ok_ w -> unit_ord w.
  Proof.
    intros Hl Hu Dv. cbv zeta. destruct (lt_ v lo) eqn:E1.
    - destruct (lt_ up lo); auto.
    - destruct (lt_ up v) eqn:E2; auto. intros Nv. destruct Hl as (_ & N1 & A1 & _), Hu as (_ & N2 & _ & B2). destruct inv_ok as (_ & _ & Ni & _).
      split; auto. split; auto. split. apply (le_tr n0 lo v); auto; discriminate. apply (le_tr v up (inv_ d)); auto.
  Qed.
End Dim.

(** *** NaN spreads through a draw *)
Lemma unif_nan a b u : ok_ (unif a b u) -> ok_ a /\ ok_ b.
Proof.
  intros H. unfold unif in H. cbn [nmul nsub nadd FNum] in H. split; intros ->; apply H.
  - destruct (SFmul prec64 emax64 u _); reflexivity.
  - assert (SFsub prec64 emax64 S754_nan a = S754_nan) as -> by (destruct a; reflexivity).
    assert (SFmul prec64 emax64 u S754_nan = S754_nan) as -> by (destruct u; reflexivity). destruct a; reflexivity.
Qed.
Lemma fillV_inv (v a b w : list F) us : vec_fillRandomV v a b us = (w, Ok tt) ->
  length a = length v /\ length b = length v /\ length w = length v /\
  forall i, (i < length v)%nat -> lt_ (vget b i) (vget a i) = false /\ vget w i = unif (vget a i) (vget b i) (us i).
Proof.
  unfold vec_fillRandomV. destruct (Nat.eqb_spec (length a) (length v)) as [Ea|]; [|discriminate]. destruct (Nat.eqb_spec (length b) (length v)) as [Eb|]; [|discriminate]. cbn [andb negb].
  intros H. split; auto. split; auto.
  match type of H with loop ?n ?f ?s = _ =>
    pose proof (loop_inv (fun k st => match snd st with Ok _ => length (fst st) = length v /\
       forall i, (i < k)%nat -> lt_ (vget b i) (vget a i) = false /\ vget (fst st) i = unif (vget a i) (vget b i) (us i) | _ => True end) n f s) as L end.
  rewrite H in L. cbn [fst snd] in L. apply L. { split; auto. intros; lia. }
  intros k [w0 r] Hk. cbn [fst snd]. destruct r as [[]|?|]; cbn [fst snd]; auto. intros (Lw & Q).
  destruct (lt_ (vget b k) (vget a k)) eqn:E; cbn [fst snd]; auto. rewrite upd_length. split; auto.
  intros i Hi. destruct (Nat.eq_dec i k) as [->|].
  - split; auto. unfold vget at 1. rewrite nth_upd_same by lia. reflexivity.
  - unfold vget at 3. rewrite nth_upd_other by auto. apply Q. lia.
Qed.
Lemma randomDesign_inv d (lo up v : list F) us : randomDesign d lo up us = Ok v ->
  length lo = d /\ length up = d /\ length v = d /\ forall i, (i < d)%nat -> lt_ (vget up i) (vget lo i) = false /\ vget v i = unif (vget lo i) (vget up i) (us i).
Proof.
  unfold randomDesign. destruct (vec_fillRandomV _ _ _ _) as [w r] eqn:E. destruct r as [[]|?|]; cbn [rmap]; try discriminate. intros H. injection H as <-.
  apply fillV_inv in E. rewrite repeat_length in E. auto.
Qed.
Lemma not_nan v i : nan_free v -> (i < length v)%nat -> ok_ (@vget F FNum v i).
Proof. intros H Hi. apply H. unfold vget. apply nth_In. auto. Qed.
Lemma mod1 d w : (1 <= Z.of_nat d <= 2 ^ 53)%Z -> in_unit d w -> moderate (pow2 1021) w.
Proof.
  intros Hd (Dw & Fw & H). destruct (inv_val d Hd) as (_ & _ & _ & Q). split; auto. split; auto. rewrite pow2_b. apply Rle_trans with (bpow radix2 0). change (bpow radix2 0) with 1. apply Rabs_le. lra. apply bpow_le. lia.
Qed.
(** all entries between 0 and 1/d *)
Definition unit_vec (d : nat) (v : list F) : Prop := length v = d /\ forall i, (i < d)%nat -> in_unit d (vget v i).
Lemma in_unit_ord d w : (1 <= Z.of_nat d <= 2 ^ 53)%Z -> in_unit d w -> unit_ord d w.
Proof.
  intros Hd (Dw & Fw & H). destruct (inv_ok d Hd) as (A & B & _). split; auto. split; [apply finite_nan; auto|]. split; [apply (val_lt w n0); auto; try reflexivity; try exact I; change (val n0) with 0; lra|apply val_lt; auto; lra].
Qed.
Lemma randomDesign_unit d lo up us v : (1 <= Z.of_nat d <= 2 ^ 53)%Z -> (forall k, draw (us k)) ->
  (forall i, (i < d)%nat -> lt_ (vget up i) (vget lo i) = false -> in_unit d (vget lo i) /\ in_unit d (vget up i)) ->
  randomDesign d lo up us = Ok v -> unit_vec d v.
Proof.
  intros Hd Hu Hlu H. apply randomDesign_inv in H as (L1 & L2 & L3 & Q). split; auto. intros i Hi. destruct (Q i Hi) as [Q1 Q2].
  rewrite Q2 in *. destruct (Hlu i Hi Q1) as [A B].
  assert (val (vget lo i) <= val (vget up i)) as Hv. { destruct A as (? & ? & _), B as (? & ? & _). apply lt_val; auto. }
  destruct (unif_F _ _ (us i) (mod1 d _ Hd A) (mod1 d _ Hd B) (Hu i) Hv) as (D1 & F1 & V1). split; auto. split; auto. destruct A as (_ & _ & ?), B as (_ & _ & ?). lra.
Qed.
