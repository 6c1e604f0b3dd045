(** What rounding does to the designs of a run (C106): the theorems of this file are about IEEE double arithmetic, with the
    meaning of a double given in FloatSpec.v. *)
From Coq Require Import ZArith Bool Arith SpecFloat Reals Lra List Lia.
From Flocq Require Import Core.
From Verif Require Import Base StM Num NumFloat FloatSpec FloatFlocq FloatProofs FloatOpt FloatDesign VecModel VecProofs MatModel MatSpec MatLemmas MatProofs DataProofs DesignModel HistModel KrigModel OptModel OptProofs OptRun PropsOpt.
Import ListNotations.
Local Open Scope R_scope.

(** a random number between two doubles is between them, exactly *)
Theorem C106_random_number : forall a b u, moderate (pow2 1021) a -> moderate (pow2 1021) b -> val a <= val b -> draw u ->
  between_doubles a b (unif a b u).
Proof. intros. apply unif_F; auto. Qed.

Lemma ltb_false a b : double a -> double b -> finite a -> finite b -> val a <= val b -> SFltb b a = false.
Proof. intros Da Db Fa Fb H. destruct (SFltb b a) eqn:E; auto. apply ltb_val in E; auto. lra. Qed.
(** fillRandom of a vector with a vector of bounds succeeds and fills each entry with a number between its bounds *)
Theorem C106_random_vector : forall v a b u, length a = length v -> length b = length v ->
  (forall i, (i < length v)%nat -> moderate (pow2 1021) (ent a i) /\ moderate (pow2 1021) (ent b i) /\ val (ent a i) <= val (ent b i)) -> (forall i, draw (u i)) ->
  exists w, vec_fillRandomV v a b u = (w, Ok tt) /\ length w = length v /\ forall i, (i < length v)%nat -> between_doubles (ent a i) (ent b i) (ent w i).
Proof.
  intros v a b u La Lb H Hu.
  assert (exists w, vec_fillRandomV v a b u = (w, Ok tt)) as (w & E).
  { unfold vec_fillRandomV. rewrite La, Lb, Nat.eqb_refl. cbn [andb negb]. apply (loop_inv (fun i st => exists w, st = (w, Ok tt))). { eexists; reflexivity. }
    intros i st Hi (w & ->). destruct (H i Hi) as ((A1 & A2 & _) & (B1 & B2 & _) & L).
    assert (lt_ (vget b i) (vget a i) = false) as ->. { apply ltb_false; auto. } eexists. reflexivity. }
  exists w. split; auto. destruct (fillV_inv _ _ _ _ _ E) as (_ & _ & Lw & Q). split; auto. intros i Hi. destruct (H i Hi) as (A & B & L). destruct (Q i Hi) as [_ Qi].
  change (ent w i) with (@vget F FNum w i). rewrite Qi. apply unif_F; auto.
Qed.
Lemma add_comm x y : SFadd prec64 emax64 x y = SFadd prec64 emax64 y x.
Proof. destruct x as [[]|[]| |s m e], y as [[]|[]| |s' m' e']; try reflexivity. unfold SFadd. cbv zeta. rewrite (Z.min_comm e e'), Z.add_comm. reflexivity. Qed.
(** fillRandom of a matrix with vectors of bounds: the same *)
Theorem C106_random_matrix : forall m a b u, length a = ncols m -> length b = ncols m ->
  (forall j, (j < ncols m)%nat -> moderate (pow2 1021) (ent a j) /\ moderate (pow2 1021) (ent b j) /\ val (ent a j) <= val (ent b j)) -> (forall i j, draw (u i j)) ->
  exists m', mat_fillRandomV m a b u = Ok m' /\ nrows m' = nrows m /\ ncols m' = ncols m /\
    forall i j, (i < nrows m)%nat -> (j < ncols m)%nat -> between_doubles (ent a j) (ent b j) (mget m' i j).
Proof.
  intros m a b u La Lb H Hu. unfold mat_fillRandomV. rewrite La, Lb, Nat.eqb_refl. cbn [andb negb].
  destruct (existsb _ _) eqn:E. { exfalso. apply existsb_exists in E. destruct E as (j & J1 & J2). apply in_seq in J1. destruct (H j ltac:(lia)) as ((A1 & A2 & _) & (B1 & B2 & _) & L).
    assert (lt_ (vget b j) (vget a j) = false) as Q by (apply ltb_false; auto). rewrite Q in J2. discriminate. }
  eexists. split; [reflexivity|]. split; auto. split; auto. intros i j Hi Hj. rewrite mget_mbuild by auto. destruct (H j Hj) as (A & B & L).
  cbn [nadd FNum]. rewrite add_comm. apply (unif_F (ent a j) (ent b j)); auto.
Qed.

(** deciding the hypotheses for given doubles *)
Definition lt_fin (a b : F) : bool := match a, b with S754_nan, _ | _, S754_nan | S754_infinity _, _ | _, S754_infinity _ => false | _, _ => valid_binary prec64 emax64 a && valid_binary prec64 emax64 b && SFltb a b end.
Lemma lt_fin_ok a b : lt_fin a b = true -> double a /\ double b /\ finite a /\ finite b /\ val a < val b.
Proof.
  intros H. assert (valid_binary prec64 emax64 a && valid_binary prec64 emax64 b && SFltb a b = true) as H2 by (destruct a, b; try discriminate H; exact H).
  assert (finite a /\ finite b) as [Fa Fb] by (split; destruct a, b; try discriminate H; exact I).
  apply andb_true_iff in H2. destruct H2 as [H2 H3]. apply andb_true_iff in H2. destruct H2 as [H1 H2]. repeat (split; auto). apply ltb_val; auto.
Qed.
Lemma val1 : val (FofZ 1) = 1.
Proof. apply (ofZ_val 1). cbn. lia. Qed.
Lemma draw_ok u : lt_fin u (FofZ 1) = true -> match u with S754_zero _ | S754_finite false _ _ => true | _ => false end = true -> draw u.
Proof.
  intros H1 H2. destruct (lt_fin_ok _ _ H1) as (A & _ & B & _ & C). rewrite val1 in C. split; auto. split; auto. split; auto. destruct u as [?|?| |[] m e]; try discriminate; cbn [val]; try lra.
  apply Rmult_le_pos. apply IZR_le. lia. apply Rlt_le, powerRZ_lt. lra.
Qed.
(** magnitude at most 1000 *)
Lemma moderate_ok k a : (20 <= k)%Z -> lt_fin (FofZ (-1000)) a && lt_fin a (FofZ 1000) = true -> moderate (pow2 k) a.
Proof.
  intros Hk H. apply andb_true_iff in H. destruct H as [H1 H2]. destruct (lt_fin_ok _ _ H1) as (_ & A & _ & B & C). destruct (lt_fin_ok _ _ H2) as (_ & _ & _ & _ & D). split; auto. split; auto.
  destruct (ofZ_val 1000 ltac:(cbn; lia)) as (_ & _ & E1). destruct (ofZ_val (-1000) ltac:(cbn; lia)) as (_ & _ & E2). rewrite E1 in D. rewrite E2 in C.
  apply Rle_trans with 1000. apply Rabs_le. lra. rewrite pow2_b. apply Rle_trans with (bpow radix2 20). change (bpow radix2 20) with (IZR (2 ^ 20)). apply IZR_le. cbn. lia. apply bpow_le; auto.
Qed.
Lemma box1 a b : lt_fin (FofZ (-1000)) a && lt_fin a (FofZ 1000) = true -> lt_fin (FofZ (-1000)) b && lt_fin b (FofZ 1000) = true -> lt_fin a b = true -> float_box 1 [a] [b].
Proof.
  intros Ha Hb H. split; auto. split; auto. intros i Hi. assert (i = 0%nat) as -> by lia. unfold ent. cbn [nth]. split. apply moderate_ok; auto; lia. split. apply moderate_ok; auto; lia. apply lt_fin_ok; auto.
Qed.
(** the largest double below 1 *)
Definition last_draw : F := S754_finite false 9007199254740991 (-53).

(** *** Latin hypercube samples *)
Lemma part_F k n lb ub : moderate (pow2 1020) lb -> moderate (pow2 1020) ub -> pow2 (-900) <= val ub - val lb -> (k <= n)%nat -> (1 <= Z.of_nat n <= 2 ^ 53)%Z ->
  let s := SFdiv prec64 emax64 (SFsub prec64 emax64 ub lb) (FofZ (Z.of_nat n)) in
  let p := SFmul prec64 emax64 (FofZ (Z.of_nat k)) s in let x := SFadd prec64 emax64 lb p in
  double x /\ finite x /\ val lb <= val x <= val ub + pow2 (-50) * Rmax (Rabs (val lb)) (Rabs (val ub)) /\
  double s /\ finite s /\ val x = rnd (val lb + rnd (IZR (Z.of_nat k) * val s)) /\ 0 <= val s.
Proof.
  intros (Dl & Fl & Ml) (Du & Fu & Mu) W Hk Hn. rewrite pow2_b in Ml, Mu, W. cbv zeta.
  pose proof (val_fmt _ Dl) as Gl. pose proof (val_fmt _ Du) as Gu. pose proof (bpow_gt_0 radix2 (-900)) as W0.
  assert (Rmax (Rabs (val lb)) (Rabs (val ub)) <= bpow radix2 1020) as MM by (apply Rmax_lub; auto).
  assert (0 <= Rmax (Rabs (val lb)) (Rabs (val ub))) as M0 by (eapply Rle_trans; [apply Rabs_pos|apply Rmax_l]).
  assert (Rabs (val lb) <= bpow radix2 1020 /\ Rabs (val ub) <= bpow radix2 1020) as [Ml' Mu'] by auto. apply Rabs_le_inv in Ml'. apply Rabs_le_inv in Mu'.
  assert (bpow radix2 1021 = 2 * bpow radix2 1020) as E by (change 1021%Z with (1 + 1020)%Z; rewrite bpow_plus; reflexivity).
  assert (bpow radix2 1022 = 4 * bpow radix2 1020) as E' by (change 1022%Z with (2 + 1020)%Z; rewrite bpow_plus; reflexivity).
  assert (bpow radix2 1021 < big) as Bg by (apply bpow_lt; lia). assert (fmt (bpow radix2 1021)) as G2 by (apply fmt_pow; lia).
  assert (bpow radix2 1022 < big) as Bg' by (apply bpow_lt; lia).
  assert (0 < bpow radix2 1020) as P by apply bpow_gt_0.
  destruct (parts_real (Z.of_nat k) (Z.of_nat n) (val lb) (val ub) (Rmax (Rabs (val lb)) (Rabs (val ub))) Gl Gu ltac:(lra) (Rmax_l _ _) (Rmax_r _ _) ltac:(lia) Hn W) as [R1 R2].
  assert (pow2 (-50) = 8 * uu) as E50. { rewrite pow2_b. change (-50)%Z with (3 + -53)%Z. rewrite bpow_plus. reflexivity. }
  destruct (sub_val ub lb) as (D1 & F1 & V1); auto. { apply (cap_le _ (bpow radix2 1021)); auto. apply Rabs_le. lra. }
  destruct (ofZ_val (Z.of_nat n) ltac:(lia)) as (N1 & N2 & N3). destruct (ofZ_val (Z.of_nat k) ltac:(lia)) as (K1 & K2 & K3).
  assert (1 <= IZR (Z.of_nat n)) as NN by (apply IZR_le; lia).
  assert (0 <= rnd (val ub - val lb)) as Q0 by (apply rnd_lb; [apply fmt_0|lra]).
  assert (rnd (val ub - val lb) <= bpow radix2 1021) as Q1 by (apply rnd_ub; [auto|lra]).
  assert (0 <= rnd (val ub - val lb) / IZR (Z.of_nat n) <= bpow radix2 1021) as Q2.
  { split. apply Rmult_le_pos; auto. apply Rlt_le, Rinv_0_lt_compat; lra. apply Rle_trans with (rnd (val ub - val lb) * 1); [|lra]. apply Rmult_le_compat_l; auto. rewrite <- Rinv_1. apply Rinv_le; lra. }
  destruct (div_val (SFsub prec64 emax64 ub lb) (FofZ (Z.of_nat n))) as (D2 & F2 & V2); auto.
  { rewrite N3. lra. } { rewrite V1, N3. apply (cap_le _ (bpow radix2 1021)); auto. apply Rabs_le. lra. }
  rewrite V1, N3 in V2. set (s := SFdiv prec64 emax64 (SFsub prec64 emax64 ub lb) (FofZ (Z.of_nat n))) in *. rewrite <- V2 in R1, R2.
  destruct (mul_val (FofZ (Z.of_nat k)) s) as (D3 & F3 & V3); auto. { rewrite K3. unfold cap. apply Rle_lt_trans with (bpow radix2 1022); auto. apply Rabs_le. lra. }
  rewrite K3 in V3. assert (8 * uu * Rmax (Rabs (val lb)) (Rabs (val ub)) <= bpow radix2 1020) as Q5. { pose proof uu_small. apply Rle_trans with (1 * bpow radix2 1020); [|lra]. apply Rmult_le_compat; lra. }
  destruct (add_val lb (SFmul prec64 emax64 (FofZ (Z.of_nat k)) s)) as (D4 & F4 & V4); auto. { rewrite V3. unfold cap. apply Rle_lt_trans with (bpow radix2 1022); auto. apply Rabs_le. lra. }
  rewrite V3 in V4. split; auto. split; auto. rewrite V4, E50. repeat split; auto; try tauto. rewrite V2. apply rnd_lb; [apply fmt_0|tauto].
Qed.
Lemma ent_mrow (m : mat F) i j : (j < ncols m)%nat -> ent (mrow m i) j = mget m i j.
Proof. intros H. exact (@vget_mrow F FNum m i j H). Qed.
(** fillRandomLHS: every entry of the sample is a finite number, not below its lower bound, and above the upper bound by a
    rounding error at most (n is the number of samples; bounds closer together than 2^-900 are left out) *)
Theorem C106_latin_hypercube : forall m lb ub u perm, float_box (ncols m) lb ub -> (forall j, (j < ncols m)%nat -> pow2 (-900) <= val (ent ub j) - val (ent lb j)) ->
  (Z.of_nat (nrows m) <= 2 ^ 53)%Z -> (forall i j, draw (u i j)) -> (forall i j, (i < nrows m)%nat -> (nth i (perm j) 0 < nrows m)%nat) ->
  exists m', mat_fillRandomLHS m lb ub u perm = Ok m' /\ nrows m' = nrows m /\ ncols m' = ncols m /\
    forall i, (i < nrows m)%nat -> almost_inside (pow2 (-50)) (ncols m) lb ub (nth i (rows m') []).
Proof.
  intros m lb ub u perm (La & Lb & B) W Hn Hu Hp. unfold mat_fillRandomLHS. rewrite La, Lb, Nat.eqb_refl. cbn [andb negb].
  destruct (existsb _ _) eqn:E. { exfalso. apply existsb_exists in E. destruct E as (j & J1 & J2). apply in_seq in J1. destruct (B j ltac:(lia)) as ((A1 & A2 & _) & (B1 & B2 & _) & L).
    assert (lt_ (vget ub j) (vget lb j) = false) as Q by (apply ltb_false; auto; apply Rlt_le; exact L). rewrite Q in J2. discriminate. }
  eexists. split; [reflexivity|]. split; auto. split; auto. intros i Hi. rewrite nth_rows by auto. cbv zeta.
  match goal with |- almost_inside _ _ _ _ (mrow ?mm i) => assert (forall j, (j < ncols m)%nat -> ent (mrow mm i) j = mget mm i j) as En end.
  { intros j Hj. apply ent_mrow. auto. }
  split. { rewrite mrow_length. auto. }
  intros j Hj. rewrite En by auto. rewrite mget_mbuild by auto. rewrite vget_vbuild by auto. pose proof (Hp i j Hi) as Hr. set (r := nth i (perm j) 0%nat) in *.
  destruct (B j Hj) as (B1 & B2 & B3). specialize (W j Hj).
  destruct (part_F r (nrows m) (ent lb j) (ent ub j) B1 B2 W ltac:(lia) ltac:(lia)) as (P1 & P2 & P3 & P4 & P5 & P6 & P7).
  destruct (part_F (r + 1) (nrows m) (ent lb j) (ent ub j) B1 B2 W ltac:(lia) ltac:(lia)) as (Q1 & Q2 & Q3 & _ & _ & Q6 & _).
  unfold nofnat. cbn [nadd nmul nsub ndiv nofZ FNum]. change (vget lb j) with (ent lb j). change (vget ub j) with (ent ub j).
  set (s := SFdiv prec64 emax64 (SFsub prec64 emax64 (ent ub j) (ent lb j)) (FofZ (Z.of_nat (nrows m)))) in *.
  set (lo := SFadd prec64 emax64 (ent lb j) (SFmul prec64 emax64 (FofZ (Z.of_nat r)) s)) in *.
  set (up := SFadd prec64 emax64 (ent lb j) (SFmul prec64 emax64 (FofZ (Z.of_nat (r + 1))) s)) in *.
  assert (val lo <= val up) as LU. { rewrite P6, Q6. apply rnd_le. apply Rplus_le_compat_l. apply rnd_le. apply Rmult_le_compat_r; auto. apply IZR_le. lia. }
  assert (forall x, val (ent lb j) <= x <= val (ent ub j) + pow2 (-50) * Rmax (Rabs (val (ent lb j))) (Rabs (val (ent ub j))) -> Rabs x <= pow2 1021) as Mx.
  { intros x Hx. destruct B1 as (_ & _ & M1). destruct B2 as (_ & _ & M2). assert (Rmax (Rabs (val (ent lb j))) (Rabs (val (ent ub j))) <= pow2 1020) as MM by (apply Rmax_lub; auto).
    assert (0 <= Rmax (Rabs (val (ent lb j))) (Rabs (val (ent ub j)))) as M0 by (eapply Rle_trans; [apply Rabs_pos|apply Rmax_l]).
    apply Rabs_le_inv in M1. apply Rabs_le_inv in M2. assert (pow2 1021 = 2 * pow2 1020) as -> by (rewrite !pow2_b; change 1021%Z with (1 + 1020)%Z; rewrite bpow_plus; reflexivity).
    assert (0 <= pow2 (-50) <= 1) as P50. { rewrite pow2_b. split. apply bpow_ge_0. change 1 with (bpow radix2 0). apply bpow_le. lia. }
    assert (pow2 (-50) * Rmax (Rabs (val (ent lb j))) (Rabs (val (ent ub j))) <= 1 * pow2 1020) by (apply Rmult_le_compat; lra). apply Rabs_le. lra. }
  destruct (unif_F lo up (u r j) ltac:(split; [exact P1|split; [exact P2|apply Mx; exact P3]]) ltac:(split; [exact Q1|split; [exact Q2|apply Mx; exact Q3]]) (Hu r j) LU) as (U1 & U2 & U3). split; auto. split; auto. lra.
Qed.
(** the last of three samples of [-1, 0.1] may lie above 0.1 *)
Theorem C106_latin_hypercube_refuted : exists m lb ub u perm m', float_box 1 lb ub /\ (forall i j, draw (u i j)) /\ (forall j, perm j = seq 0 3) /\
  mat_fillRandomLHS m lb ub u perm = Ok m' /\ nrows m' = 3%nat /\ val (ent ub 0) < val (mget m' 2 0).
Proof.
  exists (mkMat 3 1 (repeat (FofZ 0) 3)), [FofZ (-1)], [Flit 1 (-1)], (fun _ _ => last_draw), (fun _ => seq 0 3). eexists.
  split. apply box1; reflexivity. split. intros. apply draw_ok; reflexivity. split; auto. split. reflexivity. split. reflexivity. apply lt_fin_ok. vm_compute. reflexivity.
Qed.
(** *** from the normalised box to the box *)
(** a normalised design, every entry between 0 and 1/d (the double), is turned into a design whose entries are not below the
    lower bounds and above the upper bounds by a rounding error at most *)
Theorem C106_denormalize : forall d lb ub v, (1 <= Z.of_nat d <= 2 ^ 53)%Z -> float_box d lb ub -> length v = d ->
  (forall i, (i < d)%nat -> between_doubles (FofZ 0) (SFdiv prec64 emax64 (FofZ 1) (FofZ (Z.of_nat d))) (ent v i)) ->
  exists x, vec_denormalize v lb ub = Ok x /\ almost_inside (pow2 (-51)) d lb ub x.
Proof.
  intros d lb ub v Hd B Lv H. assert (exists x, vec_denormalize v lb ub = Ok x) as (x & E).
  { unfold vec_denormalize. destruct B as (L1 & L2 & _). rewrite Lv, L1, L2, Nat.ltb_irrefl. cbn [orb]. eexists. reflexivity. }
  exists x. split; auto. eapply denorm_vec; eauto. split; auto.
Qed.
(** the upper corner of [-1, 0.1] is turned into a number above 0.1 *)
Theorem C106_denormalize_refuted : exists lb ub x, float_box 1 lb ub /\ vec_normalize ub lb ub = Ok [FofZ 1] /\ vec_denormalize [FofZ 1] lb ub = Ok x /\ val (ent ub 0) < val (ent x 0).
Proof.
  exists [FofZ (-1)], [Flit 1 (-1)]. eexists. split. apply box1; reflexivity. split. vm_compute. reflexivity. split. reflexivity. apply lt_fin_ok. vm_compute. reflexivity.
Qed.

(** *** discrete parameters *)
(** the values of a discrete parameter are not below the lower bound and above the upper bound by a rounding error at most; the first is the lower bound *)
Theorem C106_discrete_values : forall lb ub dx vs, moderate (pow2 1020) lb -> moderate (pow2 1020) ub -> val lb < val ub -> double dx -> finite dx -> 0 < val dx ->
  discreteValues lb ub dx = Ok vs ->
  (0 < length vs)%nat /\ val (ent vs 0) = val lb /\
  forall k, (k < length vs)%nat -> double (ent vs k) /\ finite (ent vs k) /\ val lb <= val (ent vs k) <= val ub + pow2 (-50) * Rmax (Rabs (val lb)) (Rabs (val ub)).
Proof.
  intros lb ub dx vs Hl Hu H Dd Fd Pd E.
  assert (0 < length vs)%nat as L0. { unfold discreteValues in E. destruct (nfloor _) as [z|]; [|discriminate]. destruct (_ || _)%bool; [discriminate|]. injection E as <-. rewrite vbuild_length. lia. }
  split; auto. split.
  - unfold discreteValues in E. destruct (nfloor _) as [z|]; [|discriminate]. destruct (_ || _)%bool; [discriminate|]. injection E as <-.
    change (ent (vbuild ?n ?f) 0) with (@vget F FNum (vbuild n f) 0). rewrite vget_vbuild by lia. unfold nofnat. cbn [nadd nmul nofZ FNum Z.of_nat].
    destruct Hl as (Dl & Fl & Ml). destruct dx as [?|?| |sd md ed]; try contradiction; try (cbn [val] in Pd; lra). change (FofZ 0) with (S754_zero false). cbn [SFmul].
    destruct lb as [[]|?| |? ? ?]; try contradiction; destruct sd; reflexivity.
  - intros k Hk. eapply discreteValues_F; eauto.
Qed.
(** with bounds 0 and 0.3 and step 0.1 the values are 0, 0.1 and 0.2: the upper bound is never chosen, not even for a design at the upper bound *)
Theorem C106_upper_value_missing_refuted : exists lb ub dx vs x, lt_fin lb ub = true /\ discreteValues lb ub dx = Ok vs /\ length vs = 3%nat /\
  (lb, ub, dx) = (FofZ 0, Flit 3 (-1), Flit 1 (-1)) /\ roundDiscrete [lb] [ub] [(0%nat, dx)] [ub] = Ok [x] /\ val x < val ub.
Proof. exists (FofZ 0), (Flit 3 (-1)), (Flit 1 (-1)). eexists. eexists. split. reflexivity. split. vm_compute. reflexivity. split. reflexivity. split. reflexivity. split. vm_compute. reflexivity. apply lt_fin_ok. vm_compute. reflexivity. Qed.
(** with bounds 0 and 1.7 and step 0.1 the last value lies above the upper bound, and is chosen for a design at the upper bound *)
Theorem C106_value_above_refuted : exists lb ub dx x, (lb, ub, dx) = (FofZ 0, Flit 17 (-1), Flit 1 (-1)) /\ lt_fin lb ub = true /\
  roundDiscrete [lb] [ub] [(0%nat, dx)] [ub] = Ok [x] /\ val ub < val x.
Proof. exists (FofZ 0), (Flit 17 (-1)), (Flit 1 (-1)). eexists. split. reflexivity. split. reflexivity. split. vm_compute. reflexivity. apply lt_fin_ok. vm_compute. reflexivity. Qed.

(** *** the design of an iteration *)
(** whatever the draws, the threads' schedules and the surrogates, the design an iteration chooses for the simulation is a
    vector of finite numbers, not below the lower bounds, and above the upper bounds by a rounding error at most *)
Theorem C106_chosen_design : forall (c : cfg F) (e : env F) (s s' : ost F), (1 <= Z.of_nat (c_dim c) <= 2 ^ 53)%Z -> float_box (c_dim c) (c_lb c) (c_ub c) -> increments (c_dim c) (c_disc c) ->
  (forall i k, draw (e_u1 e i k)) -> (forall i k, draw (e_u2 e i k)) -> (forall f sg, never_wins (e_acq e f sg)) -> (forall f sg v, double (e_ei e f sg v)) ->
  double (s_trLen s) -> finite (s_trLen s) -> (forall x, In x (ds_xn (go_d (s_gopt s))) -> double x /\ x <> S754_nan) ->
  findDesign c e s = (s', Ok tt) -> almost_inside (pow2 (-50)) (c_dim c) (c_lb c) (c_ub c) (ds_x (s_cur s')).
Proof. intros. eapply findDesign_inside; eauto. Qed.

(** a run in [-1, 0.1] evaluates the objective at a point above 0.1 *)
Definition ub_cfg (lb ub x : F) (n : nat) : cfg F := mkCfg 1 [lb] [ub] n 2 1 [] [] true true true (mkMat 1 2 [x; FofZ 3]).
Definition ub_env (v : list F -> F) : env F := mkEnv (Ok tt) (fun _ _ x => nmul (vget x 0) (Flit 1 10)) (fun _ _ x => nmul (vget x 0) (Flit 1 10)) (fun _ _ => FofZ 0) (fun _ _ => Flit 5 (-1))
    (seq_schedule 1) (seq_schedule 1) (fun x => Ok (v x)) (Ok tt) None.
Theorem C106_run_above_upper_bound_refuted : exists c es s' x, (c_lb c, c_ub c) = ([FofZ (-1)], [Flit 1 (-1)]) /\
  (forall k i j, draw (e_u1 (es k) i j) /\ draw (e_u2 (es k) i j)) /\
  whole_run 1 c es = Some (s', Ok tt) /\ s_pts s' = [[x]] /\ val (ent (c_ub c) 0) < val x.
Proof.
  exists (ub_cfg (FofZ (-1)) (Flit 1 (-1)) (FofZ 0) 1), (fun _ => ub_env (fun x => nopp (vget x 0))). eexists. eexists. split. reflexivity. split. intros; split; apply draw_ok; reflexivity.
  split. vm_compute. reflexivity. split. vm_compute. reflexivity. apply lt_fin_ok. vm_compute. reflexivity.
Qed.
(** the same rounding makes the search around the best design disappear: with the best design so far exactly at the upper
    bound 0.1 of [-1, 0.1], the second search is left out, although its only candidate [w] has the higher acquisition value *)
Definition at_upper_bound (lb ub : F) : ost F :=
  match optSetup (ub_cfg lb ub ub 1) ost_new with (s, Ok _) => fst (startRun (ub_cfg lb ub ub 1) (Ok tt) s) | (s, _) => s end.
Theorem C106_local_search_skipped_refuted : exists c e s s1 s' v a lo up w, optSetup c ost_new = (s1, Ok tt) /\ startRun c (Ok tt) s1 = (s, Ok tt) /\
  (c_dim c, c_lb c, c_ub c, c_inner c) = (1%nat, [FofZ (-1)], [Flit 1 (-1)], 1%nat) /\ (forall i j, draw (e_u1 e i j) /\ draw (e_u2 e i j)) /\
  ds_x (go_d (s_gopt s)) = c_ub c /\ ds_feas (go_d (s_gopt s)) = true /\
  mostPromising c e s = (s', Ok ((v, a), (lo, up))) /\ randomAround 1 (ds_xn (go_d (s_gopt s))) lo up (e_u2 e 0%nat) = Ok w /\
  SFltb a (e_acq e (ds_f (go_d (s_gopt s))) (s_sigma s) w) = true.
Proof.
  exists (ub_cfg (FofZ (-1)) (Flit 1 (-1)) (Flit 1 (-1)) 1), (ub_env (fun x => nopp (vget x 0))). do 8 eexists. split. vm_compute. reflexivity. split. vm_compute. reflexivity.
  split. reflexivity. split. intros; split; apply draw_ok; reflexivity. split. reflexivity. split. reflexivity. split. vm_compute. reflexivity. split. vm_compute. reflexivity. vm_compute. reflexivity.
Qed.
Print Assumptions C106_random_number. Print Assumptions C106_random_vector. Print Assumptions C106_random_matrix. Print Assumptions C106_latin_hypercube.
Print Assumptions C106_latin_hypercube_refuted. Print Assumptions C106_denormalize. Print Assumptions C106_denormalize_refuted. Print Assumptions C106_discrete_values.
Print Assumptions C106_upper_value_missing_refuted. Print Assumptions C106_value_above_refuted. Print Assumptions C106_chosen_design.
Print Assumptions C106_run_above_upper_bound_refuted. Print Assumptions C106_local_search_skipped_refuted.
(** the hypotheses of the theorems of this file, met *)
(** an acquisition function that is a NaN when the design has one *)
Definition demo_acq (x : list F) : F := fold_left (SFadd prec64 emax64) x (FofZ 0).
Lemma fold_nan (l : list F) : fold_left (SFadd prec64 emax64) l S754_nan = S754_nan.
Proof. induction l; auto. Qed.
Lemma add_nan x : SFadd prec64 emax64 x S754_nan = S754_nan.
Proof. destruct x as [?|?| |? ? ?]; reflexivity. Qed.
Lemma demo_never_wins : never_wins demo_acq.
Proof.
  intros v w H _. generalize (demo_acq w). intros a. assert (demo_acq v = S754_nan) as ->.
  { unfold demo_acq. generalize (FofZ 0). induction v as [|x v IH]; intros f. { exfalso. apply H. intros ? []. }
    cbn [fold_left]. destruct (match x with S754_nan => true | _ => false end) eqn:E. { destruct x; try discriminate. rewrite add_nan. apply fold_nan. }
    apply IH. intros Hv. apply H. intros y [<-|Hy]; auto. intros ->. discriminate. }
  destruct a; reflexivity.
Qed.
Lemma demo_double v : (forall x, In x v -> double x) -> double (demo_acq v).
Proof.
  intros H. unfold demo_acq. assert (double (FofZ 0)) as D by reflexivity. revert D. generalize (FofZ 0). induction v as [|x v IH]; intros f D; auto. cbn [fold_left]. apply IH. intros; apply H; right; auto. apply double_add; auto. apply H. left; auto.
Qed.
Definition demo_env : env F := mkEnv (Ok tt) (fun _ _ x => Flit 5 (-1)) (fun _ _ => demo_acq) (fun _ _ => last_draw) (fun _ _ => Flit 5 (-1))
    (seq_schedule 1) (seq_schedule 1) (fun x => Ok (FofZ 1)) (Ok tt) None.
Definition demo_cfg : cfg F := mkCfg 2 [FofZ (-1); FofZ 0] [Flit 1 (-1); FofZ 2] 1 2 1 [(1%nat, Flit 3 (-1))] [] true true true (mkMat 1 3 [Flit 5 (-2); FofZ 1; FofZ 3]).
Definition demo_state : ost F := match optSetup demo_cfg ost_new with (s, Ok _) => set_init true (fst (startRun demo_cfg (Ok tt) s)) | (s, _) => s end.
Lemma all_ok (l : list F) : forallb (fun x => valid_binary prec64 emax64 x && negb (Fisnan x)) l = true -> forall x, In x l -> double x /\ x <> S754_nan.
Proof. intros H x Hx. rewrite forallb_forall in H. specialize (H x Hx). apply andb_true_iff in H. destruct H as [Q1 Q2]. split. exact Q1. intros ->. discriminate. Qed.
Example C106_example : (1 <= Z.of_nat (c_dim demo_cfg) <= 2 ^ 53)%Z /\ float_box (c_dim demo_cfg) (c_lb demo_cfg) (c_ub demo_cfg) /\ increments (c_dim demo_cfg) (c_disc demo_cfg) /\
  (forall i k, draw (e_u1 demo_env i k)) /\ (forall i k, draw (e_u2 demo_env i k)) /\ (forall f sg, never_wins (e_acq demo_env f sg)) /\ (forall f sg v, double (e_ei demo_env f sg v)) /\
  double (s_trLen demo_state) /\ finite (s_trLen demo_state) /\ (forall x, In x (ds_xn (go_d (s_gopt demo_state))) -> double x /\ x <> S754_nan) /\
  exists s', findDesign demo_cfg demo_env demo_state = (s', Ok tt).
Proof.
  split. cbn. lia. split.
  { split; auto. split; auto. intros i Hi. destruct i as [|[|i]]; [| |cbn in Hi; lia]; unfold ent; cbn [nth c_lb c_ub demo_cfg]; (split; [apply moderate_ok; [lia|reflexivity]|split; [apply moderate_ok; [lia|reflexivity]|apply lt_fin_ok; reflexivity]]). }
  split. { intros i dx [H|[]]. apply pair_equal_spec in H as [<- <-]. split. { cbn. lia. }
    assert (lt_fin (FofZ 0) (Flit 3 (-1)) = true) as L by (vm_compute; reflexivity). destruct (lt_fin_ok _ _ L) as (A & B & C & D & E). destruct (ofZ_val 0 ltac:(cbn; lia)) as (_ & _ & E0). rewrite E0 in E.
    split. exact B. split. exact D. exact E. }
  split. { intros. apply draw_ok; reflexivity. } split. { intros. apply draw_ok; reflexivity. } split. { intros. apply demo_never_wins. } split. { intros. apply double_lit. }
  split. { vm_compute. reflexivity. } split. { vm_compute. exact I. } split.
  { apply all_ok. vm_compute. reflexivity. }
  eexists. vm_compute. reflexivity.
Qed.
(** bounds and draws of the theorems about random vectors, matrices, samples and discrete values *)
Example C106_example_box : float_box 1 [FofZ (-1)] [Flit 1 (-1)] /\ pow2 (-900) <= val (Flit 1 (-1)) - val (FofZ (-1)) /\ draw last_draw /\
  (exists vs, discreteValues (FofZ (-1)) (Flit 1 (-1)) (Flit 3 (-1)) = Ok vs /\ length vs = 4%nat).
Proof.
  split. apply box1; reflexivity. split.
  { destruct (lt_fin_ok (FofZ 0) (Flit 1 (-1)) eq_refl) as (_ & _ & _ & _ & E). destruct (ofZ_val 0 ltac:(cbn; lia)) as (_ & _ & E0). destruct (ofZ_val (-1) ltac:(cbn; lia)) as (_ & _ & E1). rewrite E0 in E. rewrite E1.
    assert (pow2 (-900) <= 1). { rewrite pow2_b. change 1 with (bpow radix2 0). apply bpow_le. lia. } lra. }
  split. apply draw_ok; reflexivity. eexists. split. vm_compute. reflexivity. reflexivity.
Qed.
