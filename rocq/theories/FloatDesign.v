(** A whole step of the optimiser in doubles: where the next design lies. *)
From Coq Require Import ZArith Reals Lra Lia Bool SpecFloat Psatz List Arith.
From Flocq Require Import Core BinarySingleNaN.
From Verif Require Import Base StM Num NumFloat FloatSpec FloatFlocq FloatProofs FloatOpt VecModel VecProofs MatModel MatLemmas DataProofs DesignModel HistModel KrigModel OptModel OptProofs OptRun.
Import ListNotations.
Local Open Scope R_scope.

Lemma sub_ok x y : double x -> double y -> ok_ x -> finite y -> ok_ (SFsub prec64 emax64 x y).
Proof.
  intros Dx Dy Nx Fy. destruct (ofB x Dx) as (x' & <-). destruct (ofB y Dy) as (y' & <-). rewrite sub_equiv. rewrite finite_B in Fy.
  destruct (is_finite x') eqn:Fx.
  - pose proof (Bminus_correct prec64 emax64 _ _ mode_NE x' y' Fx Fy) as H. destruct (Rlt_bool _ _).
    + destruct H as (_ & H & _). apply finite_nan, finite_B. exact H.
    + destruct H as [H _]. rewrite H. discriminate.
  - destruct x' as [|sx| |]; try discriminate Fx; [|cbn in Nx; congruence]. destruct y' as [|sy| |]; try discriminate Fy; cbn; discriminate.
Qed.
Lemma add_ok x y : double x -> double y -> ok_ x -> finite y -> ok_ (SFadd prec64 emax64 x y).
Proof.
  intros Dx Dy Nx Fy. destruct (ofB x Dx) as (x' & <-). destruct (ofB y Dy) as (y' & <-). rewrite add_equiv. rewrite finite_B in Fy.
  destruct (is_finite x') eqn:Fx.
  - pose proof (Bplus_correct prec64 emax64 _ _ mode_NE x' y' Fx Fy) as H. destruct (Rlt_bool _ _).
    + destruct H as (_ & H & _). apply finite_nan, finite_B. exact H.
    + destruct H as [H _]. rewrite H. discriminate.
  - destruct x' as [|sx| |]; try discriminate Fx; [|cbn in Nx; congruence]. destruct y' as [|sy| |]; try discriminate Fy; cbn; discriminate.
Qed.
Lemma val_big f : double f -> Rabs (val f) < big.
Proof. intros D. destruct (ofB f D) as (x & <-). rewrite val_B. apply abs_B2R_lt_emax. Qed.
Lemma double_lit m e : double (Flit m e).
Proof. unfold Flit. destruct (0 <=? e)%Z; [apply double_ofZ|apply double_div; apply double_ofZ]. Qed.
Lemma double_max a b : double a -> double b -> double (std_max a b).
Proof. unfold std_max. destruct (_ : bool); auto. Qed.
Lemma double_min a b : double a -> double b -> double (std_min a b).
Proof. unfold std_min. destruct (_ : bool); auto. Qed.

Section Dim.
  Variable d : nat.
  Hypothesis Hd : (1 <= Z.of_nat d <= 2 ^ 53)%Z.

  Lemma delta_ok len : double len -> finite len -> double (SFmul prec64 emax64 (inv_ d) len) /\ finite (SFmul prec64 emax64 (inv_ d) len).
  Proof.
    intros Dl Fl. destruct (inv_val d Hd) as (A & B & _ & C). destruct (mul_val (inv_ d) len) as (D1 & F1 & _); auto.
    apply (cap_le _ (Rabs (val len))). { apply generic_format_abs, val_fmt; auto. } { rewrite Rabs_mult, (Rabs_pos_eq (val (inv_ d))) by lra. pose proof (Rabs_pos (val len)). nra. } apply val_big; auto.
  Qed.
  Lemma trust_unit xn len lo up : double len -> finite len -> (forall i, (i < length xn)%nat -> double (vget xn i) /\ ok_ (vget xn i)) ->
    trustRegion d xn len = Ok (lo, up) -> length xn = d /\ length lo = d /\ length up = d /\ forall i, (i < d)%nat -> unit_ord d (vget lo i) /\ unit_ord d (vget up i).
  Proof.
    intros Dl Fl Hx H. unfold trustRegion in H. destruct (Nat.eqb_spec d 0); [discriminate|]. destruct (Nat.eqb_spec (length xn) d) as [Lx|]; [|discriminate]. cbn [negb] in H.
    cbv zeta in H. injection H as <- <-. split; auto. unfold trim. rewrite !vbuild_length. split; auto. split; auto.
    intros i Hi. destruct (Hx i ltac:(lia)) as [D1 N1]. destruct (delta_ok len Dl Fl) as [D2 F2].
    rewrite !(vget_vbuild d) by auto. unfold vec_subs, vec_adds. rewrite !(vget_vbuild (length xn)) by lia. unfold nofnat. cbn [nadd nsub nmul ndiv n1 nofZ FNum].
    split; apply (trim_unit d Hd); auto using double_sub, double_add, sub_ok, add_ok.
  Qed.
  Lemma dx_ok : double (ndiv (nlit 1 (-2)) (nofnat d) : F) /\ finite (ndiv (nlit 1 (-2)) (nofnat d) : F).
  Proof.
    unfold nofnat. cbn [ndiv nlit nofZ FNum]. destruct (ofZ_val (Z.of_nat d) ltac:(lia)) as (B1 & B2 & B3). assert (1 <= IZR (Z.of_nat d)) as N1 by (apply IZR_le; lia).
    assert (double (Flit 1 (-2))) as DL by apply double_lit. assert (finite (Flit 1 (-2))) as FL by (vm_compute; exact I). revert DL FL. generalize (Flit 1 (-2)). intros L DL FL.
    assert (Rabs (val L) < big) as VB by (apply val_big; auto).
    assert (cap (rnd (val L / val (FofZ (Z.of_nat d))))) as C.
    { apply (cap_le _ (Rabs (val L))); auto. { apply generic_format_abs, val_fmt; auto. }
      rewrite B3. unfold Rdiv. rewrite Rabs_mult. rewrite <- (Rmult_1_r (Rabs (val L))) at 2. apply Rmult_le_compat_l. apply Rabs_pos.
      rewrite Rabs_pos_eq by (apply Rlt_le, Rinv_0_lt_compat; lra). rewrite <- Rinv_1. apply Rinv_le; lra. }
    destruct (div_val L (FofZ (Z.of_nat d)) DL B1 FL ltac:(rewrite B3; lra) C) as (D1 & F1 & _). auto.
  Qed.
  Lemma around_unit s lo up us v : (forall k, draw (us k)) -> (forall i, (i < d)%nat -> unit_ord d (vget lo i) /\ unit_ord d (vget up i)) ->
    (forall i, (i < length s)%nat -> double (vget s i) /\ ok_ (vget s i)) -> randomAround d s lo up us = Ok v -> unit_vec d v.
  Proof.
    intros Hu Hlu Hs H. unfold randomAround in H. destruct (Nat.eqb_spec (length s) d) as [Ls|]; [|discriminate]. cbn [negb] in H. destruct (_ || _)%bool; [discriminate|].
    cbv zeta in H. set (dx := ndiv _ _) in H. destruct dx_ok as [Ddx Fdx]. fold dx in Ddx, Fdx. clearbody dx.
    apply (randomDesign_unit d _ _ us v Hd Hu) in H; [exact H|]. intros i Hi. rewrite !vget_vbuild by exact Hi.
    destruct (Hlu i Hi) as [(Dl & Nl & Al & Bl) (Dp & Np & Ap & Bp)]. destruct (Hs i ltac:(lia)) as [Hs1 Hs2]. destruct (inv_ok d Hd) as (_ & _ & Ni & _).
    set (a := nsub (vget s i) dx). set (b := nadd (vget s i) dx).
    assert (double a) as Da by (apply double_sub; auto). assert (double b) as Db by (apply double_add; auto).
    assert (ok_ a) as Na' by (apply sub_ok; auto). assert (ok_ b) as Nb' by (apply add_ok; auto).
    intros L. assert (lt_ (std_max a (vget lo i)) (vget lo i) = false) as L1. { unfold std_max. destruct (lt_ a (vget lo i)) eqn:E; auto. apply lt_irr; auto. }
    assert (lt_ (vget up i) (std_min b (vget up i)) = false) as L2. { unfold std_min. destruct (lt_ (vget up i) b) eqn:E; auto. apply lt_irr; auto. }
    assert (double (std_max a (vget lo i))) as D1 by (apply double_max; auto). assert (double (std_min b (vget up i))) as D2 by (apply double_min; auto).
    assert (ok_ (std_max a (vget lo i))) as Na by (unfold std_max; destruct (lt_ a (vget lo i)); auto). assert (ok_ (std_min b (vget up i))) as Nb by (unfold std_min; destruct (lt_ (vget up i) b); auto).
    set (p := std_max a (vget lo i)) in *. set (q := std_min b (vget up i)) in *.
    split; apply (unit_ord_val d Hd); (split; [auto|split; [auto|]]).
    - split. apply (le_tr n0 (vget lo i) p); auto. discriminate. apply (le_tr p q (inv_ d)); auto. apply (le_tr q (vget up i) (inv_ d)); auto.
    - split. apply (le_tr n0 p q); auto. discriminate. apply (le_tr n0 (vget lo i) p); auto. discriminate. apply (le_tr q (vget up i) (inv_ d)); auto.
  Qed.
End Dim.

(** *** the search *)
Lemma nan_free_dec v : nan_free v \/ ~ nan_free v.
Proof.
  induction v as [|x v [IH|IH]]. { left. intros y []. }
  - destruct x as [| | |]; try (left; intros y [<-|Hy]; [discriminate|auto]). right. intros H. apply (H S754_nan); [left; auto|reflexivity].
  - right. intros H. apply IH. intros y Hy. apply H. right; auto.
Qed.
(** a vector that holds a NaN never has a larger value than one that holds none *)
Lemma wins acq v w : never_wins acq -> nan_free w -> lt_ (acq w) (acq v) = true -> nan_free v.
Proof. intros H N L. destruct (nan_free_dec v); auto. rewrite H in L by auto. discriminate. Qed.
Lemma unit_nan d v : unit_vec d v -> nan_free v.
Proof. intros [L H] x Hx. apply (In_nth _ _ (S754_zero false)) in Hx. destruct Hx as (i & Hi & <-). destruct (H i ltac:(lia)) as (_ & Fi & _). apply finite_nan. exact Fi. Qed.
Lemma cands_inv (gen : nat -> Res (list F)) acq : forall n l, cands n gen acq = Ok l -> length l = n /\ forall i dflt, (i < n)%nat -> exists v, gen i = Ok v /\ nth i l dflt = (v, acq v).
Proof.
  induction n as [|n IH]; intros l H; cbn [cands] in H. { injection H as <-. split; auto. intros; lia. }
  destruct (cands n gen acq) as [l0|?|]; try discriminate. cbn [bind] in H. destruct (gen n) as [v|?|] eqn:Eg; try discriminate. cbn [bind] in H. injection H as <-.
  destruct (IH l0 eq_refl) as [L Q]. rewrite app_length. cbn [length]. split; [lia|]. intros i dflt Hi. destruct (Nat.eq_dec i n) as [->|].
  - exists v. split; auto. rewrite app_nth2 by lia. rewrite L, Nat.sub_diag. reflexivity.
  - rewrite app_nth1 by lia. apply Q. lia.
Qed.
Lemma search_unit (P : list F -> Prop) d n gen acq sch v0 a0 v a : P v0 -> (forall i w, gen i = Ok w -> P w) ->
  run_search d n gen acq sch (v0, a0) = Ok (v, a) -> P v.
Proof.
  intros H0 Hg H. unfold run_search in H. destruct (cands n gen acq) as [l|?|] eqn:E; try discriminate. cbn [bind] in H. injection H as H.
  destruct (cands_inv _ _ _ _ E) as [L Q].
  pose proof (reach_all (fun i => nth i l (v0, a0)) (v0, a0) sch) as [[R|(i & _ & _ & R & W)] _]; unfold search in H; rewrite R in H.
  - injection H as <- <-. auto.
  - destruct (le_lt_dec n i). { rewrite nth_overflow in H by lia. injection H as <- <-. auto. }
    destruct (Q i (v0, a0) ltac:(lia)) as (w & Eg & Ew). rewrite Ew in H, W. cbn [snd] in W. injection H as <- <-. apply (Hg i); auto.
Qed.
(** *** the ascent *)
Section Ascent.
  Variables (d : nat) (lo up : list F) (ei acq : list F -> F).
  Hypothesis Hd : (1 <= Z.of_nat d <= 2 ^ 53)%Z.
  Hypothesis Hlu : forall i, (i < d)%nat -> unit_ord d (vget lo i) /\ unit_ord d (vget up i).
  Hypothesis Hei : forall v, double (ei v).
  Hypothesis Hacq : never_wins acq.
  Lemma gradient_double dv i : (i < d)%nat -> double (vget dv i) -> double (vget (acqGradient ei d dv) i).
  Proof.
    intros Hi Dv. unfold acqGradient. rewrite vget_vbuild by auto. cbv zeta. apply double_div. apply double_sub; apply Hei. apply double_mul. apply double_ofZ.
    apply double_max. apply double_mul; auto. apply double_lit. apply double_lit.
  Qed.
  Lemma update_unit dv g step : double step -> (forall i, (i < d)%nat -> double (vget dv i) /\ double (vget g i)) -> nan_free (gradientUpdate d dv g lo up step) ->
    unit_vec d (gradientUpdate d dv g lo up step).
  Proof.
    intros Ds Hv Nv. assert (length (gradientUpdate d dv g lo up step) = d) as Lg by apply vbuild_length. split; auto. intros i Hi.
    pose proof (not_nan _ i Nv ltac:(lia)) as N. unfold gradientUpdate in *. rewrite vget_vbuild in * by auto. apply (unit_ord_val d Hd).
    destruct (Hlu i Hi). destruct (Hv i Hi). apply (clamp_unit d Hd); auto. apply double_add; auto. apply double_mul; auto.
  Qed.
  Lemma line_unit fuel dv g : nan_free dv -> (forall i, (i < d)%nat -> double (vget dv i) /\ double (vget g i)) -> forall step v a, double step ->
    lineSearch fuel acq d dv g lo up (acq dv) step = Some (Some (v, a)) -> unit_vec d v /\ a = acq v.
  Proof.
    intros Nd Hv. induction fuel as [|fuel IH]; intros step v a Ds H; [discriminate|]. cbn [lineSearch] in H.
    destruct (lt_ (acq dv) (acq (gradientUpdate d dv g lo up step))) eqn:E.
    - injection H as <- <-. split; auto. apply update_unit; auto. eapply wins; eauto.
    - cbv zeta in H. destruct (lt_ (nmul step _) _); [discriminate|]. eapply IH; [|exact H]. apply double_mul; auto. apply double_lit.
  Qed.
  Lemma ascent_unit n fuel : forall dv v a, unit_vec d dv -> ascent n fuel ei acq d lo up dv (acq dv) = Some (v, a) -> unit_vec d v.
  Proof.
    induction n as [|n IH]; intros dv v a Hv H; cbn [ascent] in H. { injection H as <- _. auto. }
    destruct (lineSearch _ _ _ _ _ _ _ _ _) as [[[v1 a1]|]|] eqn:E; try discriminate.
    - apply line_unit in E; [destruct E as [U1 ->]; apply (IH v1 v a); auto|apply (unit_nan d); auto| |apply double_lit]. intros i Hi. destruct Hv as [_ Hv]. assert (double (vget dv i)) by apply (Hv i Hi). split; auto. apply gradient_double; auto.
    - injection H as <- _. auto.
  Qed.
End Ascent.

(** *** the design itself *)
Lemma denorm_vec d lb ub v x : (1 <= Z.of_nat d <= 2 ^ 53)%Z -> float_box d lb ub -> unit_vec d v -> vec_denormalize v lb ub = Ok x -> almost_inside (pow2 (-51)) d lb ub x.
Proof.
  intros Hd (Ll & Lu & B) [Lv Hv] H. unfold vec_denormalize in H. destruct (_ || _)%bool; [discriminate|]. cbv zeta in H. injection H as <-. rewrite Lv.
  split. apply vbuild_length. intros i Hi. change (ent (vbuild d ?f) i) with (@vget F FNum (vbuild d f) i). rewrite !(vget_vbuild d) by auto.
  destruct (B i Hi) as (B1 & B2 & B3). destruct (denorm_F d (vget v i) (ent lb i) (ent ub i) Hd B1 B2 ltac:(lra) (Hv i Hi)) as (Q1 & Q2 & Q3 & Q4 & _).
  unfold nofnat. cbn [nadd nsub nmul nofZ FNum]. change (vget lb i) with (ent lb i). change (vget ub i) with (ent ub i). split; [exact Q1|]. split; [exact Q2|]. lra.
Qed.
Lemma pow2_le : 0 < pow2 (-51) < pow2 (-50).
Proof. rewrite !pow2_b. split. apply bpow_gt_0. apply bpow_lt. lia. Qed.
Lemma almost_weaken d lb ub x : almost_inside (pow2 (-51)) d lb ub x -> almost_inside (pow2 (-50)) d lb ub x.
Proof.
  intros [L H]. split; auto. intros i Hi. destruct (H i Hi) as (A & B & C). split; auto. split; auto. pose proof pow2_le as P.
  assert (0 <= Rmax (Rabs (val (ent lb i))) (Rabs (val (ent ub i)))) as M0 by (eapply Rle_trans; [apply Rabs_pos|apply Rmax_l]).
  assert (pow2 (-51) * Rmax (Rabs (val (ent lb i))) (Rabs (val (ent ub i))) <= pow2 (-50) * Rmax (Rabs (val (ent lb i))) (Rabs (val (ent ub i)))) by (apply Rmult_le_compat_r; lra). lra.
Qed.
Lemma discreteValues_F lb ub dx vs k : moderate (pow2 1020) lb -> moderate (pow2 1020) ub -> val lb < val ub -> double dx -> finite dx -> 0 < val dx ->
  discreteValues lb ub dx = Ok vs -> (k < length vs)%nat ->
  double (vget vs k) /\ finite (vget vs k) /\ val lb <= val (vget vs k) <= val ub + pow2 (-50) * Rmax (Rabs (val lb)) (Rabs (val ub)).
Proof.
  intros Hl Hu H Dd Fd Pd E Hk. unfold discreteValues in E. destruct (nfloor _) as [z|] eqn:Ez; [|discriminate]. destruct (Z.ltb_spec z 0); [discriminate|].
  destruct (Z.leb_spec (2 ^ 32 - 1) z); [discriminate|]. cbn [orb] in E. injection E as <-. rewrite vbuild_length in Hk. rewrite vget_vbuild by auto.
  apply (discrete_F lb ub dx k Hl Hu ltac:(lra) Dd Fd Pd z Ez). lia.
Qed.
Lemma round_F d lb ub : float_box d lb ub -> forall l x y, increments d l -> almost_inside (pow2 (-50)) d lb ub x -> roundDiscrete lb ub l x = Ok y -> almost_inside (pow2 (-50)) d lb ub y.
Proof.
  intros (Ll & Lu & B). induction l as [|[i dx] l IH]; intros x y Hi Hx H; cbn [roundDiscrete] in H. { injection H as <-. auto. }
  destruct (Hi i dx ltac:(left; auto)) as (I1 & I2 & I3 & I4). destruct (B i I1) as (B1 & B2 & B3).
  destruct (vec_at x i) as [v0|?|] eqn:E0; try discriminate. cbn [bind] in H.
  unfold vec_at in H at 1. destruct (Nat.leb_spec (length lb) i); [lia|]. cbn [bind] in H. unfold vec_at in H at 1. destruct (Nat.leb_spec (length ub) i); [lia|]. cbn [bind] in H.
  destruct (discreteValues _ _ _) as [vs|?|] eqn:Ev; try discriminate. cbn [bind] in H.
  unfold vec_at in H. destruct (Nat.leb_spec (length vs) (closest v0 vs)) as [|Lc]; [discriminate|]. cbn [bind] in H.
  unfold vec_set in H. destruct (Nat.leb_spec (length x) i) as [|Lx]; [discriminate|]. cbn [bind] in H.
  pose proof (discreteValues_F _ _ _ _ _ B1 B2 B3 I2 I3 I4 Ev Lc) as Q.
  apply (IH _ y) in H; auto. { intros j dy Hj. apply Hi. right; auto. }
  destruct Hx as [L1 Hx]. split. rewrite upd_length; auto. intros j Hj. set (z := vget vs (closest v0 vs)) in *. destruct (Nat.eq_dec j i) as [->|].
  - assert (ent (upd x i z) i = z) as -> by (unfold ent; rewrite nth_upd_same by auto; reflexivity). exact Q.
  - assert (ent (upd x i z) j = ent x j) as -> by (unfold ent; rewrite nth_upd_other by auto; reflexivity). apply Hx; auto.
Qed.

Lemma lift_inv {S A} (r : Res A) (s s1 : S) b : slift r s = (s1, Ok b) -> s1 = s /\ r = Ok b.
Proof. unfold slift. intros H. injection H. auto. Qed.
Lemma mostPromising_unit (c : cfg F) (e : env F) (s s' : ost F) v a lo up : (1 <= Z.of_nat (c_dim c) <= 2 ^ 53)%Z ->
  (forall i k, draw (e_u1 e i k)) -> (forall i k, draw (e_u2 e i k)) ->
  double (s_trLen s) -> finite (s_trLen s) -> (forall x, In x (ds_xn (go_d (s_gopt s))) -> double x /\ ok_ x) ->
  mostPromising c e s = (s', Ok ((v, a), (lo, up))) -> unit_vec (c_dim c) v /\ forall i, (i < c_dim c)%nat -> unit_ord (c_dim c) (vget lo i) /\ unit_ord (c_dim c) (vget up i).
Proof.
  intros Hd U1 U2 D1 F1 Hx H. unfold mostPromising in H. rewrite (sbind_ok _ _ _ s s) in H by reflexivity. cbv zeta in H.
  apply sbind_inv in H as [(s1 & u & H1 & H)|[_ H]]; [|discriminate]. assert (s1 = s) as -> by (destruct (_ || _)%bool in H1; cbn in H1; [discriminate|injection H1; auto]). clear H1 u.
  apply sbind_inv in H as [(s1 & b & H1 & H)|[_ H]]; [|discriminate]. apply lift_inv in H1 as [-> Et]. destruct b as [lo' up'].
  apply sbind_inv in H as [(s1 & c1 & H1 & H)|[_ H]]; [|discriminate]. apply lift_inv in H1 as [-> E1]. cbn [fst snd] in *.
  apply sbind_inv in H as [(s1 & x & H1 & H)|[_ H]]; [|discriminate]. apply lift_inv in H1 as [-> _].
  apply sbind_inv in H as [(s1 & inb & H1 & H)|[_ H]]; [|discriminate]. apply lift_inv in H1 as [-> _].
  apply sbind_inv in H as [(s1 & c2 & H1 & H)|[_ H]]; [|discriminate]. apply lift_inv in H1 as [-> E2].
  unfold sret in H. injection H as _ H2 H3 H4. subst lo' up'. destruct c2 as [v2 a2]. injection H2 as -> ->.
  assert (forall i, (i < length (ds_xn (go_d (s_gopt s))))%nat -> double (vget (ds_xn (go_d (s_gopt s))) i) /\ ok_ (vget (ds_xn (go_d (s_gopt s))) i)) as Hx'. { intros i Hi. apply Hx. apply nth_In; auto. }
  destruct (trust_unit (c_dim c) Hd _ _ _ _ D1 F1 Hx' Et) as (L0 & L1 & L2 & Hlu).
  split; auto. destruct c1 as [v1 a1].
  assert (unit_vec (c_dim c) v1) as P1.
  { eapply search_unit; [|intros i w|exact E1].
    - split. apply repeat_length. intros i Hi. unfold vget. rewrite nth_repeat. apply (unit_ord_val _ Hd), (unit_zero _ Hd).
    - intros Hw. eapply (randomDesign_unit (c_dim c) _ _ _ _ Hd (U1 i)); [|exact Hw]. intros j Hj _. destruct (Hlu j Hj). split; apply (unit_ord_val _ Hd); auto. }
  destruct inb; [|injection E2 as <- _; auto].
  eapply search_unit; [exact P1|intros i w Hw|exact E2].
  eapply (around_unit (c_dim c) Hd); [apply (U2 i)|exact Hlu| |exact Hw]. intros j Hj. apply Hx'. auto.
Qed.
Lemma findDesign_inside (c : cfg F) (e : env F) (s s' : ost F) : (1 <= Z.of_nat (c_dim c) <= 2 ^ 53)%Z -> float_box (c_dim c) (c_lb c) (c_ub c) -> increments (c_dim c) (c_disc c) ->
  (forall i k, draw (e_u1 e i k)) -> (forall i k, draw (e_u2 e i k)) -> (forall f sg, never_wins (e_acq e f sg)) -> (forall f sg v, double (e_ei e f sg v)) ->
  double (s_trLen s) -> finite (s_trLen s) -> (forall x, In x (ds_xn (go_d (s_gopt s))) -> double x /\ ok_ x) ->
  findDesign c e s = (s', Ok tt) -> almost_inside (pow2 (-50)) (c_dim c) (c_lb c) (c_ub c) (ds_x (s_cur s')).
Proof.
  intros Hd Hb Hi U1 U2 Hn He D1 F1 Hx H. unfold findDesign in H.
  apply sbind_inv in H as [(s1 & [[v a] [lo up]] & H1 & H)|[_ H]]; [|discriminate].
  pose proof (mostPromising_frame _ _ _ _ _ H1) as ->. destruct (mostPromising_unit c e s s v a lo up Hd U1 U2 D1 F1 Hx H1) as [Uv Hlu].
  rewrite (sbind_ok _ _ _ s s) in H by reflexivity. cbv zeta in H. cbn [fst snd] in H.
  destruct (maximize _ _ _ _ _ _) as [[w aw]|] eqn:Em; [|discriminate]. unfold maximize in Em.
  apply (ascent_unit (c_dim c) lo up _ _ Hd Hlu (He _ _) (Hn _ _)) in Em; auto.
  apply sbind_inv in H as [(s1 & x & H2 & H)|[_ H]]; [|discriminate]. apply lift_inv in H2 as [-> Ex].
  apply sbind_inv in H as [(s1 & y & H2 & H)|[_ H]]; [|discriminate]. apply lift_inv in H2 as [-> Ey].
  unfold on_cur, smod in H. injection H as <-. cbn.
  eapply round_F; [exact Hb|exact Hi| |exact Ey]. apply almost_weaken. apply (denorm_vec _ _ _ w); auto.
Qed.
