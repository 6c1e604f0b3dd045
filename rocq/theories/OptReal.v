From Coq Require Import Reals Lra Lia Psatz List Arith Bool ZArith.
From Verif Require Import Base StM Num RealNum VecModel VecProofs VecProofs2 VecReal MatModel MatLemmas OptModel OptProofs OptSpec.
Import ListNotations.
Local Open Scope R_scope.

(** *** C43 *)
Lemma IZR_nat n : IZR (Z.of_nat n) = INR n.
Proof. symmetry. apply INR_IZR_INZ. Qed.
Lemma discrete_ok lb ub dx : 0 < dx -> lb <= ub -> (ub - lb) / dx < 2 ^ 32 - 1 ->
  exists K, discreteValues lb ub dx = Ok (vbuild (K + 1) (fun k => lb + INR k * dx)) /\ lb + INR K * dx <= ub < lb + INR (K + 1) * dx.
Proof.
  intros Hd Hl Hq. unfold discreteValues. cbn [nfloor RNum nsub ndiv]. pose proof (Rfloor_spec ((ub - lb) / dx)) as [F1 F2]. set (z := Rfloor ((ub - lb) / dx)) in *.
  assert (0 <= (ub - lb) / dx) as Q0. { apply Rmult_le_pos. lra. left; apply Rinv_0_lt_compat; auto. }
  assert (0 <= z)%Z as Z0. { assert (-1 < z)%Z; [|lia]. apply lt_IZR. simpl. lra. }
  assert (z < 2 ^ 32 - 1)%Z as Z1. { apply lt_IZR. change (2 ^ 32 - 1)%Z with 4294967295%Z. lra. }
  destruct (Z.ltb_spec z 0); [lia|]. destruct (Z.leb_spec (2 ^ 32 - 1) z); [lia|]. cbn [orb].
  exists (Z.to_nat z). split. { f_equal. unfold vbuild. apply map_ext. intros k. unfold nofnat. cbn. rewrite IZR_nat. reflexivity. }
  rewrite plus_INR, INR_IZR_INZ, Z2Nat.id by lia. simpl (INR 1).
  assert (ub - lb = (ub - lb) / dx * dx) as E by (field; lra). split; nra.
Qed.
Lemma grid_values lb ub dx K : 0 < dx -> lb + INR K * dx <= ub < lb + INR (K + 1) * dx ->
  forall y, grid lb ub dx y <-> exists k, (k < K + 1)%nat /\ y = lb + INR k * dx.
Proof.
  intros Hd [H1 H2] y. split.
  - intros (k & -> & Hk). exists k. split; auto. apply INR_lt. assert (INR k * dx < INR (K + 1) * dx) by lra. nra.
  - intros (k & Hk & ->). exists k. split; auto. assert (INR k <= INR K) by (apply le_INR; lia). nra.
Qed.
Lemma closest_ok v (vs : list R) : (0 < length vs)%nat ->
  (closest v vs < length vs)%nat /\ (forall j, (j < length vs)%nat -> Rabs (v - nth (closest v vs) vs 0) <= Rabs (v - nth j vs 0)) /\
  (forall j, (j < closest v vs)%nat -> Rabs (v - nth (closest v vs) vs 0) < Rabs (v - nth j vs 0)).
Proof.
  intros Hl. unfold closest.
  match goal with |- context [loop_from 1 (length vs) ?f ?s] => pose proof (loop_from_inv (fun k (st : R * nat) => (snd st < k)%nat /\ fst st = Rabs (v - nth (snd st) vs 0) /\
    (forall j, (j < k)%nat -> fst st <= Rabs (v - nth j vs 0)) /\ (forall j, (j < snd st)%nat -> fst st < Rabs (v - nth j vs 0))) 1 (length vs) f s) as L end.
  destruct L as (L1 & L2 & L3 & L4); auto.
  - cbn [fst snd]. split; [lia|]. split; [reflexivity|]. split. intros j Hj. assert (j = 0)%nat by lia. subst. unfold vget. simpl. lra. intros j Hj. lia.
  - intros k [m i] Hk (H1 & H2 & H3 & H4). cbn [fst snd] in *. unfold vget. simpl.
    destruct (Rltb_spec (Rabs (v - nth k vs 0)) m) as [L|L]; cbn [fst snd].
    + split; [lia|]. split; auto. split. intros j Hj. destruct (Nat.eq_dec j k) as [->|]. lra. pose proof (H3 j ltac:(lia)). lra. intros j Hj. pose proof (H3 j Hj). lra.
    + split; [lia|]. split; auto. split; auto. intros j Hj. destruct (Nat.eq_dec j k) as [->|]. lra. apply H3. lia.
  - split; auto. rewrite <- L2. split; intros; auto.
Qed.
Lemma nearest_ok lb ub dx v : 0 < dx -> lb <= ub -> (ub - lb) / dx < 2 ^ 32 - 1 ->
  exists vs y, discreteValues lb ub dx = Ok vs /\ vec_at vs (closest v vs) = Ok y /\ nearest lb ub dx v y.
Proof.
  intros Hd Hl Hq. destruct (discrete_ok lb ub dx Hd Hl Hq) as (K & E & B). set (vs := vbuild (K + 1) (fun k => lb + INR k * dx)) in *.
  assert (length vs = (K + 1)%nat) as Lv by apply vbuild_length. destruct (closest_ok v vs) as (C1 & C2 & C3). lia.
  assert (forall k, (k < K + 1)%nat -> nth k vs 0 = lb + INR k * dx) as Nv. { intros k Hk. change (vget vs k = lb + INR k * dx). unfold vs. rewrite vget_vbuild; auto. }
  pose proof (grid_values lb ub dx K Hd B) as G.
  exists vs, (nth (closest v vs) vs 0). split; auto. split. { unfold vec_at. destruct (Nat.leb_spec (length vs) (closest v vs)); [lia|reflexivity]. }
  rewrite Lv in C1. split. { apply G. exists (closest v vs). auto. }
  intros z Hz. apply G in Hz as (k & Hk & ->). rewrite <- (Nv k) by auto. split. { apply C2. lia. }
  intros Hlt. apply C3. rewrite !Nv in Hlt by auto. apply INR_lt. nra.
Qed.
Lemma nearest_unique lb ub dx v y z : nearest lb ub dx v y -> nearest lb ub dx v z -> y = z.
Proof.
  intros [G1 H1] [G2 H2]. destruct (Rtotal_order y z) as [L|[E|L]]; auto.
  - destruct (H1 z G2). destruct (H2 y G1) as [_ Q]. specialize (Q L). lra.
  - destruct (H2 y G1). destruct (H1 z G2) as [_ Q]. specialize (Q L). lra.
Qed.
Lemma nearest_idem lb ub dx y : grid lb ub dx y -> nearest lb ub dx y y.
Proof.
  intros G. split; auto. intros z Hz. rewrite Rminus_diag_eq by auto. rewrite Rabs_R0. split. apply Rabs_pos. intros L. apply Rabs_pos_lt. lra.
Qed.
Definition disc_ok (lb ub : list R) (l : list (nat * R)) : Prop :=
  NoDup (map fst l) /\ forall i dx, In (i, dx) l -> (i < length lb)%nat /\ 0 < dx /\ (nth i ub 0 - nth i lb 0) / dx < 2 ^ 32 - 1.
Lemma round_ok lb ub l : length ub = length lb -> (forall i, (i < length lb)%nat -> nth i lb 0 <= nth i ub 0) -> disc_ok lb ub l ->
  forall x, length x = length lb -> exists y, roundDiscrete lb ub l x = Ok y /\ length y = length x /\
    (forall i dx, In (i, dx) l -> nearest (nth i lb 0) (nth i ub 0) dx (nth i x 0) (nth i y 0)) /\
    (forall i, ~ In i (map fst l) -> nth i y 0 = nth i x 0).
Proof.
  intros Hu Hb. induction l as [|[i dx] l IH]; intros [Hn Hd] x Hx. { exists x. split; auto. split; auto. split; auto. intros i dx []. }
  cbn [map fst] in Hn. inversion_clear Hn. destruct (Hd i dx ltac:(left; auto)) as (Hi & Dx & Q).
  destruct (nearest_ok (nth i lb 0) (nth i ub 0) dx (nth i x 0) Dx (Hb i Hi) Q) as (vs & y0 & E1 & E2 & N).
  destruct (IH) with (x := upd x i y0) as (y & E & Ly & Py & Oy).
  { split; auto. intros; apply Hd; right; auto. } { rewrite upd_length; auto. }
  exists y. split.
  - cbn [roundDiscrete]. unfold vec_at at 1 2 3. destruct (Nat.leb_spec (length x) i); [lia|]. destruct (Nat.leb_spec (length lb) i); [lia|]. destruct (Nat.leb_spec (length ub) i); [lia|].
    cbn [bind]. unfold vget. change (@n0 R RNum) with 0. rewrite E1. cbn [bind]. rewrite E2. cbn [bind].
    unfold vec_set. destruct (Nat.leb_spec (length x) i); [lia|]. cbn [bind]. exact E.
  - rewrite upd_length in Ly. split; auto. split.
    + intros j dx' [Q'|Hj]. { injection Q' as <- <-. rewrite Oy by auto. rewrite nth_upd_same by lia. auto. }
      assert (j <> i) as Nij. { intros ->. apply H. apply (in_map fst) in Hj. auto. } specialize (Py j dx' Hj). rewrite nth_upd_other in Py by auto. auto.
    + intros j Hj. cbn [map fst] in Hj. rewrite Oy by (intro; apply Hj; right; auto). apply nth_upd_other. intros ->. apply Hj. left; auto.
Qed.

(** *** Trust region *)
Lemma ofnat_R n : @nofnat R RNum n = INR n.
Proof. unfold nofnat. cbn. apply IZR_nat. Qed.
Definition clamp (d : nat) (v : R) : R := Rmin (Rmax v 0) (1 / INR d).
Lemma trim_nth d x i : (0 < d)%nat -> (i < d)%nat -> nth i (trim d x) 0 = clamp d (nth i x 0).
Proof.
  intros H0 Hi. change (vget (trim d x) i = clamp d (vget x i)). unfold trim. rewrite vget_vbuild by auto. rewrite ofnat_R. cbn [nltb RNum n0 n1 ndiv].
  assert (0 < 1 / INR d) by (apply Rdiv_lt_0_compat; [lra|apply lt_0_INR; lia]). unfold clamp.
  destruct (Rltb_spec (vget x i) 0). rewrite (Rmax_right (vget x i)) by lra. destruct (Rltb_spec (1 / INR d) 0); try lra. rewrite Rmin_left; lra.
  rewrite (Rmax_left (vget x i)) by lra. destruct (Rltb_spec (1 / INR d) (vget x i)). rewrite Rmin_right; lra. rewrite Rmin_left; lra.
Qed.
Lemma clamp_mono d a b : a <= b -> clamp d a <= clamp d b.
Proof. intros. unfold clamp. apply Rle_min_compat_r. apply Rle_max_compat_r. auto. Qed.
Lemma clamp_range d v : (0 < d)%nat -> 0 <= clamp d v <= 1 / INR d.
Proof.
  intros. assert (0 < 1 / INR d) by (apply Rdiv_lt_0_compat; [lra|apply lt_0_INR; lia]). unfold clamp. split. apply Rmin_glb. apply Rmax_r. lra. apply Rmin_r.
Qed.
Lemma clamp_id d v : 0 <= v <= 1 / INR d -> clamp d v = v.
Proof. intros. unfold clamp. rewrite Rmax_left by lra. apply Rmin_left. lra. Qed.
Lemma trust_ok d dv len : (0 < d)%nat -> length dv = d -> 0 <= len ->
  exists lo up, trustRegion d dv len = Ok (lo, up) /\ length lo = d /\ length up = d /\
    forall i, (i < d)%nat -> nth i lo 0 = clamp d (nth i dv 0 - len / INR d) /\ nth i up 0 = clamp d (nth i dv 0 + len / INR d) /\
      0 <= nth i lo 0 <= clamp d (nth i dv 0) /\ clamp d (nth i dv 0) <= nth i up 0 <= 1 / INR d.
Proof.
  intros Hd Hl Hlen. unfold trustRegion. destruct (Nat.eqb_spec d 0); [lia|]. rewrite Hl, Nat.eqb_refl. cbn [negb]. eexists; eexists. split; [reflexivity|].
  split. apply vbuild_length. split. apply vbuild_length. intros i Hi. rewrite !trim_nth by auto.
  assert (0 < INR d) by (apply lt_0_INR; lia). assert (0 <= len / INR d) by (apply Rmult_le_pos; auto; left; apply Rinv_0_lt_compat; auto).
  assert (nth i (vec_subs dv (n1 /! nofnat d *! len)) 0 = nth i dv 0 - len / INR d) as ->.
  { change (vget (vec_subs dv (n1 /! nofnat d *! len)) i = nth i dv 0 - len / INR d). unfold vec_subs. rewrite vget_vbuild by lia. rewrite ofnat_R. cbn. unfold vget. cbn. field. lra. }
  assert (nth i (vec_adds dv (n1 /! nofnat d *! len)) 0 = nth i dv 0 + len / INR d) as ->.
  { change (vget (vec_adds dv (n1 /! nofnat d *! len)) i = nth i dv 0 + len / INR d). unfold vec_adds. rewrite vget_vbuild by lia. rewrite ofnat_R. cbn. unfold vget. cbn. field. lra. }
  split; auto. split; auto. split; (split; [|]). apply clamp_range; auto. apply clamp_mono; lra. apply clamp_mono; lra. apply clamp_range; auto.
Qed.

(** *** Candidates *)
Definition unit_box (d : nat) (v : list R) : Prop := length v = d /\ forall i, (i < d)%nat -> 0 <= nth i v 0 <= 1 / INR d.
Definition between (d : nat) (lo up v : list R) : Prop := length v = d /\ forall i, (i < d)%nat -> nth i lo 0 <= nth i v 0 <= nth i up 0.
Lemma random_ok d lo up u : (forall k, 0 <= u k < 1) -> length lo = d -> length up = d -> (forall i, (i < d)%nat -> nth i lo 0 <= nth i up 0) ->
  exists v, randomDesign d lo up u = Ok v /\ between d lo up v.
Proof.
  intros Hu Hl Hp H. unfold randomDesign. assert (length (repeat (@n0 R RNum) d) = d) as Lr by apply repeat_length.
  destruct (proj1 (fillRandomV_spec (repeat (@n0 R RNum) d) lo up u Hu)) as (w & E & Lw & B); try congruence.
  { intros i Hi. rewrite Lr in Hi. auto. } rewrite Lr in *. rewrite E. exists w. split; auto. split; auto.
Qed.
Lemma stdmax_R a b : std_max a b = Rmax a b.
Proof. unfold std_max. cbn. destruct (Rltb_spec a b). rewrite Rmax_right; lra. rewrite Rmax_left; lra. Qed.
Lemma stdmin_R a b : std_min a b = Rmin a b.
Proof. unfold std_min. cbn. destruct (Rltb_spec b a). rewrite Rmin_right; lra. rewrite Rmin_left; lra. Qed.
Lemma around_ok d s lo up u : (0 < d)%nat -> (forall k, 0 <= u k < 1) -> between d lo up s -> length lo = d -> length up = d ->
  exists v, randomAround d s lo up u = Ok v /\ between d lo up v /\ forall i, (i < d)%nat -> Rabs (nth i v 0 - nth i s 0) <= 1 / 100 / INR d.
Proof.
  intros Hd Hu [Ls Bs] Ll Lu. unfold randomAround. rewrite Ls, Nat.eqb_refl. cbn [negb]. rewrite Ll, Lu, Nat.ltb_irrefl. cbn [orb].
  set (dx := nlit 1 (-2) /! nofnat d). assert (dx = 1 / 100 / INR d) as Edx. { unfold dx. rewrite ofnat_R. cbn. unfold Rlit. simpl. assert (0 < INR d) by (apply lt_0_INR; lia). field. lra. }
  assert (0 < dx) as Pdx. { rewrite Edx. apply Rdiv_lt_0_compat. lra. apply lt_0_INR; lia. }
  set (l1 := vbuild d (fun i => std_max (vget s i -! dx) (vget lo i))). set (u1 := vbuild d (fun i => std_min (vget s i +! dx) (vget up i))).
  assert (forall i, (i < d)%nat -> nth i l1 0 = Rmax (nth i s 0 - dx) (nth i lo 0)) as N1. { intros i Hi. change (vget l1 i = Rmax (nth i s 0 - dx) (nth i lo 0)). unfold l1. rewrite vget_vbuild by auto. rewrite stdmax_R. reflexivity. }
  assert (forall i, (i < d)%nat -> nth i u1 0 = Rmin (nth i s 0 + dx) (nth i up 0)) as N2. { intros i Hi. change (vget u1 i = Rmin (nth i s 0 + dx) (nth i up 0)). unfold u1. rewrite vget_vbuild by auto. rewrite stdmin_R. reflexivity. }
  destruct (random_ok d l1 u1 u Hu) as (v & E & Lv & Bv). apply vbuild_length. apply vbuild_length.
  { intros i Hi. rewrite N1, N2 by auto. specialize (Bs i Hi). unfold Rmax, Rmin. destruct (Rle_dec _ _), (Rle_dec _ _); lra. }
  exists v. split; auto. assert (forall i, (i < d)%nat -> Rmax (nth i s 0 - dx) (nth i lo 0) <= nth i v 0 <= Rmin (nth i s 0 + dx) (nth i up 0)) as B.
  { intros i Hi. rewrite <- N1, <- N2 by auto. auto. }
  split. { split; auto. intros i Hi. specialize (B i Hi). pose proof (Rmax_r (nth i s 0 - dx) (nth i lo 0)). pose proof (Rmin_r (nth i s 0 + dx) (nth i up 0)). lra. }
  intros i Hi. specialize (B i Hi). rewrite <- Edx. pose proof (Rmax_l (nth i s 0 - dx) (nth i lo 0)). pose proof (Rmin_l (nth i s 0 + dx) (nth i up 0)). apply Rabs_le. lra.
Qed.
Lemma cands_ok (P : list R -> Prop) n gen acq : (forall i, (i < n)%nat -> exists v, gen i = Ok v /\ P v) ->
  exists l, cands n gen acq = Ok l /\ length l = n /\ forall i, (i < n)%nat -> forall dflt, exists v, gen i = Ok v /\ P v /\ nth i l dflt = (v, acq v).
Proof.
  induction n as [|n IH]; intros H. { exists []. repeat split; auto. intros; lia. }
  destruct IH as (l & E & L & Q). { intros; apply H; lia. } destruct (H n ltac:(lia)) as (v & Ev & Pv).
  exists (l ++ [(v, acq v)]). cbn [cands]. rewrite E. cbn [bind]. rewrite Ev. cbn [bind]. split; auto. split. rewrite app_length; simpl; lia.
  intros i Hi dflt. destruct (Nat.eq_dec i n) as [->|].
  - exists v. repeat split; auto. rewrite app_nth2 by lia. rewrite L, Nat.sub_diag. reflexivity.
  - destruct (Q i ltac:(lia) dflt) as (w & ? & ? & ?). exists w. repeat split; auto. rewrite app_nth1 by lia. auto.
Qed.

(** *** Denormalisation of a point of the unit box *)
Lemma denorm_box d lb ub v : (0 < d)%nat -> length lb = d -> length ub = d -> (forall i, (i < d)%nat -> nth i lb 0 <= nth i ub 0) -> unit_box d v ->
  exists x, vec_denormalize v lb ub = Ok x /\ in_box lb ub x /\ forall i, (i < d)%nat -> nth i x 0 = nth i v 0 * INR d * (nth i ub 0 - nth i lb 0) + nth i lb 0.
Proof.
  intros Hd Hl Hu Hb [Lv Bv]. rewrite denormalize_ok by lia. eexists. split; [reflexivity|]. rewrite Lv.
  assert (0 < INR d) as Pd by (apply lt_0_INR; lia).
  assert (forall i, (i < d)%nat -> nth i (vbuild d (fun i => vget v i * IZR (Z.of_nat d) * (vget ub i - vget lb i) + vget lb i)) 0 = nth i v 0 * INR d * (nth i ub 0 - nth i lb 0) + nth i lb 0) as N.
  { intros i Hi. change (vget (vbuild d (fun i => vget v i * IZR (Z.of_nat d) * (vget ub i - vget lb i) + vget lb i)) i = nth i v 0 * INR d * (nth i ub 0 - nth i lb 0) + nth i lb 0). rewrite vget_vbuild by auto. rewrite IZR_nat. reflexivity. }
  split; auto. split. rewrite vbuild_length; auto. rewrite vbuild_length. intros i Hi. rewrite N by auto. specialize (Bv i Hi). specialize (Hb i Hi).
  assert (0 <= nth i v 0 * INR d <= 1). { split. apply Rmult_le_pos; lra. assert (nth i v 0 * INR d <= 1 / INR d * INR d) by nra. replace (1 / INR d * INR d) with 1 in H by (field; lra). lra. } nra.
Qed.
Lemma round_box lb ub l x y : in_box lb ub x -> length y = length x ->
  (forall i dx, In (i, dx) l -> 0 < dx /\ nearest (nth i lb 0) (nth i ub 0) dx (nth i x 0) (nth i y 0)) -> (forall i, ~ In i (map fst l) -> nth i y 0 = nth i x 0) -> in_box lb ub y.
Proof.
  intros [Lx Bx] Ly Hn Ho. split. lia. intros i Hi. destruct (in_dec Nat.eq_dec i (map fst l)) as [I|I].
  - apply in_map_iff in I as ([j dx] & E & Hj). cbn in E. subst j. destruct (Hn i dx Hj) as (Hdx & (k & E & U) & _). split; auto. rewrite E.
    assert (0 <= INR k) by apply pos_INR. nra.
  - rewrite Ho by auto. apply Bx. lia.
Qed.

(** *** Improvement *)
Definition NOREF : R := - @ndblmax R RNum.
Lemma lit5 : @nlit R RNum 1 (-5) = 1 / 10 ^ 5.
Proof. unfold nlit, RNum, Rlit. simpl. field. Qed.
Lemma improvement_ref best fe f : 1 / 10 ^ 5 <= Rabs (best + @ndblmax R RNum) -> improvement best fe f = (best, improvement_over best (fe, f)).
Proof.
  intros H. unfold improvement, improvement_over. destruct fe; auto. cbn [fst snd]. cbn [nabs nadd nltb RNum nsub n0].
  rewrite (proj2 (Rltb_false _ _)). 2:{ rewrite lit5. cbn [ndblmax RNum] in H. exact H. }
  destruct (Rltb_spec f best). rewrite Rmax_right by lra. auto. rewrite Rmax_left by lra. auto.
Qed.
Lemma improvement_first f : improvement NOREF true f = (f, @ndbleps R RNum).
Proof.
  unfold improvement, NOREF. cbn [nabs nadd nltb RNum nsub n0]. rewrite Rplus_opp_l, Rabs_R0. rewrite (proj2 (Rltb_true _ _)). 2:{ rewrite lit5. lra. }
  rewrite (proj2 (Rltb_false f f)) by lra. auto.
Qed.
Lemma improvement_infeasible best f : improvement best false f = (best, 0).
Proof. reflexivity. Qed.

(** *** line search steps *)
Lemma steps_R : nltb (nstep 27 (@nlit R RNum 1 (-3))) (nlit 10 (-12)) = true.
Proof. apply Rltb_true. cbn [nstep nmul RNum]. unfold nlit, RNum, Rlit. simpl powerRZ. lra. Qed.
