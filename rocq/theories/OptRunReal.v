From Coq Require Import Reals Lra Lia Psatz List Arith Bool ZArith.
From Verif Require Import Base StM Num RealNum VecModel VecProofs VecProofs2 VecReal MatModel MatLemmas MatSpec MatProofs MatProofs2 BoundsModel DataProofs DesignModel HistModel HistSpec HistProofs KrigModel OptModel OptProofs OptRun OptSpec OptReal.
Import ListNotations.
Local Open Scope R_scope.

(** the reported optimum is that of the rows *)
Definition optimum_of (c : cfg R) (rs : list (list R)) (g : gopt R) : Prop :=
  exists fe i, reports (c_dim c) (length (c_cons c)) (go_box g) rs i fe (go_d g) /\
    if fe : bool then best_feasible (c_dim c) rs i else (forall j, ~ candidate (c_dim c) rs j) /\ best_any (c_dim c) rs i.
(** state between two iterations *)
Definition ready (c : cfg R) (s : ost R) : Prop :=
  gopt_ready (c_dim c) (length (c_cons c)) (s_gopt s) /\ b_lo (go_box (s_gopt s)) = c_lb c /\ b_up (go_box (s_gopt s)) = c_ub c /\
  optimum_of c (rows (h_data (s_hist s))) (s_gopt s) /\
  history (c_dim c) (length (c_cons c)) (h_data (s_hist s)) /\ (0 < nrows (h_data (s_hist s)))%nat /\
  h_dim (s_hist s) = c_dim c /\ h_cn (s_hist s) = length (c_cons c) /\ (0 < h_doe (s_hist s) <= nrows (h_data (s_hist s)))%nat /\
  length (ds_con (s_cur s)) = length (c_cons c) /\ (c_cons c = [] -> ds_feas (s_cur s) = true) /\
  s_init s = true /\ 0 <= s_trLen s /\ 0 <= s_trMin s /\ 0 <= s_trMax s.

Lemma box_sat d lb ub x : (0 < d)%nat -> length lb = d -> length x = d ->
  exists b, box_satisfied d lb ub x = Ok b /\ (b = true <-> forall i, (i < d)%nat -> nth i lb 0 <= nth i x 0 <= nth i ub 0).
Proof.
  intros Hd Hl Hx. unfold box_satisfied. rewrite Hx, Hl, Nat.eqb_refl. destruct (Nat.eqb_spec d 0); [lia|]. cbn [orb negb]. eexists. split; [reflexivity|].
  rewrite forallb_forall. split.
  - intros H i Hi. specialize (H i). rewrite in_seq in H. specialize (H ltac:(lia)). cbn [nltb RNum] in H. unfold vget in H. cbn [n0 RNum] in H.
    destruct (Rltb_spec (nth i x 0) (nth i lb 0)); try discriminate. destruct (Rltb_spec (nth i ub 0) (nth i x 0)); try discriminate. lra.
  - intros H i Hi. apply in_seq in Hi. specialize (H i ltac:(lia)). cbn [nltb RNum]. unfold vget. cbn [n0 RNum].
    destruct (Rltb_spec (nth i x 0) (nth i lb 0)); try lra. destruct (Rltb_spec (nth i ub 0) (nth i x 0)); try lra; reflexivity.
Qed.
Lemma search_in (P : list R -> Prop) d n gen acq sch v0 a0 : P v0 -> (forall i, (i < n)%nat -> exists v, gen i = Ok v /\ P v) ->
  exists v a, run_search d n gen acq sch (v0, a0) = Ok (v, a) /\ P v.
Proof.
  intros H0 Hg. destruct (cands_ok P n gen acq Hg) as (l & E & L & Q). unfold run_search. rewrite E. cbn [bind].
  pose proof (reach_all (fun i => nth i l (v0, a0)) (v0, a0) sch) as [[H|(i & _ & _ & H & _)] _]; unfold search; rewrite H.
  - eauto.
  - destruct (le_lt_dec (length l) i). { rewrite nth_overflow by auto. eauto. }
    destruct (Q i ltac:(lia) (v0, a0)) as (v & _ & Pv & ->). eauto.
Qed.
Lemma between_unit d lo up v : (forall i, (i < d)%nat -> 0 <= nth i lo 0 /\ nth i up 0 <= 1 / INR d) -> between d lo up v -> unit_box d v.
Proof. intros H [L B]. split; auto. intros i Hi. specialize (H i Hi). specialize (B i Hi). lra. Qed.

Lemma opt_xn c s : ready c s -> length (ds_xn (go_d (s_gopt s))) = c_dim c.
Proof.
  intros (G1 & G2 & G3 & (fe & ix & Rep & B) & [Ht Hc] & Hn & _). destruct Rep as (_ & _ & _ & _ & _ & _ & N).
  assert (ix < nrows (h_data (s_hist s)))%nat as Hi. { rewrite <- rows_length. destruct fe. destruct B as [[? _] _]; auto. destruct B as [_ [? _]]; auto. }
  unfold vec_normalize in N. destruct (_ || _)%bool; [discriminate|]. injection N as N. rewrite <- N, vbuild_length.
  unfold row_x, rowi. rewrite firstn_length, nth_rows, mrow_length, Hc by auto. lia.
Qed.
Lemma mostPromising_ok c e s : settings_ok c -> world_ok c e -> ready c s ->
  exists v a lo up, mostPromising c e s = (s, Ok ((v, a), (lo, up))) /\ unit_box (c_dim c) v /\
    trustRegion (c_dim c) (ds_xn (go_d (s_gopt s))) (s_trLen s) = Ok (lo, up) /\ length lo = c_dim c /\ length up = c_dim c /\
    (forall i, (i < c_dim c)%nat -> 0 <= nth i lo 0 <= nth i up 0 /\ nth i up 0 <= 1 / INR (c_dim c)).
Proof.
  intros (Hd & Hl & Hu & Hb & _) (_ & _ & U1 & U2 & _) HR. pose proof (opt_xn c s HR) as Lxn.
  destruct HR as (G1 & G2 & G3 & _ & Hh & Hn & H1 & H2 & H3 & C1 & C2 & I & T0 & T1 & T2).
  set (d := c_dim c) in *. set (xn := ds_xn (go_d (s_gopt s))) in *.
  destruct (trust_ok d xn (s_trLen s) Hd Lxn T0) as (lo & up & Etr & Llo & Lup & B).
  assert (forall i, (i < d)%nat -> 0 <= nth i lo 0 <= nth i up 0 /\ nth i up 0 <= 1 / INR d) as Hlu. { intros i Hi. destruct (B i Hi) as (_ & _ & ? & ?). lra. }
  assert (0 < 1 / INR d) as Pd by (apply Rdiv_lt_0_compat; [lra|apply lt_0_INR; lia]).
  assert (forall v, between d lo up v -> unit_box d v) as BU. { intros v. apply between_unit. intros i Hi. specialize (Hlu i Hi). lra. }
  set (fmin := if ds_feas (go_d (s_gopt s)) then ds_f (go_d (s_gopt s)) else nlit 10 14).
  set (acq := e_acq e fmin (s_sigma s)).
  assert (unit_box d (repeat (@n0 R RNum) d)) as U0.
  { split. apply repeat_length. intros i Hi. cbn [n0 RNum]. rewrite nth_repeat. lra. }
  destruct (search_in (unit_box d) d (c_inner c) (fun i => randomDesign d lo up (e_u1 e i)) acq (e_s1 e) (repeat n0 d) (nopp (nlit 10 14)) U0) as (v1 & a1 & E1 & P1).
  { intros i Hi. destruct (random_ok d lo up (e_u1 e i) (U1 i) Llo Lup) as (v & Ev & Bv). { intros j Hj. specialize (Hlu j Hj). lra. } exists v. auto. }
  assert (exists x, vec_denormalize xn (c_lb c) (c_ub c) = Ok x /\ length x = d /\ forall i, (i < d)%nat -> nth i x 0 = nth i xn 0 * INR d * (nth i (c_ub c) 0 - nth i (c_lb c) 0) + nth i (c_lb c) 0) as (x & Ex & Lx & Nx).
  { rewrite denormalize_ok by congruence. eexists. split; [reflexivity|]. rewrite Lxn. split. apply vbuild_length. intros i Hi.
    match goal with |- nth i (vbuild ?n ?f) 0 = _ => change (vget (vbuild n f) i = nth i xn 0 * INR d * (nth i (c_ub c) 0 - nth i (c_lb c) 0) + nth i (c_lb c) 0) end. rewrite vget_vbuild by auto. rewrite IZR_nat. reflexivity. }
  destruct (box_sat d (c_lb c) (c_ub c) x Hd Hl Lx) as (inb & Eb & Hin).
  assert (exists v a, (if inb then run_search d (c_inner c) (fun i => randomAround d xn lo up (e_u2 e i)) acq (e_s2 e) (v1, a1) else Ok (v1, a1)) = Ok (v, a) /\ unit_box d v) as (v2 & a2 & E2 & P2).
  { destruct inb; [|eauto]. apply search_in; auto. intros i Hi.
    assert (unit_box d xn) as Ux.
    { split; auto. intros j Hj. pose proof (proj1 Hin eq_refl j Hj) as Q. rewrite Nx in Q by auto. specialize (Hb j Hj). assert (0 < INR d) by (apply lt_0_INR; lia).
      set (w := nth j xn 0) in *. set (D := nth j (c_ub c) 0 - nth j (c_lb c) 0) in *. assert (0 < D) by (unfold D; lra). assert (0 <= w * INR d * D <= D) as Q' by (unfold D in *; lra).
      assert (0 <= w * INR d <= 1) by nra. split. nra. apply Rmult_le_reg_r with (INR d); auto. replace (1 / INR d * INR d) with 1 by (field; lra). lra. }
    destruct (around_ok d xn lo up (e_u2 e i) Hd (U2 i)) as (v & Ev & Bv & _); auto. 2: exists v; auto.
    split; auto. intros j Hj. destruct (B j Hj) as (_ & _ & Q1 & Q2). rewrite clamp_id in Q1, Q2 by (apply Ux; auto). lra. }
  exists v2, a2, lo, up. split; [|repeat (split; auto)].
  unfold mostPromising. rewrite (sbind_ok _ _ _ s s) by reflexivity. rewrite I. fold xn. rewrite Lxn. destruct (Nat.eqb_spec d 0); [lia|]. cbn [negb orb].
  fold d. rewrite (sbind_ok _ _ _ s tt) by reflexivity. rewrite Etr. rewrite (sbind_ok _ _ _ s (lo, up)) by reflexivity. cbv zeta. fold fmin acq. cbn [fst snd].
  rewrite E1. rewrite (sbind_ok _ _ _ s (v1, a1)) by reflexivity. rewrite Ex. rewrite (sbind_ok _ _ _ s x) by reflexivity. rewrite Eb. rewrite (sbind_ok _ _ _ s inb) by reflexivity.
  rewrite (sbind_ok _ _ _ s (v2, a2)). reflexivity. unfold slift. rewrite <- E2. reflexivity.
Qed.
Lemma findDesign_ok c e s : settings_ok c -> world_ok c e -> ready c s ->
  exists x xn, findDesign c e s = (set_cur (ds_set_point x xn (s_cur s)) s, Ok tt) /\ admissible c x /\ unit_box (c_dim c) xn.
Proof.
  intros Hs Hw HR. destruct (mostPromising_ok c e s Hs Hw HR) as (v & a & lo & up & E & Uv & _ & Llo & Lup & B). destruct Hs as (Hd & Hl & Hu & Hb & Dn & Dd & _).
  unfold findDesign. rewrite (sbind_ok _ _ _ s _ E). rewrite (sbind_ok _ _ _ s s) by reflexivity. cbn [fst snd]. cbv zeta. unfold maximize.
  set (ei := e_ei e _ _). set (acq := e_acq e _ _).
  destruct (ascent_spec 100 ls_fuel ei acq (c_dim c) lo up 27 ltac:(lia) ltac:(unfold ls_fuel; lia) steps_R) with (dv := v) as (w & -> & Hw').
  { intros k Hk. split. exact I. split. exact I. cbn [nltb RNum]. apply Rltb_false. unfold vget. cbn [n0 RNum]. specialize (B k Hk). lra. }
  assert (unit_box (c_dim c) w) as Uw.
  { destruct Hw' as [->|[_ [Lw Ww]]]; auto. split; auto. intros i Hi. destruct (Ww i Hi) as [W1 W2]. cbn [nltb RNum] in W1, W2. apply Rltb_false in W1. apply Rltb_false in W2. unfold vget in W1, W2. cbn [n0 RNum] in W1, W2. specialize (B i Hi). lra. }
  destruct (denorm_box (c_dim c) (c_lb c) (c_ub c) w Hd Hl Hu) as (x & Ex & Bx & _); auto. { intros i Hi. specialize (Hb i Hi). lra. }
  assert (length x = length (c_lb c)) as Lx by apply Bx.
  destruct (round_ok (c_lb c) (c_ub c) (c_disc c) ltac:(congruence)) with (x := x) as (y & Ey & Ly & Py & Oy); auto.
  { intros i Hi. rewrite Hl in Hi. specialize (Hb i Hi). lra. } { split; auto. intros i dx Hi. rewrite Hl. auto. }
  exists y, w. split.
  - rewrite Ex. rewrite (sbind_ok _ _ _ s x) by reflexivity. rewrite Ey. rewrite (sbind_ok _ _ _ s y) by reflexivity. reflexivity.
  - split; auto. split. { apply (round_box _ _ (c_disc c) x y); auto. intros i dx Hi. split; auto. apply (Dd i dx Hi). }
    intros i dx Hi. apply (Py i dx Hi).
Qed.

(** *** constraints *)
Lemma cons_eval_ok (x : list R) : forall cs k v, map oc_id cs = seq k (length cs) -> length v = (k + length cs)%nat -> (forall oc, In oc cs -> isOk (oc_fun oc x) = true) ->
  exists vs, cons_eval cs x v = Ok (firstn k v ++ vs) /\ map (fun oc => oc_fun oc x) cs = map Ok vs /\ length vs = length cs.
Proof.
  induction cs as [|oc cs IH]; intros k v Hi Hl Ho; cbn [cons_eval].
  - exists []. cbn [length] in Hl. rewrite app_nil_r. rewrite firstn_all2 by lia. repeat split.
  - cbn [map length seq] in Hi. injection Hi as Hi1 Hi2. cbn [length] in Hl. pose proof (Ho oc ltac:(left; auto)) as Hy. destruct (oc_fun oc x) as [y|?|] eqn:Ey; try discriminate Hy. cbn [bind].
    rewrite Hi1. rewrite vec_set_ok by lia. cbn [bind]. destruct (IH (S k) (upd v k y)) as (vs & E & M & L); auto. { rewrite upd_length. lia. } { intros; apply Ho; right; auto. }
    exists (y :: vs). split; [|split]. 2:{ cbn [map]. rewrite Ey, M. auto. } 2:{ cbn [length]. lia. }
    rewrite E. f_equal. change (firstn k v ++ y :: vs) with (firstn k v ++ [y] ++ vs). rewrite app_assoc. f_equal.
    apply (list_ext _ _ 0). rewrite firstn_length, upd_length, app_length, firstn_length. cbn [length]. lia. intros i Hi. rewrite firstn_length, upd_length in Hi. rewrite nth_firstn', nth_app', firstn_length, nth_firstn'.
    destruct (Nat.ltb_spec i (S k)); [|lia]. destruct (Nat.ltb_spec i (Nat.min k (length v))).
    + rewrite nth_upd_other by lia. destruct (Nat.ltb_spec i k); [auto|lia].
    + assert (i = k) by lia. subst i. rewrite nth_upd_same by lia. replace (k - Nat.min k (length v))%nat with 0%nat by lia. auto.
Qed.
Lemma con_feasible_sat (oc : ocon R) v : con_feasible oc v = true <-> satisfies oc v.
Proof. unfold con_feasible, satisfies. cbn [nltb RNum]. destruct (oc_gt oc); rewrite Rltb_true; tauto. Qed.
Lemma forall2_nth {A B} (P : A -> B -> Prop) da db l1 l2 : length l1 = length l2 -> (Forall2 P l1 l2 <-> forall i, (i < length l1)%nat -> P (nth i l1 da) (nth i l2 db)).
Proof.
  revert l2. induction l1 as [|a l1 IH]; intros [|b l2] L; try discriminate.
  - split; auto. intros _ i Hi. cbn in Hi. lia.
  - cbn in L. split.
    + intros H. inversion_clear H. intros [|i] Hi; cbn. auto. apply IH; auto. cbn in Hi. lia.
    + intros H. constructor. apply (H 0%nat). cbn; lia. apply IH; auto. intros i Hi. apply (H (S i)). cbn. lia.
Qed.
Lemma cons_feasible_ok (cs : list (ocon R)) vs : length vs = length cs ->
  exists b, cons_feasible cs vs = Ok b /\ (b = true <-> Forall2 satisfies cs vs).
Proof.
  intros L. unfold cons_feasible. rewrite L, Nat.ltb_irrefl. eexists. split; [reflexivity|].
  rewrite (forall2_nth _ (mkOC 0 true n0 true (fun _ => Ok n0) mat_empty) 0) by auto. rewrite forallb_forall. split.
  - intros H i Hi. apply con_feasible_sat. apply (H i). apply in_seq. lia.
  - intros H i Hi. apply in_seq in Hi. apply con_feasible_sat. apply (H i). lia.
Qed.
Lemma evalConstraints_ok c s : map oc_id (c_cons c) = seq 0 (length (c_cons c)) -> length (ds_con (s_cur s)) = length (c_cons c) ->
  (forall oc, In oc (c_cons c) -> isOk (oc_fun oc (ds_x (s_cur s))) = true) -> (c_cons c = [] -> ds_feas (s_cur s) = true) ->
  exists vs fe, evalConstraints c s = (set_cur (ds_set_feas fe (ds_set_con vs (s_cur s))) s, Ok tt) /\ values_at c (ds_x (s_cur s)) vs /\ length vs = length (c_cons c) /\
    (fe = true <-> feasible_values c vs).
Proof.
  intros Hi Hl Ho Hf. unfold evalConstraints. destruct (c_cons c) as [|oc0 t] eqn:Ec.
  - cbn in Hl. exists [], true. unfold values_at, feasible_values. rewrite Ec. split. 2:{ split; auto. split; auto. split; auto. }
    unfold sret. f_equal. specialize (Hf eq_refl). destruct s as [a1 a2 a3 a4 d a6 a7 a8 a9 a10 a11 a12 a13 a14 a15 a16 a17 a18]. cbn in *. unfold set_cur. cbn. f_equal. destruct d as [b1 b2 b3 b4 con b6 b7 b8 b9 b10 b11 b12 b13 b14 b15 b16 b17 b18 b19 b20 b21 b22 fe]. cbn in *. subst fe. destruct con; [reflexivity|discriminate].
  - rewrite <- Ec in *. rewrite (sbind_ok _ _ _ s (s_cur s)) by reflexivity.
    destruct (cons_eval_ok (ds_x (s_cur s)) (c_cons c) 0 (ds_con (s_cur s)) Hi ltac:(lia) Ho) as (vs & E & M & L). cbn [firstn app] in E.
    rewrite E. rewrite (sbind_ok _ _ _ s vs) by reflexivity.
    rewrite (sbind_ok _ _ _ (set_cur (ds_set_con vs (s_cur s)) s) tt) by reflexivity. destruct (cons_feasible_ok (c_cons c) vs L) as (b & Eb & Hb). rewrite Eb.
    rewrite (sbind_ok _ _ _ (set_cur (ds_set_con vs (s_cur s)) s) b) by reflexivity. exists vs, b. split; [reflexivity|]. auto.
Qed.

(** *** crowding *)
Lemma crowding_ok (h : hist R) : (0 < h_dim h < ncols (h_data h))%nat -> (0 < h_doe h <= nrows (h_data h))%nat ->
  exists k, hist_crowding h = (mkH (h_dim h) (h_cn h) (h_data h) k (h_doe h), Ok tt).
Proof.
  intros Hd Hn. unfold hist_crowding. rewrite (sbind_ok _ _ _ h h) by reflexivity. cbv zeta.
  destruct (Nat.eqb_spec (nrows (h_data h)) 0); [lia|]. destruct (Nat.eqb_spec (h_dim h) 0); [lia|]. destruct (Nat.eqb_spec (h_doe h) 0); [lia|]. cbn [orb sthrow_if].
  rewrite (sbind_ok _ _ _ h tt) by reflexivity. destruct (Nat.leb_spec (h_doe h) (nrows (h_data h))); [|lia].
  destruct (submat_ok (h_data h) (nrows (h_data h) - h_doe h) (nrows (h_data h) - 1) 0 (h_dim h - 1)) as (m & E & _); try lia. rewrite E.
  rewrite (sbind_ok _ _ _ h m) by reflexivity. eexists. reflexivity.
Qed.
Lemma hasNan_R (d : design R) : design_hasNan d = false.
Proof.
  unfold design_hasNan. assert (forall v : list R, vec_has_nan v = false) as V. { intros v. unfold vec_has_nan. induction v; auto. }
  rewrite !V. cbn. induction (ds_cg d); auto. cbn. rewrite V. auto.
Qed.

(** *** one successful iteration *)
Definition tr_step (ok : bool) (mn mx : R) (st : R * nat * nat) : R * nat * nat :=
  let '(len, su, fa) := st in
  if ok then (if Nat.eqb (S su) 3 then (if Rltb mx (len * 2) then mx else len * 2, 0%nat, 0%nat) else (len, S su, 0%nat))
  else (if Nat.eqb (S fa) 15 then (if Rltb (len / 2) mn then mn else len / 2, 0%nat, 0%nat) else (len, 0%nat, S fa)).
Definition iter_spec (c : cfg R) (e : env R) (s s' : ost R) (x : list R) (f : R) (vs : list R) (fe : bool) (im : R) : Prop :=
  admissible c x /\ e_eval e x = Ok f /\ values_at c x vs /\ length vs = length (c_cons c) /\ (fe = true <-> feasible_values c vs) /\ improvement (s_best s) fe f = (s_best s', im) /\
  s_iter s' = S (s_iter s) /\ s_evals s' = S (s_evals s) /\ s_pts s' = s_pts s ++ [x] /\
  rows (h_data (s_hist s')) = rows (h_data (s_hist s)) ++ [history_row x f vs im fe] /\
  s_trMin s' = s_trMin s /\ s_trMax s' = s_trMax s /\
  (s_trLen s', s_succ s', s_fail s') = tr_step (Rltb (ds_imp (go_d (s_gopt s))) im) (s_trMin s) (s_trMax s) (s_trLen s, s_succ s, s_fail s) /\
  (if c_var c then 1 <= s_sigma s' <= 100 else s_sigma s' = s_sigma s) /\ h_doe (s_hist s') = h_doe (s_hist s).
Lemma trUpdate_step (s : ost R) : (s_trLen (trUpdate s), s_succ (trUpdate s), s_fail (trUpdate s)) =
  tr_step (Rltb (ds_imp (go_d (s_gopt s))) (ds_imp (s_cur s))) (s_trMin s) (s_trMax s) (s_trLen s, s_succ s, s_fail s).
Proof.
  unfold trUpdate, tr_step. cbn [nltb RNum]. destruct (Rltb _ _).
  - unfold trSuccess. destruct (Nat.eqb _ _); reflexivity.
  - unfold trFailure. destruct (Nat.eqb _ _); reflexivity.
Qed.
Lemma sigma_range (m co cf : R) k : 1 <= sigmaValue m co cf k <= 100.
Proof.
  unfold sigmaValue. cbv zeta. cbn [nltb RNum n1 nofZ nmul ndiv].
  match goal with |- context [Rltb ?q 1] => destruct (Rltb_spec q 1) as [L|L] end.
  - rewrite (proj2 (Rltb_false 100 1)) by lra. lra.
  - match goal with |- context [Rltb 100 ?q] => destruct (Rltb_spec 100 q) as [L1|L1] end; lra.
Qed.
Lemma trUpdate_len (s : ost R) : 0 <= s_trLen s -> 0 <= s_trMin s -> 0 <= s_trMax s -> 0 <= s_trLen (trUpdate s).
Proof.
  intros H1 H2 H3. unfold trUpdate. destruct (nltb _ _).
  - unfold trSuccess. destruct (Nat.eqb _ _); cbv zeta; cbn; auto. destruct (Rltb_spec (s_trMax s) (s_trLen s * 2)); lra.
  - unfold trFailure. destruct (Nat.eqb _ _); cbv zeta; cbn; auto. destruct (Rltb_spec (s_trLen s / 2) (s_trMin s)); lra.
Qed.
Lemma iteration_ok c e s : settings_ok c -> world_ok c e -> constraints_ok c -> ready c s ->
  exists s' x f vs fe im, iteration c e s = (s', Ok tt) /\ ready c s' /\ iter_spec c e s s' x f vs fe im.
Proof.
  intros Hs Hw Hc HR. pose proof HR as (G1 & G2 & G3 & G4 & Hh & Hn & H1 & H2 & H3 & C1 & C2 & I & T0 & T1 & T2).
  pose proof Hs as (Hd & Hl & Hu & Hb & Dn & Dd & Ids & How & Box). pose proof Hw as (W1 & W2 & _ & _ & W3).
  unfold iteration. set (s1 := set_iter (S (s_iter s)) s). rewrite (sbind_ok _ _ _ s1 tt) by reflexivity. rewrite (sbind_ok _ _ _ s1 (S (s_iter s))) by reflexivity.
  destruct (Nat.eqb_spec (c_how c) 0); [lia|].
  set (s2 := if Nat.eqb (S (s_iter s) mod c_how c) 1 then set_init true (set_ghost (s_pts s1) (s_trained s1 ++ [S (s_iter s)]) s1) else s1).
  rewrite (sbind_ok _ _ _ s2 tt). 2:{ unfold s2, swhen. destruct (Nat.eqb _ _); [|reflexivity]. rewrite W1. reflexivity. }
  assert (s_hist s2 = s_hist s /\ s_gopt s2 = s_gopt s /\ s_cur s2 = s_cur s /\ s_best s2 = s_best s /\ s_init s2 = true /\ s_trLen s2 = s_trLen s /\ s_trMin s2 = s_trMin s /\ s_trMax s2 = s_trMax s /\
    s_iter s2 = S (s_iter s) /\ s_evals s2 = s_evals s /\ s_pts s2 = s_pts s /\ s_succ s2 = s_succ s /\ s_fail s2 = s_fail s /\ s_sigma s2 = s_sigma s) as (A1 & A2 & A3 & A4 & A5 & A6 & A7 & A8 & A9 & A10 & A11 & A12 & A13 & A14).
  { unfold s2. destruct (Nat.eqb _ _); cbn; repeat split; auto. }
  clearbody s2. clear s1.
  assert (ready c s2) as HR2. { unfold ready. rewrite A1, A2, A3, A5, A6, A7, A8. repeat (split; auto). }
  destruct (findDesign_ok c e s2 Hs Hw HR2) as (x & xn & Ef & Ax & _). rewrite (sbind_ok _ _ _ _ tt Ef).
  set (s3 := set_cur (ds_set_point x xn (s_cur s2)) s2). rewrite (sbind_ok _ _ _ s3 (ds_set_point x xn (s_cur s2))) by reflexivity. cbn [ds_x ds_set_point].
  set (s4 := set_ghost (s_pts s3 ++ [x]) (s_trained s3) s3). rewrite (sbind_ok _ _ _ s4 tt) by reflexivity.
  pose proof (W3 x (proj1 Ax)) as We. destruct (e_eval e x) as [f|?|] eqn:Ee; try discriminate We. rewrite (sbind_ok _ _ _ s4 f) by reflexivity.
  set (s5 := set_cur (ds_set_f f (s_cur s4)) s4). rewrite (sbind_ok _ _ _ s5 tt) by reflexivity.
  set (s6 := set_evals (S (s_evals s5)) s5). rewrite (sbind_ok _ _ _ s6 tt) by reflexivity.
  destruct (evalConstraints_ok c s6) as (vs & fe & Ev & V1 & V2 & V3); auto.
  { cbn. congruence. } { intros oc Ho. apply Hc; auto. apply Ax. } { cbn. rewrite A3. auto. }
  rewrite (sbind_ok _ _ _ _ tt Ev). set (d7 := ds_set_feas fe (ds_set_con vs (s_cur s6))). set (s7 := set_cur d7 s6).
  destruct (improvement (s_best s7) (ds_feas (s_cur s7)) (ds_f (s_cur s7))) as [b im] eqn:Ei.
  set (d8 := ds_set_imp im d7). set (s8 := set_best b (set_cur d8 s7)). rewrite (sbind_ok _ _ _ s8 tt) by (unfold smod; rewrite Ei; reflexivity).
  rewrite (sbind_ok _ _ _ s8 d8) by reflexivity. rewrite hasNan_R. cbn [sthrow_if]. rewrite (sbind_ok _ _ _ s8 tt) by reflexivity.
  rewrite W2. rewrite (sbind_ok _ _ _ s8 tt) by reflexivity.
  assert (hist_ok (s_hist s)) as Hok. { destruct Hh as [Ht Hcn]. split; auto. intros _. unfold hist_width. rewrite H1, H2. auto. }
  assert (ds_x d8 = x /\ ds_f d8 = f /\ ds_con d8 = vs /\ ds_imp d8 = im /\ ds_feas d8 = fe) as (D1 & D2 & D3 & D4 & D5) by (repeat split).
  assert (length x = c_dim c) as Lx. { rewrite <- Hl. apply Ax. }
  destruct (hist_update_ok (s_hist s) d8 Hok) as (m & Eu & Tm & Rm & Cm). { split. congruence. rewrite D3, V2, H2. lia. }
  set (h9 := hset_data m (s_hist s)). set (s9 := set_hist h9 s8).
  rewrite (sbind_ok _ _ _ s9 tt). 2:{ unfold in_hist, szoom. change (s_hist s8) with (s_hist s2). rewrite A1, Eu. reflexivity. }
  assert (row_of (s_hist s) d8 = history_row x f vs im fe) as Er. { unfold row_of. rewrite D1, D2, D3, D4, D5, H2, <- V2, firstn_all. auto. }
  rewrite Er in Rm. unfold hist_width in Cm. rewrite H1, H2 in Cm.
  assert (nrows m = S (nrows (h_data (s_hist s)))) as Nm. { rewrite <- !rows_length, Rm, app_length. cbn. lia. }
  rewrite (sbind_ok _ _ _ (trUpdate s9) tt) by reflexivity. pose proof (trUpdate_step s9) as Ts. destruct (trUpdate_frame s9) as (l & su & fa & bd & mu & Et).
  assert (0 <= l) as Hl0. { assert (0 <= s_trLen (trUpdate s9)) as Q. { apply trUpdate_len; cbn; congruence. } rewrite Et in Q. exact Q. } rewrite Et in Ts |- *.
  set (s10 := set_sig bd mu (s_sigma s9) (s_coef s9) (set_tr l su fa s9)).
  assert (exists s11, swhen (c_var c) (run adjustSigma e; smod (fun s => set_sig (s_delta s) (s_mult s *! nlit 101 (-2)) (s_sigma s) (s_coef s) s)) s10 = (s11, Ok tt) /\
    (exists k, s_hist s11 = mkH (c_dim c) (length (c_cons c)) m k (h_doe (s_hist s))) /\ s_gopt s11 = s_gopt s10 /\ s_cur s11 = s_cur s10 /\ s_best s11 = s_best s10 /\ s_init s11 = s_init s10 /\ s_trLen s11 = s_trLen s10 /\ s_trMin s11 = s_trMin s10 /\ s_trMax s11 = s_trMax s10 /\
    s_iter s11 = s_iter s10 /\ s_evals s11 = s_evals s10 /\ s_pts s11 = s_pts s10 /\ s_succ s11 = s_succ s10 /\ s_fail s11 = s_fail s10 /\ (if c_var c then 1 <= s_sigma s11 <= 100 else s_sigma s11 = s_sigma s10)) as (s11 & E11 & (k & B1) & B2 & B3 & B4 & B5 & B6 & B7 & B8 & B9 & B10 & B11 & B12 & B13 & B14).
  { destruct (c_var c); cbn [swhen].
    - destruct (crowding_ok h9) as (k & Ek). { cbn. rewrite H1, Cm. lia. } { cbn. rewrite Nm. lia. } eexists. split.
      + unfold adjustSigma. unfold sbind at 1. rewrite (sbind_ok _ _ _ (set_hist (mkH (h_dim h9) (h_cn h9) (h_data h9) k (h_doe h9)) s10) tt). 2:{ unfold in_hist, szoom. change (s_hist s10) with h9. rewrite Ek. reflexivity. }
        cbv beta iota zeta delta [smod]. reflexivity.
      + cbn [s_hist set_sig set_hist]. split; [exists k; cbn; rewrite H1, H2; reflexivity|]. do 12 (split; [reflexivity|]). apply sigma_range.
    - exists s10. split; [reflexivity|]. split; [|repeat split]. exists (h_crowd (s_hist s)). cbn. unfold h9, hset_data. rewrite H1, H2. reflexivity. }
  rewrite (sbind_ok _ _ _ s11 tt E11).
  destruct (gopt_fromHistory_ok (c_dim c) (length (c_cons c)) (s_gopt s) m) as (fb & ib & g' & Eg & Rg & Bg & Dg & Ng & Og); auto.
  { split; auto. } { lia. } { right. intros; exact Logic.I. }
  assert (s_gopt s10 = s_gopt s) as Hg10 by (cbn; exact A2).
  exists (set_gopt g' s11), x, f, vs, fe, im. split.
  { unfold findOptimum. rewrite Box. cbn [negb sthrow_if]. rewrite (sbind_ok _ _ _ s11 tt) by reflexivity. rewrite (sbind_ok _ _ _ s11 (s_hist s11)) by reflexivity. rewrite B1. cbn [h_data].
    destruct (Nat.eqb_spec (nrows m) 0); [lia|]. destruct (Nat.eqb_spec (ncols m) 0); [lia|]. cbn [orb sthrow_if]. rewrite (sbind_ok _ _ _ s11 tt) by reflexivity.
    unfold in_gopt, szoom. rewrite B2, Hg10, Eg. reflexivity. }
  split.
  - unfold ready. cbn [s_gopt set_gopt s_hist s_cur s_init s_trLen s_trMin s_trMax]. rewrite B1, B3, B5, B6, B7, B8. cbn [h_data h_dim h_cn h_doe]. rewrite Bg.
    split. { destruct G1 as (? & ? & ? & ? & ? & ?). unfold gopt_ready. rewrite Bg. repeat (split; auto). }
    split; auto. split; auto. split. { exists fb, ib. rewrite Bg. split; auto. }
    split. { split; auto. } split; [lia|]. split; auto. split; auto. split; [lia|]. split. { change (length vs = length (c_cons c)). auto. }
    split. { intros Hnil. change (fe = true). apply V3. unfold feasible_values. rewrite Hnil in V2 |- *. destruct vs; [constructor|discriminate]. }
    split. { exact A5. } split. { exact Hl0. } split. { change (0 <= s_trMin s2). lra. } change (0 <= s_trMax s2). lra.
  - split; auto. split; auto. split; auto. split; auto. split; auto. cbn [s_best s_iter s_evals s_pts s_hist set_gopt s_trMin s_trMax s_trLen s_succ s_fail s_sigma]. rewrite B1, B4, B6, B7, B8, B9, B10, B11, B12, B13.
    split. { change (improvement (s_best s) fe f = (b, im)). rewrite <- A4. exact Ei. }
    split. { exact A9. } split. { change (S (s_evals s2) = S (s_evals s)). congruence. } split. { change (s_pts s2 ++ [x] = s_pts s ++ [x]). congruence. } split. { exact Rm. }
    split. { exact A7. } split. { exact A8. } split. { cbn [s_trLen s_succ s_fail set_sig set_tr s10] in *. cbn [s_gopt s_cur set_hist set_best set_cur s9 s8 s_trLen s_trMin s_trMax s_succ s_fail s7 s6 s5 s4 s3 set_evals set_ghost] in Ts. change (ds_imp d8) with im in Ts. rewrite A2, A6, A7, A8, A12, A13 in Ts. exact Ts. }
    split. { destruct (c_var c); auto. rewrite B14. exact A14. } reflexivity.
Qed.
