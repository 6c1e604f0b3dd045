(** Whole runs of the optimiser over the real numbers. *)
From Coq Require Import List Arith Bool ZArith Lia Reals Lra.
From Verif Require Import Base Num RealNum VecModel MatModel MatSpec BoundsModel DataProofs StM KrigModel DesignModel HistModel HistSpec HistProofs OptModel OptProofs OptSpec OptReal OptRun OptRunReal OptStart.
Import ListNotations.
Local Open Scope R_scope.

(** *** the trust region *)
Definition tr_inv (len0 : R) (l : list bool) (s : ost R) : Prop :=
  s_trLen s = region_length (s_trMin s) (s_trMax s) len0 l /\ s_succ s = (streak true l mod 3)%nat /\ s_fail s = (streak false l mod 15)%nat.
Lemma mod_step n k : (0 < n)%nat -> (S k mod n = if Nat.eqb (S (k mod n)) n then 0 else S (k mod n))%nat.
Proof.
  intros H. pose proof (Nat.mod_upper_bound k n ltac:(lia)) as B. pose proof (Nat.div_mod k n ltac:(lia)) as E.
  destruct (Nat.eqb_spec (S (k mod n)) n) as [Q|Q].
  - symmetry. apply (Nat.mod_unique _ _ (S (k / n))). lia. rewrite Nat.mul_succ_r. lia.
  - symmetry. apply (Nat.mod_unique _ _ (k / n)). lia. lia.
Qed.
Lemma tr_inv_step len0 l s s' ok : tr_inv len0 l s -> s_trMin s' = s_trMin s -> s_trMax s' = s_trMax s ->
  (s_trLen s', s_succ s', s_fail s') = tr_step ok (s_trMin s) (s_trMax s) (s_trLen s, s_succ s, s_fail s) -> tr_inv len0 (ok :: l) s'.
Proof.
  intros (I1 & I2 & I3) E1 E2 E3. unfold tr_inv. rewrite E1, E2. cbn [region_length]. rewrite I1, I2, I3 in E3. set (r := region_length _ _ _ _) in *. unfold tr_step in E3.
  destruct ok; cbn [streak Bool.eqb]; rewrite ?mod_step by lia.
  - destruct (Nat.eqb_spec (S (streak true l mod 3)) 3) as [Q|Q]; injection E3 as -> -> ->.
    + cbn [Nat.eqb]. split; [|split; auto]. destruct (Rltb_spec (s_trMax s) (r * 2)). rewrite Rmin_right; lra. rewrite Rmin_left; lra.
    + cbn [Nat.eqb]. split; [|split]; auto.
  - destruct (Nat.eqb_spec (S (streak false l mod 15)) 15) as [Q|Q]; injection E3 as -> -> ->.
    + cbn [Nat.eqb]. split; [|split; auto]. destruct (Rltb_spec (r / 2) (s_trMin s)). rewrite Rmax_right; lra. rewrite Rmax_left; lra.
    + cbn [Nat.eqb]. split; [|split]; auto.
Qed.
Lemma region_range mn mx len l : mn <= mx -> mn <= len -> 0 <= mn -> mn <= region_length mn mx len l <= Rmax len mx.
Proof.
  intros H1 H2 H3. pose proof (Rmax_l len mx). pose proof (Rmax_r len mx). induction l as [|o t IH]; cbn [region_length]. lra.
  destruct o; destruct (Nat.eqb _ _); try lra.
  - split. apply Rmin_glb; lra. eapply Rle_trans. apply Rmin_r. lra.
  - split. apply Rmax_r. apply Rmax_lub; lra.
Qed.

(** *** the loop *)
Lemma loop_ok c es (Hs : settings_ok c) (Hc : constraints_ok c) (Hw : forall k, world_ok c (es k)) len0 : forall n fuel k s past,
  budget (c_N c) (s_iter s) = n -> (n <= fuel)%nat -> ready c s -> tr_inv len0 past s ->
  exists s' os, egoLoop fuel k c es s = Some (s', Ok tt) /\ ready c s' /\ length os = n /\ outcomes_ok c es k (rows (h_data (s_hist s))) os /\
    map o_im os = improvements (s_best s) (map (fun o => (o_fe o, o_f o)) os) /\
    rows (h_data (s_hist s')) = rows (h_data (s_hist s)) ++ map outcome_row os /\ s_pts s' = s_pts s ++ map o_x os /\ s_evals s' = (s_evals s + n)%nat /\
    s_trMin s' = s_trMin s /\ s_trMax s' = s_trMax s /\ tr_inv len0 (rev (map o_ok os) ++ past) s' /\
    (if c_var c then 1 <= s_sigma s' <= 100 else s_sigma s' = s_sigma s) /\ h_doe (s_hist s') = h_doe (s_hist s).
Proof.
  induction n as [|n IH]; intros fuel k s past Hb Hf HR Ht. { unfold budget in Hb. lia. }
  destruct fuel as [|fuel]; [lia|]. cbn [egoLoop].
  destruct (iteration_ok c (es k) s Hs (Hw k) Hc HR) as (s1 & x & f & vs & fe & im & E & HR1 & (I1 & I2 & I3 & I4 & I5 & I6 & I7 & I8 & I9 & I10 & I11 & I12 & I13 & I14 & I15)).
  rewrite E. set (ok := Rltb (ds_imp (go_d (s_gopt s))) im) in *. set (o := Outcome x f vs fe im ok).
  assert (outcome_ok c (es k) (rows (h_data (s_hist s))) o) as Ho.
  { split; auto. split; auto. split; auto. split; auto. destruct HR as (_ & _ & _ & (fb & ib & Rb & Ob) & _). exists fb, ib. split. exact Ob.
    destruct Rb as (_ & _ & _ & _ & _ & <- & _). cbn [o_ok o_im o]. unfold ok. rewrite Rltb_true. lra. }
  pose proof (tr_inv_step len0 past s s1 ok Ht I11 I12 I13) as T1.
  destruct (Nat.leb_spec (c_N c) (s_iter s1)) as [L|L].
  - exists s1, [o]. assert (n = 0%nat) as -> by (unfold budget in Hb; lia). split; auto. split; auto. split; auto. split. { split; auto. exact Logic.I. }
    split. { cbn [map improvements o_fe o_f o_im o]. rewrite I6. reflexivity. } split. exact I10. split. exact I9. split. rewrite I8. lia. split; auto.
  - destruct (IH fuel (S k) s1 (ok :: past)) as (s' & os & E' & R1 & R2 & R3 & R4 & R5 & R6 & R7 & R8 & R9 & R10 & R11 & R12); auto. { unfold budget in *. lia. } { lia. }
    exists s', (o :: os). split; auto. split; auto. split. { cbn. lia. } split. { split; auto. rewrite I10 in R3. exact R3. }
    split. { cbn [map improvements o_fe o_f o_im o]. rewrite I6. rewrite <- R4. reflexivity. }
    split. { rewrite R5, I10, <- app_assoc. reflexivity. } split. { rewrite R6, I9, <- app_assoc. reflexivity. } split. { rewrite R7, I8. lia. }
    split. congruence. split. congruence. split. { cbn [map rev]. rewrite <- app_assoc. exact R10. }
    split. { destruct (c_var c); auto. congruence. } congruence.
Qed.

(** *** a whole run from a new optimiser *)
Lemma run_ok c es : settings_ok c -> data_ok c -> constraints_ok c -> (forall k, world_ok c (es k)) -> c_objset c = true -> c_N c <> 0%nat ->
  forall fuel, (c_N c <= fuel)%nat ->
  exists s0 s' os b, optSetup c ost_new = (s0, Ok tt) /\ ego fuel c (Ok tt) es s0 = Some (s', Ok tt) /\ length os = c_N c /\
    s_pts s' = map o_x os /\ s_evals s' = c_N c /\
    exists start, Forall2 (start_row c) (rows (c_data c)) start /\ rows (h_data (s_hist s')) = start ++ map outcome_row os /\
      initial_best (c_dim c) start b /\ map o_im os = improvements b (map (fun o => (o_fe o, o_f o)) os) /\ outcomes_ok c es 0 start os /\
      optimum_of c (rows (h_data (s_hist s'))) (s_gopt s') /\ b_lo (go_box (s_gopt s')) = c_lb c /\ b_up (go_box (s_gopt s')) = c_ub c /\
      s_trLen s' = region_length (1 / 256 * (1 / INR (c_dim c))) (1 / INR (c_dim c)) (4 / 5) (rev (map o_ok os)) /\
      (c_var c = true -> 1 <= s_sigma s' <= 100).
Proof.
  intros Hs Hd Hc Hw Ho HN fuel Hf. pose proof Hs as (D0 & Hl & Hu & Hb & _).
  destruct (setup_ok c D0 Hl Hu) as (s0 & E0 & P0 & S1 & S2 & S3 & S4 & S5 & S6 & S7); auto. { intros i Hi. specialize (Hb i Hi). lra. }
  destruct (startRun_ok c s0 Hs Hd P0 Ho HN) as (s1 & E1 & R1 & T1 & T2 & T3 & T4 & T5 & T6 & T7 & T8 & T9 & T10 & T11 & T12).
  assert (tr_inv (4 / 5) [] s1) as Ti. { unfold tr_inv. cbn. split. congruence. split. rewrite T10, S6. reflexivity. rewrite T11, S7. reflexivity. }
  assert (budget (c_N c) (s_iter s1) = c_N c) as Bd by (unfold budget; lia).
  destruct (loop_ok c es Hs Hc Hw (4 / 5) (c_N c) fuel 0 s1 [] Bd Hf R1 Ti) as (s' & os & E' & R' & L1 & L2 & L3 & L4 & L5 & L6 & L7 & L8 & L9 & L10 & L11).
  exists s0, s', os, (s_best s1). split; auto. split. { unfold ego. rewrite E1. exact E'. } split; auto. split. { rewrite L5, T5, S3. reflexivity. } split. { rewrite L6, T4, S2. reflexivity. }
  exists (rows (h_data (s_hist s1))). split; auto. split; auto. split; auto. split; auto. split; auto.
  destruct R' as (_ & B1 & B2 & Op & _). split; auto. split; auto. split; auto. split. { destruct L9 as (Q & _). rewrite app_nil_r, L7, L8, T8, T9 in Q. exact Q. }
  intros V. rewrite V in L10. exact L10.
Qed.

(** *** improvement *)
Lemma improvements_ref b l : 1 / 10 ^ 5 <= Rabs (b + @ndblmax R RNum) -> improvements b l = map (improvement_over b) l.
Proof. intros H. induction l as [|[fe f] t IH]; cbn [improvements map]; auto. rewrite improvement_ref by auto. rewrite IH. reflexivity. Qed.
Lemma improvements_none l f t : (forall o, In o l -> fst o = false) -> 1 / 10 ^ 5 <= Rabs (f + @ndblmax R RNum) ->
  improvements NOREF (l ++ (true, f) :: t) = map (fun _ => 0) l ++ @ndbleps R RNum :: map (improvement_over f) t.
Proof.
  intros H Hf. induction l as [|[fe g] l IH]; cbn [app improvements map].
  - rewrite improvement_first. rewrite improvements_ref by auto. reflexivity.
  - assert (fe = false) as -> by exact (H (fe, g) (or_introl eq_refl)). rewrite improvement_infeasible. rewrite IH. reflexivity. intros o Ho. apply H. right; auto.
Qed.
Lemma improvements_infeasible b l : (forall o, In o l -> fst o = false) -> improvements b l = map (fun _ => 0) l.
Proof. intros H. induction l as [|[fe g] l IH]; cbn [improvements map]; auto. assert (fe = false) as -> by exact (H (fe, g) (or_introl eq_refl)). rewrite improvement_infeasible, IH; auto. intros o Ho. apply H. right; auto. Qed.

(** *** success = a new best feasible design *)
Lemma hrow_obj d (x : list R) f vs im fe : length x = d -> row_obj d (history_row x f vs im fe) = f.
Proof. intros <-. unfold row_obj, history_row. rewrite app_nth2 by lia. rewrite Nat.sub_diag. reflexivity. Qed.
Lemma hrow_len (x : list R) f vs im fe : length (history_row x f vs im fe) = (length x + 1 + length vs + 2)%nat.
Proof. unfold history_row. rewrite !app_length. cbn [length]. lia. Qed.
Lemma hrow_imp (x : list R) f vs im fe : row_imp (history_row x f vs im fe) = im.
Proof.
  unfold row_imp. rewrite hrow_len. unfold history_row. rewrite app_nth2 by lia. rewrite app_nth2 by (cbn [length]; lia). rewrite app_nth2 by (cbn [length]; lia).
  cbn [length]. replace (length x + 1 + length vs + 2 - 2 - length x - 1 - length vs)%nat with 0%nat by lia. reflexivity.
Qed.
Lemma hrow_feas (x : list R) f vs im fe : row_feas (history_row x f vs im fe) <-> fe = true.
Proof.
  unfold row_feas. rewrite last_nth, hrow_len. unfold history_row. rewrite app_nth2 by lia. rewrite app_nth2 by (cbn [length]; lia). rewrite app_nth2 by (cbn [length]; lia).
  cbn [length]. replace (length x + 1 + length vs + 2 - 1 - length x - 1 - length vs)%nat with 1%nat by lia. cbn [nth nltb n0 n1 RNum]. destruct fe.
  - split; auto. intros _. apply Rltb_true. lra.
  - split; [|discriminate]. intros H. apply Rltb_true in H. lra.
Qed.
Lemma rowi_app (rs : list (list R)) r i : rowi (rs ++ [r]) i = if (i <? length rs)%nat then rowi rs i else if (i =? length rs)%nat then r else [].
Proof.
  unfold rowi. destruct (Nat.ltb_spec i (length rs)). apply app_nth1; auto. rewrite app_nth2 by auto. destruct (Nat.eqb_spec i (length rs)) as [->|]. rewrite Nat.sub_diag. reflexivity.
  apply nth_overflow. cbn [length]. lia.
Qed.
Definition ref_inv (d : nat) (ref : R) (rs : list (list R)) : Prop :=
  (exists i, candidate d rs i /\ row_obj d (rowi rs i) <= ref) /\ (forall i, candidate d rs i -> row_obj d (rowi rs i) <= ref -> row_imp (rowi rs i) = ref - row_obj d (rowi rs i)).
Lemma ref_inv_app d ref rs x f vs fe : length x = d -> ref_inv d ref rs -> ref_inv d ref (rs ++ [history_row x f vs (improvement_over ref (fe, f)) fe]).
Proof.
  intros Hx [(i & Ci & Hi) H]. split.
  - exists i. destruct Ci as (L & C1 & C2). assert (rowi (rs ++ [history_row x f vs (improvement_over ref (fe, f)) fe]) i = rowi rs i) as E. { rewrite rowi_app. destruct (Nat.ltb_spec i (length rs)); auto; lia. }
    unfold candidate. rewrite E, app_length. cbn [length]. repeat (split; auto). lia.
  - intros j (L & C1 & C2). rewrite app_length in L. cbn [length] in L. rewrite rowi_app in C1, C2 |- *. destruct (Nat.ltb_spec j (length rs)) as [J|J].
    + intros Q. apply H; auto. split; auto.
    + destruct (Nat.eqb_spec j (length rs)) as [->|]; [|lia]. rewrite hrow_obj, hrow_imp by auto. intros Q. apply hrow_feas in C1. rewrite C1. unfold improvement_over. cbn [fst snd]. rewrite Rmax_right; lra.
Qed.
Definition new_best (d : nat) (before : list (list R)) (o : outcome) : Prop :=
  o_fe o = true /\ forall i, best_feasible d before i -> o_f o < row_obj d (rowi before i).
Lemma success_ok c e before o ref : ref_inv (c_dim c) ref before -> outcome_ok c e before o -> o_im o = improvement_over ref (o_fe o, o_f o) ->
  (exists i, best_feasible (c_dim c) before i) /\ (o_ok o = true <-> new_best (c_dim c) before o).
Proof.
  intros [(j & Cj & Hj) H] (_ & _ & _ & _ & fe & i & B & Hok) Him. unfold best_row in B. destruct fe; [|exfalso; apply (proj1 B j); auto].
  split. eauto. rewrite Hok, Him. pose proof B as (Ci & Bi & Bf). pose proof (Bi j Cj) as Q. cbn in Q. apply Rleb_true in Q. rewrite (H i Ci) by lra. unfold new_best, improvement_over. cbn [fst snd].
  split.
  - destruct (o_fe o); [|lra]. intros G. split; auto. intros i' Bi'. assert (row_obj (c_dim c) (rowi before i') <= row_obj (c_dim c) (rowi before i)) as Q'.
    { destruct Bi' as (_ & Bi' & _). specialize (Bi' i Ci). apply Rleb_true in Bi'. exact Bi'. }
    assert (row_obj (c_dim c) (rowi before i) <= row_obj (c_dim c) (rowi before i')) as Q2. { destruct Bi' as (Ci' & _). specialize (Bi i' Ci'). apply Rleb_true in Bi. exact Bi. }
    unfold Rmax in G. destruct (Rle_dec 0 (ref - o_f o)); lra.
  - intros (-> & G). specialize (G i B). pose proof (Rmax_r 0 (ref - o_f o)). lra.
Qed.
Fixpoint successes_ok (c : cfg R) (before : list (list R)) (os : list outcome) : Prop :=
  match os with [] => True | o :: t => (o_ok o = true <-> new_best (c_dim c) before o) /\ successes_ok c (before ++ [outcome_row o]) t end.
Lemma successes c es ref (Hl : length (c_lb c) = c_dim c) : 1 / 10 ^ 5 <= Rabs (ref + @ndblmax R RNum) -> forall os k before, ref_inv (c_dim c) ref before -> outcomes_ok c es k before os ->
  map o_im os = improvements ref (map (fun o => (o_fe o, o_f o)) os) -> successes_ok c before os.
Proof.
  intros Hr. induction os as [|o t IH]; intros k before Hi Ho Him; [exact Logic.I|]. destruct Ho as [H1 H2]. rewrite improvements_ref in Him by auto. cbn [map] in Him. injection Him as E1 E2.
  split. { eapply success_ok; eauto. } apply (IH (S k)); auto.
  - unfold outcome_row. rewrite E1. apply ref_inv_app; auto. destruct H1 as (((L & _) & _) & _). congruence.
  - rewrite improvements_ref by auto. auto.
Qed.
Lemma start_ref c start b : settings_ok c -> data_ok c -> Forall2 (start_row c) (rows (c_data c)) start -> initial_best (c_dim c) start b -> b <> NOREF -> ref_inv (c_dim c) b start.
Proof.
  intros (Hd & _) (Wt & Nt & Ct & _) F [(i & (Ci & Bi & _) & ->)|[_ ->]] Hb; [|contradiction]. split.
  - exists i. split; auto. lra.
  - intros j Cj Hj. specialize (Bi j Cj). apply Rleb_true in Bi. assert (row_obj (c_dim c) (rowi start j) = row_obj (c_dim c) (rowi start i)) as -> by lra.
    assert (row_imp (rowi start j) = 0) as ->; [|lra]. destruct Cj as (Lj & _).
    assert (exists r, start_row c r (rowi start j)) as (r & vs & fl & -> & _). { clear - F Lj. unfold rowi. revert j Lj. induction F; intros j Lj; cbn [length] in Lj. lia. destruct j; cbn [nth]. eauto. apply IHF. lia. }
    apply hrow_imp.
Qed.
