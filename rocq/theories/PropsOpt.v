(** Properties C39 to C45, C49 and C71 to C73: the optimiser. *)
From Coq Require Import Reals Lra Lia Psatz List Arith Bool ZArith.
From Verif Require Import Base StM Num RealNum NumFloat VecModel VecProofs MatModel MatSpec MatLemmas MatProofs MatProofs2 BoundsModel DataProofs DesignModel HistModel HistSpec HistProofs KrigModel OptModel OptProofs OptSpec OptReal OptRun OptRunReal OptStart OptTop.
Import ListNotations.

(** *** Concrete problems used below *)
Section Problems.
  Local Open Scope R_scope.
  (** two parameters, the second one in steps of 1/2; constraint x0 > 1/4 computed by the user's function; two samples *)
  Definition con_demo : ocon R := mkOC 0 true (1 / 4) true (fun x => Ok (nth 0 x 0)) mat_empty.
  Definition cfg_demo : cfg R := mkCfg 2 [0; 0] [1; 2] 3 2 5 [(1%nat, 1 / 2)] [con_demo] true true true (mkMat 2 3 [1 / 2; 3 / 4; 1; 1; 3; 5]).
  Definition env_demo : env R := mkEnv (Ok tt) (fun _ _ x => nth 0 x 0) (fun _ _ x => nth 0 x 0) (fun _ _ => 1 / 2) (fun _ _ => 1 / 3)
    (seq_schedule 5) [Check 0; Check 1; Write 1; Write 0] (fun x => Ok (nth 0 x 0 + nth 1 x 0)) (Ok tt) None.
  Lemma demo_settings : settings_ok cfg_demo.
  Proof.
    unfold settings_ok. cbn [c_dim c_lb c_ub c_disc c_cons c_how c_boxset cfg_demo length map fst]. split; [lia|]. split; auto. split; auto.
    split. { intros [|[|i]] Hi; cbn [nth]; try lra. lia. } split. { constructor; [intros []|constructor]. }
    split. { intros i dx [E|[]]. injection E as <- <-. cbn [nth]. repeat split; try lra. lia. } split; auto.
  Qed.
  Lemma demo_world : world_ok cfg_demo env_demo.
  Proof. unfold world_ok. cbn. repeat split; auto; intros; lra. Qed.
  Lemma demo_constraints : constraints_ok cfg_demo.
  Proof. intros oc x [<-|[]] _. reflexivity. Qed.
  Lemma demo_data : data_ok cfg_demo.
  Proof. unfold data_ok. cbn [c_data c_dim cfg_demo nrows ncols c_cons]. split; [reflexivity|]. split; [lia|]. split; [lia|]. intros oc [<-|[]]. cbn. auto. Qed.
End Problems.
(** one parameter in [-5, 1/5], no constraint, one sample (given), variable sigma factor; binary64 *)
Definition fcfg (x : F) (cs : list (ocon F)) (h : nat) : cfg F := mkCfg 1 [FofZ (-5)] [Flit 2 (-1)] 1 h 1 [] cs true true true (mkMat 1 2 [x; FofZ 3]).
Definition fenv (v : F) : env F := mkEnv (Ok tt) (fun _ _ x => nmul (vget x 0) (Flit 1 10)) (fun _ _ x => nmul (vget x 0) (Flit 1 10)) (fun _ _ => Flit 5 (-1)) (fun _ _ => Flit 5 (-1))
    (seq_schedule 1) (seq_schedule 1) (fun x => Ok v) (Ok tt) None.
(** set up and run *)
Definition whole_run {T} `{Num T} (fuel : nat) (c : cfg T) (es : nat -> env T) : option (ost T * Res unit) :=
  match optSetup c ost_new with (s, Ok _) => ego fuel c (Ok tt) es s | (s, r) => Some (s, r) end.

(** *** C39 *)
Lemma forall2_len {A B} (P : A -> B -> Prop) l m : Forall2 P l m -> length l = length m.
Proof. induction 1; cbn [length]; auto. Qed.
Lemma dblmax_big : (1 <= @ndblmax R RNum)%R.
Proof.
  cbn [ndblmax RNum]. assert (1 <= powerRZ 2 1023)%R. { change (powerRZ 2 1023) with (2 ^ Pos.to_nat 1023)%R. apply pow_R1_Rle. lra. }
  assert (powerRZ 2 (-52) <= 1)%R. { simpl. lra. } nra.
Qed.
Section C39.
  Local Open Scope R_scope.
  Theorem C39_relative_to_initial_best : forall b l, 1 / 10 ^ 5 <= Rabs (b + @ndblmax R RNum) ->
    improvements b l = map (fun o : bool * R => if fst o then Rmax 0 (b - snd o) else 0) l.
  Proof. exact improvements_ref. Qed.
  Theorem C39_positive_exactly_when_better : forall b l i, 1 / 10 ^ 5 <= Rabs (b + @ndblmax R RNum) -> (i < length l)%nat ->
    (nth i (improvements b l) 0 > 0 <-> fst (nth i l (false, 0)) = true /\ snd (nth i l (false, 0)) < b) /\
    (nth i (improvements b l) 0 > 0 -> nth i (improvements b l) 0 = b - snd (nth i l (false, 0))).
  Proof.
    intros b l i Hb Hi. rewrite improvements_ref by auto. rewrite (nth_indep _ 0 (improvement_over b (false, 0))) by (rewrite map_length; auto). rewrite map_nth. unfold improvement_over.
    destruct (nth i l (false, 0)) as [[|] f]; cbn [fst snd].
    - assert (Rmax 0 (b - f) > 0 <-> f < b) as Q. { unfold Rmax. destruct (Rle_dec 0 (b - f)); lra. } rewrite Q. split. tauto. intros. apply Rmax_right. lra.
    - split. { split. lra. intros [? _]. discriminate. } lra.
  Qed.
  (** without a feasible initial design: the first feasible design gets the machine epsilon and is the reference from then on *)
  Theorem C39_first_feasible_becomes_reference : forall l f t, (forall o, In o l -> fst o = false) -> 1 / 10 ^ 5 <= Rabs (f + @ndblmax R RNum) ->
    improvements (- @ndblmax R RNum) (l ++ (true, f) :: t) = map (fun _ => 0) l ++ / 2 ^ 52 :: map (improvement_over f) t.
  Proof. intros l f t H Hf. change (- ndblmax) with NOREF. rewrite improvements_none by auto. cbn [ndbleps RNum]. repeat f_equal. Qed.
  Theorem C39_recorded_improvements : forall c es, settings_ok c -> data_ok c -> constraints_ok c -> (forall k, world_ok c (es k)) -> c_objset c = true -> c_N c <> 0%nat ->
    exists s' os b start, whole_run (c_N c) c es = Some (s', Ok tt) /\ rows (h_data (s_hist s')) = start ++ map outcome_row os /\ length start = nrows (c_data c) /\
      initial_best (c_dim c) start b /\ map o_im os = improvements b (map (fun o => (o_fe o, o_f o)) os).
  Proof.
    intros c es H1 H2 H3 H4 H5 H6. destruct (run_ok c es H1 H2 H3 H4 H5 H6 (c_N c) (le_n _)) as (s0 & s' & os & b & E0 & E1 & L & P1 & P2 & start & F & R1 & R2 & R3 & _).
    exists s', os, b, start. unfold whole_run. rewrite E0. split; auto. split; auto. split; auto. apply forall2_len in F. rewrite <- F, rows_length. auto.
  Qed.
End C39.
Print Assumptions C39_relative_to_initial_best. Print Assumptions C39_positive_exactly_when_better.
Print Assumptions C39_first_feasible_becomes_reference. Print Assumptions C39_recorded_improvements.
Example C39_example : (1 / 10 ^ 5 <= Rabs (3 + @ndblmax R RNum))%R /\ (exists s' os b start, whole_run 3 cfg_demo (fun _ => env_demo) = Some (s', Ok tt) /\ rows (h_data (s_hist s')) = start ++ map outcome_row os /\ length start = 2 /\
      initial_best 2 start b /\ map o_im os = improvements b (map (fun o => (o_fe o, o_f o)) os)).
Proof.
  split. { pose proof dblmax_big. rewrite Rabs_right; lra. }
  apply (C39_recorded_improvements cfg_demo (fun _ => env_demo)); auto using demo_settings, demo_data, demo_constraints, demo_world. discriminate.
Qed.

(** *** C40 *)
(** every run of the loop, from any usable history and for every outcome of the simulations, ends within the budget: at most
    max(1, N) evaluations; the rows appended belong one to one to the completed evaluations, in order; a run that ends
    without exception has evaluated exactly max(1, N) designs.  [extra] is the last point when its iteration failed. *)
Theorem C40_evaluations_and_rows : forall {T} {NT : Num T} (c : cfg T) es s, hist_ok (s_hist s) -> s_iter s = 0 ->
  exists s' r new extra, egoLoop (Nat.max 1 (c_N c)) 0 c es s = Some (s', r) /\
    rows (h_data (s_hist s')) = rows (h_data (s_hist s)) ++ map snd new /\
    (forall i x row, nth_error new i = Some (x, row) -> exists f cs imp fe, e_eval (es i) x = Ok f /\ nisnan f = false /\ (forall y, In y cs -> nisnan y = false) /\
       length cs = h_cn (s_hist s) /\ row = history_row x f cs imp fe) /\
    s_pts s' = s_pts s ++ map fst new ++ extra /\ length extra <= 1 /\ length new + length extra <= Nat.max 1 (c_N c) /\
    s_evals s + length new <= s_evals s' <= s_evals s + length new + length extra /\
    (r = Ok tt -> extra = [] /\ length new = Nat.max 1 (c_N c) /\ s_evals s' = s_evals s + Nat.max 1 (c_N c)).
Proof.
  intros T NT c es s Hh Hi. assert (budget (c_N c) (s_iter s) = Nat.max 1 (c_N c)) as Hb. { unfold budget. rewrite Hi, Nat.sub_0_r. auto. }
  destruct (loop_generic c es (Nat.max 1 (c_N c)) 0 s Hh) as (s' & r & new & extra & E & R1 & R2 & R3 & R4 & R5 & R6 & R7). lia.
  exists s', r, new, extra. split; auto. split; auto. split. { intros i x row Hn. destruct (R2 i x row Hn) as (f & cs & imp & fe & Q1 & Q2 & Q3 & Q4 & Q5 & Q6). exists f, cs, imp, fe. auto. }
  rewrite Hb in R6. split; auto. split; auto. split; auto. split; auto. intros ->. destruct (R7 tt eq_refl) as (Q1 & -> & Q3 & _). rewrite Hb in Q3. cbn [length] in R5. rewrite Q3 in R5. split; auto. split; auto. clear - R5. lia.
Qed.
Theorem C40_nan_aborts : forall {T} {NT : Num T} (c : cfg T) e s s' r x f, hist_ok (s_hist s) ->
  iteration c e s = (s', r) -> s_pts s' = s_pts s ++ [x] -> e_eval e x = Ok f -> nisnan f = true ->
  isOk r = false /\ (c_cons c = [] -> r = Throw RuntimeError) /\ rows (h_data (s_hist s')) = rows (h_data (s_hist s)) /\ s_evals s' = S (s_evals s).
Proof. intros T NT. exact nan_aborts. Qed.
(** in real arithmetic, with simulations that succeed inside the box, the run does not fail *)
Theorem C40_whole_run : forall c es, settings_ok c -> data_ok c -> constraints_ok c -> (forall k, world_ok c (es k)) -> c_objset c = true -> c_N c <> 0 ->
  exists s' os start, whole_run (c_N c) c es = Some (s', Ok tt) /\ s_evals s' = c_N c /\ length os = c_N c /\ s_pts s' = map o_x os /\
    rows (h_data (s_hist s')) = start ++ map outcome_row os /\ Forall2 (start_row c) (rows (c_data c)) start /\ outcomes_ok c es 0 start os.
Proof.
  intros c es H1 H2 H3 H4 H5 H6. destruct (run_ok c es H1 H2 H3 H4 H5 H6 (c_N c) (le_n _)) as (s0 & s' & os & b & E0 & E1 & L & P1 & P2 & start & F & R1 & R2 & R3 & R4 & _).
  exists s', os, start. unfold whole_run. rewrite E0. auto 10.
Qed.
Print Assumptions C40_evaluations_and_rows. Print Assumptions C40_nan_aborts. Print Assumptions C40_whole_run.
Example C40_example : exists s' os start, whole_run 3 cfg_demo (fun _ => env_demo) = Some (s', Ok tt) /\ s_evals s' = 3 /\ length os = 3 /\ s_pts s' = map o_x os /\
    rows (h_data (s_hist s')) = start ++ map outcome_row os /\ Forall2 (start_row cfg_demo) (rows (c_data cfg_demo)) start /\ outcomes_ok cfg_demo (fun _ => env_demo) 0 start os.
Proof. apply (C40_whole_run cfg_demo (fun _ => env_demo)); auto using demo_settings, demo_data, demo_constraints, demo_world. discriminate. Qed.
Example C40_example_binary64 : exists s', whole_run 1 (fcfg (FofZ 0) [] 2) (fun _ => fenv (FofZ 7)) = Some (s', Ok tt) /\ s_evals s' = 1 /\ nrows (h_data (s_hist s')) = 2.
Proof. eexists. split. vm_compute. reflexivity. split; vm_compute; reflexivity. Qed.
Example C40_example_nan : exists s', whole_run 1 (fcfg (FofZ 0) [] 2) (fun _ => fenv (ndiv (FofZ 0) (FofZ 0))) = Some (s', Throw RuntimeError) /\ s_evals s' = 1 /\ nrows (h_data (s_hist s')) = 1.
Proof. eexists. split. vm_compute. reflexivity. split; vm_compute; reflexivity. Qed.

(** *** C41 *)
Theorem C41_retraining_schedule : forall {T} {NT : Num T} (c : cfg T) es s s' fuel k, hist_ok (s_hist s) -> s_iter s = 0 ->
  egoLoop fuel k c es s = Some (s', Ok tt) ->
  c_how c <> 0 /\ s_trained s' = s_trained s ++ filter (fun i => Nat.eqb (i mod c_how c) 1) (seq 1 (Nat.max 1 (c_N c))).
Proof.
  intros T NT c es s s' fuel k Hh Hi H.
  assert (forall f k s a, egoLoop f k c es s = Some a -> egoLoop (S f) k c es s = Some a) as More.
  { induction f as [|f IH]; intros k0 s0 a E; [discriminate|]. cbn [egoLoop] in E. change (egoLoop (S (S f)) k0 c es s0) with (match iteration c (es k0) s0 with (s1, Ok _) => if Nat.leb (c_N c) (s_iter s1) then Some (s1, Ok tt) else egoLoop (S f) (S k0) c es s1 | (s1, r) => Some (s1, r) end).
    destruct (iteration c (es k0) s0) as [s1 [u|?|]]; auto. destruct (Nat.leb _ _); auto. }
  assert (egoLoop (fuel + Nat.max 1 (c_N c)) k c es s = Some (s', Ok tt)) as H'. { rewrite Nat.add_comm. induction (Nat.max 1 (c_N c)); auto. apply More. auto. }
  assert (budget (c_N c) (s_iter s) = Nat.max 1 (c_N c)) as Hb. { unfold budget. rewrite Hi, Nat.sub_0_r. auto. }
  destruct (loop_generic c es (fuel + Nat.max 1 (c_N c)) k s Hh) as (s1 & r & new & extra & E & R1 & R2 & R3 & R4 & R5 & R6 & R7). lia.
  rewrite H' in E. injection E as <- <-. destruct (R7 tt eq_refl) as (Q1 & _ & Q3 & _ & ->). split; auto. f_equal. rewrite Q3, Hb, Hi.
  generalize (seq 1 (Nat.max 1 (c_N c))). induction l as [|i l IH]; cbn [flat_map filter]; auto. unfold train_at at 1. rewrite IH. destruct (Nat.eqb _ _); reflexivity.
Qed.
(** for h >= 2 these are the iterations 1, 1+h, 1+2h, ...; for h = 1 there are none *)
Theorem C41_schedule_values : forall h n k, h <> 0 ->
  (In k (filter (fun i => Nat.eqb (i mod h) 1) (seq 1 n)) <-> 2 <= h /\ 1 <= k <= n /\ exists j, k = 1 + j * h).
Proof.
  intros h n k Hh. rewrite filter_In, in_seq, Nat.eqb_eq. split.
  - intros [H1 H2]. pose proof (Nat.mod_upper_bound k h Hh). split. lia. split. lia. exists (k / h). pose proof (Nat.div_mod k h Hh). lia.
  - intros (H1 & H2 & j & ->). split. lia. rewrite Nat.mod_add by auto. apply Nat.mod_small. lia.
Qed.
(** the frequency 0 is accepted and divides by zero *)
Theorem C41_frequency_zero_refuted : exists (c : cfg F) e s, optSetup c ost_new = (s, Ok tt) /\ exists s', ego 1 c (Ok tt) e s = Some (s', UB).
Proof. exists (fcfg (FofZ 0) [] 0), (fun _ => fenv (FofZ 7)). eexists. split. vm_compute. reflexivity. eexists. vm_compute. reflexivity. Qed.
Print Assumptions C41_retraining_schedule. Print Assumptions C41_schedule_values. Print Assumptions C41_frequency_zero_refuted.
Example C41_example : filter (fun i => Nat.eqb (i mod 3) 1) (seq 1 8) = [1; 4; 7] /\ filter (fun i => Nat.eqb (i mod 1) 1) (seq 1 8) = [] /\
  exists s', whole_run 1 (fcfg (FofZ 0) [] 2) (fun _ => fenv (FofZ 7)) = Some (s', Ok tt) /\ s_trained s' = [1].
Proof. split; auto. split; auto. eexists. split. vm_compute. reflexivity. vm_compute. reflexivity. Qed.

(** *** C42 *)
Section C42.
  Local Open Scope R_scope.
  (** the trust region around the current optimum [dv] (clamped to the normalised box [0, 1/d]) contains it *)
  Theorem C42_trust_region_is_sub_box : forall d dv len, (0 < d)%nat -> length dv = d -> 0 <= len ->
    exists lo up, trustRegion d dv len = Ok (lo, up) /\ length lo = d /\ length up = d /\
      forall i, (i < d)%nat -> let x := Rmin (Rmax (nth i dv 0) 0) (1 / INR d) in
        0 <= nth i lo 0 <= x /\ x <= nth i up 0 <= 1 / INR d /\
        nth i lo 0 = Rmin (Rmax (nth i dv 0 - len / INR d) 0) (1 / INR d) /\ nth i up 0 = Rmin (Rmax (nth i dv 0 + len / INR d) 0) (1 / INR d).
  Proof.
    intros d dv len Hd Hl Hn. destruct (trust_ok d dv len Hd Hl Hn) as (lo & up & E & L1 & L2 & H). exists lo, up. split; auto. split; auto. split; auto.
    assert (0 < 1 / INR d) as Pd by (apply Rdiv_lt_0_compat; [lra|apply lt_0_INR; lia]).
    assert (forall v, clamp d v = Rmin (Rmax v 0) (1 / INR d)) as C. { intros v. unfold clamp, Rmin, Rmax. destruct (Rlt_dec v 0), (Rle_dec v 0); repeat (destruct (Rle_dec _ _) || destruct (Rlt_dec _ _)); try lra. }
    intros i Hi. specialize (H i Hi). rewrite !C in H. cbv zeta. tauto.
  Qed.
  (** length of the trust region after any number of evaluations: it follows the rule [region_length] of OptSpec for the
      recorded successes, and lies in [1/(256 d), max(4/5, 1/d)] *)
  Theorem C42_length_and_sigma : forall c es, settings_ok c -> data_ok c -> constraints_ok c -> (forall k, world_ok c (es k)) -> c_objset c = true -> c_N c <> 0%nat ->
    exists s' os start, whole_run (c_N c) c es = Some (s', Ok tt) /\ outcomes_ok c es 0 start os /\ rows (h_data (s_hist s')) = start ++ map outcome_row os /\ length os = c_N c /\
      s_trLen s' = region_length (1 / 256 * (1 / INR (c_dim c))) (1 / INR (c_dim c)) (4 / 5) (rev (map o_ok os)) /\
      1 / 256 * (1 / INR (c_dim c)) <= s_trLen s' <= Rmax (4 / 5) (1 / INR (c_dim c)) /\
      (c_var c = true -> 1 <= s_sigma s' <= 100).
  Proof.
    intros c es H1 H2 H3 H4 H5 H6. destruct (run_ok c es H1 H2 H3 H4 H5 H6 (c_N c) (le_n _)) as (s0 & s' & os & b & E0 & E1 & L & P1 & P2 & start & F & R1 & R2 & R3 & R4 & R5 & R6 & R7 & R8 & R9).
    exists s', os, start. unfold whole_run. rewrite E0. split; auto. split; auto. split; auto. split; auto. split; auto. split; auto. rewrite R8.
    assert (1 <= INR (c_dim c)) as I1. { change 1 with (INR 1). apply le_INR. destruct H1. lia. }
    assert (0 < 1 / INR (c_dim c) <= 1) as Pd. { split. apply Rdiv_lt_0_compat; lra. apply Rmult_le_reg_r with (INR (c_dim c)). lra. unfold Rdiv. rewrite Rmult_assoc, Rinv_l; lra. }
    apply region_range; lra.
  Qed.
  (** with a feasible initial design a success is exactly a feasible design better than the best feasible one before *)
  Theorem C42_success_is_a_new_best_design : forall c es, settings_ok c -> data_ok c -> constraints_ok c -> (forall k, world_ok c (es k)) -> c_objset c = true -> c_N c <> 0%nat ->
    exists s' os b start, whole_run (c_N c) c es = Some (s', Ok tt) /\ rows (h_data (s_hist s')) = start ++ map outcome_row os /\ initial_best (c_dim c) start b /\
      s_trLen s' = region_length (1 / 256 * (1 / INR (c_dim c))) (1 / INR (c_dim c)) (4 / 5) (rev (map o_ok os)) /\
      ((exists i, candidate (c_dim c) start i) -> 1 / 10 ^ 5 <= Rabs (b + @ndblmax R RNum) ->
       forall pre o post, os = pre ++ o :: post -> let before := start ++ map outcome_row pre in
         (exists i, best_feasible (c_dim c) before i) /\
         (o_ok o = true <-> o_fe o = true /\ forall i, best_feasible (c_dim c) before i -> o_f o < row_obj (c_dim c) (rowi before i))).
  Proof.
    intros c es H1 H2 H3 H4 H5 H6. destruct (run_ok c es H1 H2 H3 H4 H5 H6 (c_N c) (le_n _)) as (s0 & s' & os & b & E0 & E1 & L & P1 & P2 & start & F & R1 & R2 & R3 & R4 & R5 & R6 & R7 & R8 & R9).
    exists s', os, b, start. unfold whole_run. rewrite E0. split; auto. split; auto. split; auto. split; auto. intros (i0 & C0) Hb pre o post Eo.
    assert (b <> NOREF) as Nb. { intros ->. unfold NOREF in Hb. rewrite Rplus_opp_l, Rabs_R0 in Hb. lra. }
    pose proof (start_ref c start b H1 H2 F R2 Nb) as Rf. clear E1 R1 R2 R5 R8 F C0 L P1. revert pre Eo start Rf R3 R4. generalize 0%nat as k. clear Nb.
    induction os as [|o' t IH]; intros k pre Eo start Rf Him Ho. { destruct pre; discriminate. }
    destruct Ho as [O1 O2]. rewrite improvements_ref in Him by auto. cbn [map] in Him. injection Him as I1 I2. destruct pre as [|p pre].
    - cbn [app] in Eo. injection Eo as <- <-. cbn [map]. rewrite app_nil_r. cbv zeta. apply (success_ok c (es k) start o' b); auto.
    - cbn [app] in Eo. injection Eo as <- ->. cbn [map]. cbv zeta. replace (start ++ outcome_row o' :: map outcome_row pre) with ((start ++ [outcome_row o']) ++ map outcome_row pre) by (rewrite <- app_assoc; reflexivity).
      apply (IH (S k) pre eq_refl); auto.
      + unfold outcome_row. rewrite I1. apply ref_inv_app; auto. destruct O1 as (((Lx & _) & _) & _). destruct H1 as (_ & Hl & _). congruence.
      + rewrite improvements_ref by auto. auto.
  Qed.
  (** the maximal length 1/d is exceeded from the start when d >= 2, and then a series of successes reduces the length *)
  Theorem C42_maximal_length_refuted : exists c s s', settings_ok c /\ data_ok c /\ optSetup c ost_new = (s, Ok tt) /\ startRun c (Ok tt) s = (s', Ok tt) /\
    s_trMax s' < s_trLen s' /\ region_length (s_trMin s') (s_trMax s') (s_trLen s') [true; true; true] < s_trLen s'.
  Proof.
    pose proof demo_settings as H1. pose proof demo_data as H2. pose proof H1 as (D0 & Hl & Hu & Hb & _).
    destruct (setup_ok cfg_demo D0 Hl Hu) as (s0 & E0 & P0 & S1 & S2 & S3 & S4 & S5 & S6 & S7); auto. { intros i Hi. specialize (Hb i Hi). lra. }
    destruct (startRun_ok cfg_demo s0 H1 H2 P0 eq_refl) as (s1 & E1 & R1 & T1 & T2 & T3 & T4 & T5 & T6 & T7 & T8 & T9 & T10 & T11 & T12). discriminate.
    exists cfg_demo, s0, s1. split; auto. split; auto. split; auto. split; auto. rewrite T7, T8, T9, S5. cbn [c_dim cfg_demo region_length streak Bool.eqb Nat.modulo Nat.divmod Nat.sub Nat.eqb snd]. simpl INR. rewrite Rmin_right; lra.
  Qed.
End C42.
(** with a single initial sample and a variable sigma factor, the sigma factor is not a number *)
Theorem C42_sigma_refuted : exists (c : cfg F) es s', whole_run 1 c es = Some (s', Ok tt) /\ nisnan (s_sigma s') = true.
Proof. exists (fcfg (FofZ 0) [] 2), (fun _ => fenv (FofZ 7)). eexists. split. vm_compute. reflexivity. vm_compute. reflexivity. Qed.
Print Assumptions C42_trust_region_is_sub_box. Print Assumptions C42_length_and_sigma. Print Assumptions C42_success_is_a_new_best_design.
Print Assumptions C42_maximal_length_refuted. Print Assumptions C42_sigma_refuted.
Example C42_example : settings_ok cfg_demo /\ data_ok cfg_demo /\ constraints_ok cfg_demo /\ world_ok cfg_demo env_demo /\ c_var cfg_demo = true /\
  (region_length (1/512) (1/2) (4/5) [false; true; true; true] = 1/2 /\ region_length (1/512) (1/2) (4/5) (repeat false 15) = 2/5)%R.
Proof.
  split. apply demo_settings. split. apply demo_data. split. apply demo_constraints. split. apply demo_world. split; auto. split; cbn [region_length streak Bool.eqb repeat Nat.modulo Nat.divmod Nat.sub Nat.eqb snd].
  rewrite Rmin_right; lra. rewrite Rmax_left; lra.
Qed.

(** *** C43 *)
Section C43.
  Local Open Scope R_scope.
  Theorem C43_grid : forall lb ub dx, 0 < dx -> lb <= ub -> (ub - lb) / dx < 2 ^ 32 - 1 ->
    exists vs, discreteValues lb ub dx = Ok vs /\ (forall y, In y vs <-> exists k : nat, y = lb + INR k * dx /\ y <= ub) /\ (forall i, (S i < length vs)%nat -> nth i vs 0 < nth (S i) vs 0).
  Proof.
    intros lb ub dx Hd Hl Hq. destruct (discrete_ok lb ub dx Hd Hl Hq) as (K & E & B). eexists. split; [exact E|]. split.
    - intros y. rewrite <- (grid_values lb ub dx K Hd B y : grid lb ub dx y <-> _) || idtac. change (In y (vbuild (K + 1) (fun k => lb + INR k * dx)) <-> grid lb ub dx y). rewrite (grid_values lb ub dx K Hd B y).
      unfold vbuild. rewrite in_map_iff. split; intros (k & H1 & H2); exists k. rewrite in_seq in H2. split; auto; lia. rewrite in_seq. split; auto; lia.
    - intros i Hi. rewrite vbuild_length in Hi. change (vget (vbuild (K + 1) (fun k => lb + INR k * dx)) i < vget (vbuild (K + 1) (fun k => lb + INR k * dx)) (S i)). rewrite !vget_vbuild by lia. rewrite S_INR. nra.
  Qed.
  (** rounding replaces each discrete parameter by the nearest grid value, the smaller one on a tie, and keeps the others *)
  Theorem C43_rounding : forall lb ub l x, length ub = length lb -> length x = length lb -> (forall i, (i < length lb)%nat -> nth i lb 0 <= nth i ub 0) ->
    NoDup (map fst l) -> (forall i dx, In (i, dx) l -> (i < length lb)%nat /\ 0 < dx /\ (nth i ub 0 - nth i lb 0) / dx < 2 ^ 32 - 1) ->
    exists y, roundDiscrete lb ub l x = Ok y /\ length y = length x /\
      (forall i dx, In (i, dx) l -> nearest (nth i lb 0) (nth i ub 0) dx (nth i x 0) (nth i y 0)) /\
      (forall i, ~ In i (map fst l) -> nth i y 0 = nth i x 0) /\
      roundDiscrete lb ub l y = Ok y.
  Proof.
    intros lb ub l x Hu Hx Hb Hn Hd. destruct (round_ok lb ub l Hu Hb (conj Hn Hd) x Hx) as (y & E & L & N & O). exists y. split; auto. split; auto. split; auto. split; auto.
    destruct (round_ok lb ub l Hu Hb (conj Hn Hd) y ltac:(congruence)) as (z & E' & L' & N' & O'). rewrite E'. apply f_equal. apply (list_ext _ _ 0); auto.
    intros i Hi. destruct (in_dec Nat.eq_dec i (map fst l)) as [I|I]; [|auto]. apply in_map_iff in I as ([i' dx] & <- & I). cbn [fst] in *.
    eapply nearest_unique. apply (N' _ _ I). apply nearest_idem. apply (N _ _ I).
  Qed.
End C43.
Print Assumptions C43_grid. Print Assumptions C43_rounding.
Example C43_example : exists y, roundDiscrete [0%R; 0%R] [1%R; 2%R] [(1, (1 / 2)%R)] [(1 / 3)%R; (7 / 10)%R] = Ok y /\ length y = 2 /\
    (forall i dx, In (i, dx) [(1, (1 / 2)%R)] -> nearest (nth i [0; 0]%R 0%R) (nth i [1; 2]%R 0%R) dx (nth i [1 / 3; 7 / 10]%R 0%R) (nth i y 0%R)) /\
    (forall i, ~ In i [1] -> nth i y 0%R = nth i [1 / 3; 7 / 10]%R 0%R) /\ roundDiscrete [0%R; 0%R] [1%R; 2%R] [(1, (1 / 2)%R)] y = Ok y.
Proof.
  destruct demo_settings as (H1 & H2 & H3 & H4 & H5 & H6 & _). apply C43_rounding; auto. intros i Hi. specialize (H4 i Hi). cbn [c_lb c_ub cfg_demo] in H4. lra.
Qed.

(** *** C44 *)
Lemma il_in {E} (ts : list (list E)) sch : interleaving ts sch -> forall t e, In t ts -> In e t -> In e sch.
Proof.
  induction 1 as [ts H|pre e t post sch H IH]; intros t' e' Ht He. { rewrite (H t' Ht) in He. auto. }
  rewrite in_app_iff in Ht. cbn [In] in Ht |- *. destruct Ht as [Ht|[<-|Ht]].
  - right. apply (IH t'); auto. apply in_or_app; auto.
  - destruct He as [->|He]; auto. right. apply (IH t); auto. apply in_or_app. right. left. auto.
  - right. apply (IH t'); auto. apply in_or_app; right; right; auto.
Qed.
Lemma il_order {E} (ts : list (list E)) sch : interleaving ts sch -> forall t a e b w, In t ts -> t = a ++ e :: b -> In w b -> exists p q, sch = p ++ e :: q /\ In w q.
Proof.
  induction 1 as [ts H|pre x t post sch H IH]; intros t' a e b w Ht Et Hw. { rewrite (H t' Ht) in Et. destruct a; discriminate. }
  rewrite in_app_iff in Ht. cbn [In] in Ht. destruct Ht as [Ht|[<-|Ht]].
  - destruct (IH t' a e b w) as (p & q & -> & Q); auto. { apply in_or_app; auto. } exists (x :: p), q. auto.
  - destruct a as [|a0 a]; cbn [app] in Et; injection Et as -> ->.
    + exists [], sch. split; auto. apply (il_in _ _ H b); auto. apply in_or_app. right; left; auto.
    + destruct (IH (a ++ e :: b) a e b w) as (p & q & -> & Q); auto. { apply in_or_app. right; left; auto. } exists (a0 :: p), q. auto.
  - destruct (IH t' a e b w) as (p & q & -> & Q); auto. { apply in_or_app; right; right; auto. } exists (x :: p), q. auto.
Qed.
Lemma il_only {E} (ts : list (list E)) sch : interleaving ts sch -> forall e, In e sch -> exists t, In t ts /\ In e t.
Proof.
  induction 1 as [ts H|pre x t post sch H IH]; intros e He; [destruct He|]. destruct He as [->|He].
  - exists (e :: t). split. apply in_or_app. right; left; auto. left; auto.
  - destruct (IH e He) as (t' & Ht & He'). rewrite in_app_iff in Ht. destruct Ht as [Ht|[<-|Ht]].
    + exists t'. split; auto. apply in_or_app; auto.
    + exists (x :: t). split. apply in_or_app. right; left; auto. right; auto.
    + exists t'. split; auto. apply in_or_app; right; right; auto.
Qed.
Lemma il_single {E} (t : list E) sch : interleaving [t] sch -> sch = t.
Proof.
  revert t. induction sch as [|e sch IH]; intros t H; inversion H as [ts Hn|pre x t' post sch' H' E1]; subst.
  - symmetry. apply Hn. left; auto.
  - destruct pre as [|p pre]; [|destruct pre; discriminate]. cbn [app] in *. injection E1 as <- ->. f_equal. apply IH. auto.
Qed.
(** one thread: the first candidate with the largest acquisition value, unless none is better than the start *)
Theorem C44_single_thread : forall {T} {NT : Num T} {LT : OrdLaws T} (cs : nat -> cand T) n sch start, good (snd start) ->
  interleaving [thread (seq 0 n)] sch ->
  let r := search cs sch start in
  (r = start /\ forall j, j < n -> nltb (snd start) (snd (cs j)) = false) \/
  exists i, i < n /\ r = cs i /\ nltb (snd start) (snd (cs i)) = true /\
    (forall j, j < n -> nltb (snd (cs i)) (snd (cs j)) = false) /\ (forall j, j < i -> nltb (snd (cs j)) (snd (cs i)) = true \/ nisnan (snd (cs j)) = true).
Proof. intros T NT LT cs n sch start Hg H. apply il_single in H. subst sch. apply (seq_search cs start n Hg). Qed.
(** several threads: whatever the schedule, the result is a candidate better than the start if there is one, and the start otherwise *)
Theorem C44_every_schedule_improves : forall {T} {NT : Num T} {LT : OrdLaws T} (cs : nat -> cand T) (ts : list (list nat)) sch start,
  interleaving (map thread ts) sch ->
  let r := search cs sch start in
  (r = start \/ exists i, In i (concat ts) /\ r = cs i /\ nltb (snd start) (snd (cs i)) = true) /\
  ((exists i, In i (concat ts) /\ nltb (snd start) (snd (cs i)) = true) -> nltb (snd start) (snd r) = true).
Proof.
  intros T NT LT cs ts sch start H. cbv zeta. split.
  - destruct (reach_all cs start sch) as [[Q|(i & C & _ & Q1 & Q2)] _]; [left; exact Q|right]. exists i. split; auto.
    destruct (il_only _ _ H _ C) as (t & Ht & Hc). apply in_map_iff in Ht as (is & <- & His). unfold thread in Hc. apply in_flat_map in Hc as (j & Hj & Hc).
    apply in_concat. exists is. split; auto. destruct Hc as [Hc|[Hc|[]]]; [|discriminate]. injection Hc as ->. auto.
  - intros (i & Hi & L). apply (sched_improves cs start sch i L). apply in_concat in Hi as (is & His & Hi). apply in_split in Hi as (a & b & E).
    apply (il_order _ _ H (thread is) (thread a) (Check i) (Write i :: thread b)). apply in_map; auto. unfold thread. rewrite E, flat_map_app. reflexivity. left; auto.
Qed.
(** ... but the best candidate can be lost *)
Theorem C44_best_candidate_refuted : exists (cs : nat -> cand R) ts sch start,
  interleaving (map thread ts) sch /\ concat ts = [0; 1] /\ (snd start < snd (cs 0%nat) < snd (cs 1%nat))%R /\ search cs sch start = cs 0.
Proof.
  exists (fun i => ([INR i], INR i + 1)%R), [[0]; [1]], [Check 0; Check 1; Write 1; Write 0], ([], 0%R). split.
  { cbn. apply (il_step [] (Check 0) [Write 0] [[Check 1; Write 1]]). apply (il_step [[Write 0]] (Check 1) [Write 1] []). apply (il_step [[Write 0]] (Write 1) [] []).
    apply (il_step [] (Write 0) [] [[]]). apply il_done. intros t [<-|[<-|[]]]; auto. }
  split; auto. split. { cbn. lra. }
  unfold search. do 2 (cbn [fold_left sched_step snd nltb RNum]; rewrite (proj2 (Rltb_true _ _)) by (simpl; lra)). cbn [fold_left sched_step existsb Nat.eqb orb filter negb fst]. reflexivity.
Qed.
(** the loop of the program is this search over the generated candidates *)
Theorem C44_loop_is_the_search : forall {T} {NT : Num T} d n gen (acq : vec T -> T) sch start v, (forall i, i < n -> gen i = Ok (v i)) ->
  run_search d n gen acq sch start = Ok (search (fun i => nth i (map (fun i => (v i, acq (v i))) (seq 0 n)) start) sch start).
Proof.
  intros T NT d n gen acq sch start v H. unfold run_search. assert (cands n gen acq = Ok (map (fun i => (v i, acq (v i))) (seq 0 n))) as ->; [|reflexivity].
  induction n as [|n IH]; auto. cbn [cands]. rewrite IH by (intros; apply H; lia). cbn [bind]. rewrite H by lia. cbn [bind]. rewrite seq_S, map_app. reflexivity.
Qed.
Print Assumptions C44_single_thread. Print Assumptions C44_every_schedule_improves. Print Assumptions C44_best_candidate_refuted. Print Assumptions C44_loop_is_the_search.
Example C44_example : let cs := fun i : nat => ([FofZ (Z.of_nat i)], nth i [FofZ 1; FofZ 4; FofZ 4; FofZ 2] (FofZ 0)) in
  interleaving [thread (seq 0 4)] (thread (seq 0 4)) /\ search cs (thread (seq 0 4)) ([], FofZ 0) = cs 1.
Proof.
  cbv zeta. split. { assert (forall l : list event, interleaving [l] l) as Q; [|apply Q]. induction l as [|e l IH]. constructor. intros t [<-|[]]; auto. apply (il_step [] e l []). exact IH. }
  vm_compute. reflexivity.
Qed.

(** *** C45 *)
Section C45.
  Local Open Scope R_scope.
  (** the design vector found is the start or a strictly better one inside the region; the value returned is its acquisition value *)
  Theorem C45_ascent : forall ei acq d lb ub dv, length lb = d -> length ub = d -> (forall i, (i < d)%nat -> nth i lb 0 <= nth i ub 0) ->
    exists v, maximize ei acq d lb ub dv = Some (v, acq v) /\
      (v = dv \/ (acq dv < acq v /\ length v = d /\ forall i, (i < d)%nat -> nth i lb 0 <= nth i v 0 <= nth i ub 0)).
  Proof.
    intros ei acq d lb ub dv Hl Hu Hb. unfold maximize.
    destruct (ascent_spec 100 ls_fuel ei acq d lb ub 27 ltac:(lia) ltac:(unfold ls_fuel; lia) steps_R) with (dv := dv) as (w & E & Hw').
    { intros k Hk. split. exact Logic.I. split. exact Logic.I. apply Rltb_false. apply Hb. auto. }
    exists w. split; auto. destruct Hw' as [?|(L & Lw & W)]; auto. right. apply Rltb_true in L. split; auto. split; auto. intros i Hi. specialize (W i Hi). destruct W as (W1 & W2).
    apply Rltb_false in W1, W2. unfold vget in W1, W2. cbn [n0 RNum] in W1, W2. lra.
  Qed.
End C45.
(** the same in binary64, for every acquisition function, including one that returns NaN *)
Theorem C45_ascent_binary64 : forall ei acq d (lb ub dv : vec F), 
  (forall i, i < d -> nisnan (vget lb i) = false /\ nisnan (vget ub i) = false /\ nltb (vget ub i) (vget lb i) = false) ->
  exists v, maximize ei acq d lb ub dv = Some (v, acq v) /\
    (v = dv \/ (nltb (acq dv) (acq v) = true /\ length v = d /\ forall i, i < d -> nltb (vget v i) (vget lb i) = false /\ nltb (vget ub i) (vget v i) = false)).
Proof.
  intros ei acq d lb ub dv Hb. unfold maximize.
  assert (nltb (nstep 27 (@nlit F _ 1 (-3))) (nlit 10 (-12)) = true) as K2 by (vm_compute; reflexivity).
  assert (forall k, k < d -> good (vget lb k) /\ good (vget ub k) /\ nltb (vget ub k) (vget lb k) = false) as Hb'.
  { intros k Hk. destruct (Hb k Hk) as (? & ? & ?). split; [|split]; auto; apply good_isnan; auto. }
  destruct (ascent_spec 100 ls_fuel ei acq d lb ub 27 ltac:(lia) ltac:(unfold ls_fuel; lia) K2 Hb' dv) as (w & E & Hw').
  exists w. split; auto.
Qed.
Print Assumptions C45_ascent. Print Assumptions C45_ascent_binary64.
Example C45_example : exists v, maximize (fun x => nmul (vget x 0) (Flit 1 10)) (fun x => nmul (vget x 0) (Flit 1 10)) 1 [FofZ 0] [FofZ 1] [Flit 5 (-1)] = Some (v, Flit 1 10) /\ v = [FofZ 1].
Proof. eexists. split. vm_compute. reflexivity. vm_compute. reflexivity. Qed.

(** *** C49 *)
Section C49.
  Local Open Scope R_scope.
  (** a vector of constraint values is feasible exactly when every value satisfies its inequality strictly *)
  Theorem C49_feasible_design : forall (cs : list (ocon R)) vs, length vs = length cs ->
    exists b, cons_feasible cs vs = Ok b /\
      (b = true <-> forall i c, nth_error cs i = Some c -> if oc_gt c then nth i vs 0 > oc_target c else nth i vs 0 < oc_target c).
  Proof.
    intros cs vs L. destruct (cons_feasible_ok cs vs L) as (b & E & H). exists b. split; auto. rewrite H. rewrite (forall2_nth _ (mkOC 0 true 0 true (fun _ => Ok 0) mat_empty) 0) by auto. split.
    - intros Q i c Hc. assert (i < length cs)%nat as Hi by (apply nth_error_Some; congruence). specialize (Q i Hi). unfold satisfies in Q. rewrite (nth_error_nth cs i _ Hc) in Q. exact Q.
    - intros Q i Hi. destruct (nth_error cs i) as [c|] eqn:Hc; [|apply nth_error_None in Hc; lia]. specialize (Q i c Hc). unfold satisfies. rewrite (nth_error_nth cs i _ Hc). exact Q.
  Qed.
  (** the rows of the initial samples: flagged 1 exactly when, with constraints, all constraints hold and the sample is in the box *)
  Theorem C49_initial_rows : forall c, settings_ok c -> data_ok c -> exists m, startHistory c = Ok m /\ nrows m = nrows (c_data c) /\
    forall i, (i < nrows m)%nat -> let x := firstn (c_dim c) (nth i (rows (c_data c)) []) in
      exists vs fl, nth i (rows m) [] = history_row x (nth (c_dim c) (nth i (rows (c_data c)) []) 0) vs 0 fl /\
        Forall2 (fun oc v => start_value (c_dim c) oc x v) (c_cons c) vs /\
        (c_cons c <> [] -> (fl = true <-> feasible_values c vs /\ in_box (c_lb c) (c_ub c) x)) /\ (c_cons c = [] -> fl = true).
  Proof.
    intros c H1 H2. destruct (start_history_ok c H1 H2) as (m & E & _ & N & F). exists m. split; auto. split; auto. intros i Hi.
    rewrite (forall2_nth _ [] []) in F by (rewrite !rows_length; auto). specialize (F i ltac:(rewrite rows_length; lia)). destruct F as (vs & fl & Q1 & Q2 & Q3). exists vs, fl. split; auto. split; auto.
    split; intros; rewrite Q3; tauto.
  Qed.
  (** the rows of the designs evaluated in a run *)
  Theorem C49_evaluated_rows : forall c es, settings_ok c -> data_ok c -> constraints_ok c -> (forall k, world_ok c (es k)) -> c_objset c = true -> c_N c <> 0%nat ->
    exists s' start os, whole_run (c_N c) c es = Some (s', Ok tt) /\ rows (h_data (s_hist s')) = start ++ map outcome_row os /\ length os = c_N c /\
      forall o, In o os -> map (fun oc => oc_fun oc (o_x o)) (c_cons c) = map Ok (o_vs o) /\ (o_fe o = true <-> Forall2 satisfies (c_cons c) (o_vs o)).
  Proof.
    intros c es H1 H2 H3 H4 H5 H6. destruct (C40_whole_run c es H1 H2 H3 H4 H5 H6) as (s' & os & start & E & _ & L & _ & R & _ & O). exists s', start, os. split; auto. split; auto. split; auto.
    clear L R E. revert start O. generalize 0%nat. induction os as [|o' t IH]; intros k start O o Ho; [destruct Ho|]. destruct O as [(Q1 & Q2 & Q3 & Q4 & _) O]. destruct Ho as [<-|Ho]; [split; auto|]. eapply IH; eauto.
  Qed.
End C49.
Print Assumptions C49_feasible_design. Print Assumptions C49_initial_rows. Print Assumptions C49_evaluated_rows.
Example C49_example : settings_ok cfg_demo /\ data_ok cfg_demo /\ c_cons cfg_demo <> [] /\ satisfies con_demo (1 / 2)%R /\ ~ satisfies con_demo (1 / 4)%R.
Proof. split. apply demo_settings. split. apply demo_data. split. discriminate. unfold satisfies. cbn. split; lra. Qed.

(** *** C71: every design evaluated lies in the box and on the grids *)
Section C71.
  Local Open Scope R_scope.
  Theorem C71_evaluated_designs_are_admissible : forall c es, settings_ok c -> data_ok c -> constraints_ok c -> (forall k, world_ok c (es k)) -> c_objset c = true -> c_N c <> 0%nat ->
    exists s', whole_run (c_N c) c es = Some (s', Ok tt) /\ length (s_pts s') = c_N c /\
      forall x, In x (s_pts s') -> length x = c_dim c /\ (forall i, (i < c_dim c)%nat -> nth i (c_lb c) 0 <= nth i x 0 <= nth i (c_ub c) 0) /\
        (forall i dx, In (i, dx) (c_disc c) -> exists k : nat, nth i x 0 = nth i (c_lb c) 0 + INR k * dx).
  Proof.
    intros c es H1 H2 H3 H4 H5 H6. destruct (C40_whole_run c es H1 H2 H3 H4 H5 H6) as (s' & os & start & E & _ & L & P & R & _ & O). exists s'. split; auto. rewrite P, map_length. split; auto.
    pose proof H1 as (_ & Hl & _). clear L R E P. revert start O. generalize 0%nat. induction os as [|o' t IH]; intros k start O x Hx; [destruct Hx|]. destruct O as [(((Lx & B) & G) & _) O]. destruct Hx as [<-|Hx]; [|eapply IH; eauto].
    split. congruence. split. { intros i Hi. apply B. lia. } intros i dx Hi. destruct (G i dx Hi) as (q & Q & _). eauto.
  Qed.
End C71.
(** in binary64 the upper bound is exceeded by a rounding error: bounds -5 and 0.2, design 0.20000000000000018 *)
Theorem C71_in_box_binary64_refuted : exists (c : cfg F) es s' x, whole_run 1 c es = Some (s', Ok tt) /\ s_pts s' = [x] /\ nltb (vget (c_ub c) 0) (vget x 0) = true.
Proof. exists (fcfg (FofZ 0) [] 2), (fun _ => fenv (FofZ 7)). eexists. eexists. split. vm_compute. reflexivity. split. vm_compute. reflexivity. vm_compute. reflexivity. Qed.
Print Assumptions C71_evaluated_designs_are_admissible. Print Assumptions C71_in_box_binary64_refuted.
Example C71_example : exists s', whole_run 3 cfg_demo (fun _ => env_demo) = Some (s', Ok tt) /\ length (s_pts s') = 3.
Proof. destruct (C71_evaluated_designs_are_admissible cfg_demo (fun _ => env_demo)) as (s' & E & L & _); auto using demo_settings, demo_data, demo_constraints, demo_world. discriminate. exists s'. auto. Qed.

Lemma hrow_x d (x : list R) f vs im fe : length x = d -> row_x d (history_row x f vs im fe) = x.
Proof. intros <-. unfold row_x, history_row. rewrite firstn_app, firstn_all, Nat.sub_diag. cbn [firstn]. apply app_nil_r. Qed.
(** *** C72: what the run reports at the end *)
Section C72.
  Local Open Scope R_scope.
  (** the reported design is the best feasible row of initial samples and evaluated designs, or the row of least objective
      value if none is feasible; the history holds all of them *)
  Theorem C72_reported_optimum : forall c es, settings_ok c -> data_ok c -> constraints_ok c -> (forall k, world_ok c (es k)) -> c_objset c = true -> c_N c <> 0%nat ->
    exists s' start os fe i, whole_run (c_N c) c es = Some (s', Ok tt) /\ Forall2 (start_row c) (rows (c_data c)) start /\ length os = c_N c /\
      let all := start ++ map outcome_row os in let g := go_d (s_gopt s') in
      rows (h_data (s_hist s')) = all /\
      (if fe : bool then best_feasible (c_dim c) all i else (forall j, ~ candidate (c_dim c) all j) /\ best_any (c_dim c) all i) /\
      ds_x g = row_x (c_dim c) (rowi all i) /\ ds_f g = row_obj (c_dim c) (rowi all i) /\ ds_feas g = fe /\ ds_ID g = Z.of_nat i /\
      (c_cons c <> [] -> fe = true -> in_box (c_lb c) (c_ub c) (ds_x g)).
  Proof.
    intros c es H1 H2 H3 H4 H5 H6. destruct (run_ok c es H1 H2 H3 H4 H5 H6 (c_N c) (le_n _)) as (s0 & s' & os & b & E0 & E1 & L & P1 & P2 & start & F & R1 & R2 & R3 & R4 & R5 & R6 & R7 & R8 & R9).
    destruct R5 as (fe & i & (Q1 & Q2 & Q3 & Q4 & Q5 & Q6 & Q7) & B). rewrite R1 in *. exists s', start, os, fe, i. unfold whole_run. rewrite E0. split; auto. split; auto. split; auto. cbv zeta. split; auto. split; auto. split; auto. split; auto. split; auto. split; auto.
    intros Hc ->. rewrite Q3. destruct B as ((Li & Fi & _) & _). unfold rowi in *. destruct (Nat.lt_ge_cases i (length start)) as [I|I].
    - rewrite app_nth1 in * by auto. pose proof (forall2_len _ _ _ F) as LF. rewrite (forall2_nth _ [] []) in F by auto. specialize (F i ltac:(lia)). destruct F as (vs & fl & Er & _ & Hfl).
      rewrite Er in Fi |- *. apply hrow_feas in Fi. apply Hfl in Fi. destruct Fi as [Fi|[_ Fi]]; [contradiction|]. rewrite hrow_x; auto. destruct Fi as [Fi _]. rewrite Fi. apply H1.
    - rewrite app_nth2 in * by auto. rewrite app_length in Li. assert (exists o, In o os /\ nth (i - length start) (map outcome_row os) [] = outcome_row o) as (o & Ho & ->).
      { rewrite map_length in Li. destruct (nth_error os (i - length start)) as [o|] eqn:En; [|apply nth_error_None in En; lia]. exists o. split. eapply nth_error_In; eauto. apply nth_error_nth. rewrite nth_error_map, En. reflexivity. }
      assert (in_box (c_lb c) (c_ub c) (o_x o)) as Hb.
      { clear - R4 Ho. revert start R4. generalize 0%nat. induction os as [|o' t IH]; intros k start O; [destruct Ho|]. destruct O as [((B & _) & _) O]. destruct Ho as [<-|Ho]; auto. eapply IH; eauto. }
      unfold outcome_row. rewrite hrow_x; auto. destruct Hb as [Hb _]. rewrite Hb. apply H1.
  Qed.
End C72.
(** without constraints a sample outside the box counts as feasible and can be reported as the optimum: box [-5, 0.2], sample x = 9 *)
Theorem C72_optimum_in_box_refuted : exists (c : cfg F) es s', whole_run 1 c es = Some (s', Ok tt) /\ nltb (vget (c_ub c) 0) (vget (ds_x (go_d (s_gopt s'))) 0) = true /\
  ds_feas (go_d (s_gopt s')) = true /\ vget (ds_x (go_d (s_gopt s'))) 0 = FofZ 9.
Proof. exists (fcfg (FofZ 9) [] 2), (fun _ => fenv (FofZ 7)). eexists. split. vm_compute. reflexivity. split; [|split]; vm_compute; reflexivity. Qed.
Print Assumptions C72_reported_optimum. Print Assumptions C72_optimum_in_box_refuted.
Example C72_example : settings_ok cfg_demo /\ data_ok cfg_demo /\ constraints_ok cfg_demo /\ world_ok cfg_demo env_demo /\ c_cons cfg_demo <> [].
Proof. split. apply demo_settings. split. apply demo_data. split. apply demo_constraints. split. apply demo_world. discriminate. Qed.
