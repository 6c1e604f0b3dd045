(** The study as a refinement of the optimiser's loop. *)
From Coq Require Import Reals Lra List Arith Lia ZArith Bool Permutation.
From Verif Require Import Base StM Num RealNum RSpec VecModel MatModel MatLemmas MatSpec VecProofs VecReal MatProofs MatProofs2 MatProofs3 MatReal LinSolverModel BoundsModel CorrModel CorrProofs CorrSpec CorrObj
  DataModel DataSpec DataProofs DataReal KrigModel KrigSpec KrigMath KrigProofs KrigProofs2 KrigProofs3 KrigProg KrigProofs4 PropsData KrigProofs5 EaModel EaProofs EaRun EaReal PropsEa TrainModel TrainProofs TrainReal
  ErfMath AcqModel AcqSpec AcqProofs PropsAcq DesignModel HistModel HistSpec HistProofs OptModel OptProofs OptRun OptSpec OptReal OptRunReal RunFileModel RunFileProofs StudyModel StudyFit StudySpec StudyStep.
Import ListNotations.
Local Open Scope R_scope.

Lemma fits_model d b lin th ga m : fits d b lin th ga m -> kmodel d b lin (rows (m_file m)) (predicted m).
Proof.
  intros [(Ht & Hn & Hc & DC & c & ys & F) KP T1 T2 T3 T4]. cbn [fst snd] in *.
  assert (kregular d th ga (1 / 10 ^ 12) (points b d (rows (m_file m)))) as KR. { apply kregular_eps; auto. lra. }
  exists th, ga, c, (k_beta0 (t_k (m_tr m))), (vget (k_Rysb (t_k (m_tr m)))), (k_s2 (t_k (m_tr m))). split; auto.
  split. { eapply fitted_kriging; eauto. } split. { intros L. eapply fitted_normal; eauto. }
  intros x Hx. destruct (fitted_variance _ _ _ _ _ _ _ _ _ _ _ x F KP KR Hx) as (u & U & V). exists u. split; auto. unfold predicted. rewrite V. reflexivity.
Qed.
Notation dsm := (sm_new mat_empty).
Definition cpred (s : study) (i : nat) : list R -> R * R := predicted (nth i (y_con s) dsm).

(** *** the acquisition function *)
Lemma map_combine_seq {B C} (f : nat -> B -> C) : forall (l : list B) k i b, nth_error l i = Some b -> nth_error (map (fun p => let '(j, x) := p in f j x) (combine (seq k (length l)) l)) i = Some (f (k + i)%nat b).
Proof.
  induction l as [|a l IH]; intros k [|i] b H; cbn [nth_error length seq combine map] in *; try discriminate.
  - injection H as <-. rewrite Nat.add_0_r. reflexivity.
  - rewrite (IH (S k) i b H). f_equal. f_equal. lia.
Qed.
Lemma consOf_ids c s : map cf_id (consOf c s) = map oc_id (c_cons c).
Proof.
  unfold consOf. generalize 0%nat. induction (c_cons c) as [|a l IH]; intros k; [reflexivity|]. cbn [length seq combine map cf_id]. f_equal. apply IH.
Qed.
Lemma consOf_length c s : length (consOf c s) = length (c_cons c).
Proof. rewrite <- (map_length cf_id), consOf_ids, map_length. reflexivity. Qed.
Lemma study_acquires c dr t s : settings_ok c -> acquires c (envOf c dr t s) (predicted (y_obj s)) (cpred s).
Proof.
  intros (Hd & Hl & Hu & Hb & Dn & Dd & Ids & How & Box) fmin k x Hk Hx. cbv zeta. cbn [e_ei e_acq envOf]. set (b0 := candidate (length (c_cons c)) x).
  destruct (C47_expected_improvement (predicted (y_obj s)) fmin k b0 Hk) as (D & _ & _ & P1 & P2 & P3). change (bo_dv b0) with x in *.
  fold (studyEI c s fmin k x) in *. change (expectedImprovement (predicted (y_obj s)) fmin k b0) with (studyEI c s fmin k x) in *.
  split; auto. split; auto. split. { intros H. apply P3; auto. }
  destruct (C48_feasibility_weighting (c_lb c) (c_ub c) (consOf c s) (studyEI c s fmin k x)) as (b' & p & E & _ & Q & _ & A & _).
  { rewrite D. congruence. } { rewrite D. congruence. } { unfold ids_ok. rewrite consOf_ids, Ids, consOf_length. apply Permutation_refl. }
  { rewrite consOf_length. unfold studyEI, expectedImprovement. destruct (predicted _ _). cbn. apply repeat_length. } { rewrite consOf_length. unfold studyEI, expectedImprovement. destruct (predicted _ _). cbn. apply repeat_length. }
  exists (map p (consOf c s)). split. { rewrite map_length. apply consOf_length. } split. 2:{ unfold studyAcq. rewrite E. exact A. }
  intros i oc Hi. pose proof (map_combine_seq (fun i oc => mkCF (oc_id oc) (if oc_gt oc then GT else LT) (oc_target oc)
         (if oc_user oc then UserFun (fun y => match oc_fun oc y with Ok v => v | _ => 0 end) else Surrogate (predicted (nth i (y_con s) (sm_new mat_empty))))) (c_cons c) 0 i oc Hi) as Hn. match type of Hn with _ = ?y => change (nth_error (consOf c s) i = y) in Hn end. cbn [Nat.add] in Hn. fold (cpred s i) in Hn.
  match type of Hn with _ = Some ?cf => assert (nth i (map p (consOf c s)) 0 = p cf) as Ew by (apply nth_error_nth; rewrite nth_error_map, Hn; reflexivity) end. rewrite Ew.
  specialize (Q _ (nth_error_In _ _ Hn)). rewrite D in Q. unfold weight. destruct (oc_user oc).
  - intros f v Hv. unfold mean_of, dev_of in Q. cbn [cf_kind] in Q. rewrite Hv in Q. destruct Q as (_ & _ & Q). apply Q. lra.
  - exact Q.
Qed.

(** *** the models of a study *)
Section Inv.
  Variables (c : cfg R) (q : ssets) (fmt : R -> R).
  Let d := c_dim c.
  Let b := cbox c.
  Definition mfit (k : nat) (rs0 xs : list (list R)) (m : smodel) : Prop := exists th ga, fits d b (ss_lin (q k)) th ga m /\ offered fmt rs0 xs (rows (m_file m)).
  Record minv (os : list outcome) (s : study) : Prop := {
    mi_obj : mfit 0 (rows (c_data c)) (map objective_sample os) (y_obj s); mi_len : length (y_con s) = length (c_cons c);
    mi_con : forall i oc, nth_error (c_cons c) i = Some oc -> oc_user oc = false -> mfit (S i) (rows (oc_data oc)) (map (constraint_sample i) os) (nth i (y_con s) dsm) }.
  Hypothesis Hs : settings_ok c.
  Hypothesis Hm : models_ok c (fun k => ss_lin (q k)).
  Lemma box_models : box_ok ztol d b.
  Proof.
    destruct Hs as (Hd & Hl & Hu & _). destruct Hm as (_ & _ & W & _). unfold box_ok, b, cbox, d. cbn [b_set b_dim b_lo b_up]. split; auto. split; auto. split; auto. split; auto.
    unfold ztol. split; [lra|]. exact W.
  Qed.
  Lemma pos_dim : (0 < d)%nat.
  Proof. apply Hs. Qed.
  Lemma lin_dim k : ss_lin (q k) = true -> (d < 100)%nat.
  Proof. apply Hm. Qed.
  (** the loop over the constraints with a model *)
  Lemma eachCon_ok (P : nat -> ocon R -> smodel -> smodel -> Prop) f : forall cs i s, (i + length cs <= length (y_con s))%nat ->
    (forall j oc s', nth_error cs j = Some oc -> oc_user oc = false -> nth (i + j) (y_con s') dsm = nth (i + j) (y_con s) dsm ->
       exists m', f (i + j)%nat oc s' = (mkSt (y_opt s') (y_obj s') (upd (y_con s') (i + j) m'), Ok tt) /\ P (i + j)%nat oc (nth (i + j) (y_con s) dsm) m') ->
    exists l, eachCon i cs f s = (mkSt (y_opt s) (y_obj s) l, Ok tt) /\ length l = length (y_con s) /\ (forall j, (j < i)%nat -> nth j l dsm = nth j (y_con s) dsm) /\
      (forall j oc, nth_error cs j = Some oc -> oc_user oc = false -> P (i + j)%nat oc (nth (i + j) (y_con s) dsm) (nth (i + j) l dsm)).
  Proof.
    induction cs as [|oc cs IH]; intros i s Hlen Hf; cbn [eachCon].
    - exists (y_con s). split. { destruct s; reflexivity. } split; auto. split; auto. intros [|j] oc H; discriminate.
    - cbn [length] in Hlen. destruct (oc_user oc) eqn:U; cbn [negb swhen].
      + rewrite (sbind_ok _ _ _ s tt) by reflexivity. destruct (IH (S i) s) as (l & E & L & B & Q). lia.
        { intros j oc' s' H1 H2 H3. replace (S i + j)%nat with (i + S j)%nat in * by lia. apply (Hf (S j) oc' s'); auto. }
        exists l. split; auto. split; auto. split. { intros j Hj. apply B. lia. }
        intros [|j] oc' H1 H2; cbn [nth_error] in H1. { injection H1 as <-. congruence. } replace (i + S j)%nat with (S i + j)%nat by lia. apply (Q j oc'); auto.
      + destruct (Hf 0%nat oc s eq_refl U eq_refl) as (m' & E0 & P0). rewrite Nat.add_0_r in *. rewrite (sbind_ok _ _ _ _ tt E0). set (s1 := mkSt (y_opt s) (y_obj s) (upd (y_con s) i m')).
        destruct (IH (S i) s1) as (l & E & L & B & Q). { cbn [y_con s1]. rewrite upd_length. lia. }
        { intros j oc' s' H1 H2 H3. replace (S i + j)%nat with (i + S j)%nat in * by lia. cbn [y_con s1] in *. rewrite nth_upd_other in H3 |- * by lia. apply (Hf (S j) oc' s'); auto. }
        cbn [y_con y_opt y_obj s1] in *. exists l. split; auto. split. { rewrite L. apply upd_length. } split. { intros j Hj. rewrite B by lia. apply nth_upd_other. lia. }
        intros [|j] oc' H1 H2; cbn [nth_error] in H1.
        * injection H1 as <-. rewrite Nat.add_0_r. rewrite B by lia. rewrite nth_upd_same by lia. exact P0.
        * replace (i + S j)%nat with (S i + j)%nat by lia. specialize (Q j oc' H1 H2). rewrite nth_upd_other in Q by lia. exact Q.
  Qed.
  Lemma in_con_ok i (m : SM smodel unit) s m' : m (nth i (y_con s) dsm) = (m', Ok tt) -> in_con i m s = (mkSt (y_opt s) (y_obj s) (upd (y_con s) i m'), Ok tt).
  Proof. intros H. unfold in_con, szoom. rewrite H. reflexivity. Qed.
  Lemma in_obj_ok (m : SM smodel unit) s m' : m (y_obj s) = (m', Ok tt) -> in_obj m s = (mkSt (y_opt s) m' (y_con s), Ok tt).
  Proof. intros H. unfold in_obj, szoom. rewrite H. reflexivity. Qed.
  (** initialising the models *)
  Lemma init_first perm o : data_ok c -> exists s', initSurrogates c q perm (studyNew c o) = (s', Ok tt) /\ y_opt s' = o /\ minv [] s'.
  Proof.
    intros (D1 & D2 & D3 & D4). destruct Hm as (M1 & M2 & M3 & M4).
    assert (forall m : mat R, wf m -> (0 < ncols m)%nat -> table m) as Tb by (intros m H1 H2; split; auto).
    destruct (init_new d b (q 0%nat) (perm 0%nat) (c_data c) box_models pos_dim (lin_dim 0) ltac:(apply Tb; auto; lia) D2 M1) as (m0 & E0 & F0 & _ & Ft0).
    unfold initSurrogates. rewrite (sbind_ok _ _ _ _ tt (in_obj_ok _ (studyNew c o) m0 E0)). set (s1 := mkSt (y_opt (studyNew c o)) m0 (y_con (studyNew c o))).
    destruct (eachCon_ok (fun i oc _ m' => mfit (S i) (rows (oc_data oc)) [] m') (fun i _ => in_con i (initSurrogate (c_dim c) (cbox c) (q (S i)) (perm (S i)))) (c_cons c) 0 s1) as (l & E & L & _ & Q).
    { cbn. rewrite map_length. lia. }
    { intros j oc s' H1 H2 H3. cbn [Nat.add] in *. assert (nth j (y_con s1) dsm = sm_new (oc_data oc)) as En. { cbn. apply nth_error_nth. rewrite nth_error_map, H1. reflexivity. }
      pose proof (D4 oc (nth_error_In _ _ H1)) as D5. rewrite H2 in D5. destruct D5 as (W1 & W2 & W3).
      destruct (init_new d b (q (S j)) (perm (S j)) (oc_data oc) box_models pos_dim (lin_dim (S j)) ltac:(apply Tb; auto; lia) W2 (M2 oc (nth_error_In _ _ H1) H2)) as (m' & E' & F' & _ & Ft').
      exists m'. split. { apply in_con_ok. rewrite H3, En. exact E'. } exists (repeat 1 d), (repeat (9 / 5) d). split; auto. rewrite F'. constructor. }
    exists (mkSt o m0 l). split. exact E. split; auto. constructor; cbn [y_obj y_con map].
    - exists (repeat 1 d), (repeat (9 / 5) d). split; auto. rewrite F0. constructor.
    - rewrite L. cbn. apply map_length.
    - intros i oc H1 H2. apply (Q i oc H1 H2).
  Qed.
  Lemma mfit_init k rs0 xs m perm : mfit k rs0 xs m -> exists m', initSurrogate d b (q k) perm m = (m', Ok tt) /\ mfit k rs0 xs m'.
  Proof.
    intros (th & ga & F & O). destruct (init_again d b (q k) perm th ga m box_models pos_dim (lin_dim k) F) as (m' & E & Ef & _ & F'). exists m'. split; auto. exists th, ga. split; auto. rewrite Ef. auto.
  Qed.
  Lemma init_models perm os s : minv os s -> exists s', initSurrogates c q perm s = (s', Ok tt) /\ y_opt s' = y_opt s /\ minv os s'.
  Proof.
    intros [I1 I2 I3]. destruct (mfit_init _ _ _ _ (perm 0%nat) I1) as (m0 & E0 & F0). unfold initSurrogates. rewrite (sbind_ok _ _ _ _ tt (in_obj_ok _ s m0 E0)). set (s1 := mkSt (y_opt s) m0 (y_con s)).
    destruct (eachCon_ok (fun i oc _ m' => mfit (S i) (rows (oc_data oc)) (map (constraint_sample i) os) m') (fun i _ => in_con i (initSurrogate (c_dim c) (cbox c) (q (S i)) (perm (S i)))) (c_cons c) 0 s1) as (l & E & L & _ & Q).
    { cbn. lia. }
    { intros j oc s' H1 H2 H3. cbn [Nat.add] in *. destruct (mfit_init _ _ _ _ (perm (S j)) (I3 j oc H1 H2)) as (m' & E' & F'). exists m'. split; auto. apply in_con_ok. rewrite H3. exact E'. }
    exists (mkSt (y_opt s) m0 l). split. exact E. split; auto. constructor; cbn [y_obj y_con]; auto. rewrite L. exact I2. 
  Qed.
  (** training them *)
  Lemma mfit_train k rs0 xs m us ws m' r : (forall j i n, 0 <= us j i n < 1) -> mfit k rs0 xs m -> trainSurrogate us ws m = (m', r) -> mfit k rs0 xs m'.
  Proof.
    intros Hu (th & ga & F & O) E. assert (r = Ok (Some tt) \/ r <> Ok (Some tt)) as [->|N]. { destruct r as [[[]|]|x|]; auto; right; discriminate. }
    - destruct (train_done _ _ _ _ _ _ _ _ _ Hu pos_dim F E) as (th' & ga' & _ & F' & Ef). exists th', ga'. split; auto. rewrite Ef. auto.
    - destruct (train_fails _ _ _ _ _ _ _ _ _ _ pos_dim F E N) as (F' & Ef & _). exists th, ga. split; auto. rewrite Ef. auto.
  Qed.
  Lemma trainCons_inv dr : (forall k j i n, 0 <= dr_us dr k j i n < 1) -> forall cs i s s' r, (i + length cs <= length (y_con s))%nat -> trainCons dr i cs s = (s', r) ->
    y_opt s' = y_opt s /\ y_obj s' = y_obj s /\ length (y_con s') = length (y_con s) /\ (forall j, (j < i)%nat -> nth j (y_con s') dsm = nth j (y_con s) dsm) /\
    (forall j oc rs0 xs, nth_error cs j = Some oc -> oc_user oc = false -> mfit (S (i + j)) rs0 xs (nth (i + j) (y_con s) dsm) -> mfit (S (i + j)) rs0 xs (nth (i + j) (y_con s') dsm)).
  Proof.
    intros Hu. induction cs as [|oc cs IH]; intros i s s' r Hlen E; cbn [trainCons] in E.
    - injection E as <- <-. repeat (split; auto). 
    - cbn [length] in Hlen. destruct (oc_user oc) eqn:U.
      + rewrite (sbind_ok _ _ _ s (Some tt)) in E by reflexivity. apply IH in E; [|lia]. destruct E as (A1 & A2 & A3 & A4 & A5). split; auto. split; auto. split; auto. split. { intros j Hj. apply A4. lia. }
        intros [|j] oc' rs0 xs H1 H2 H3; cbn [nth_error] in H1. { injection H1 as <-. congruence. } replace (i + S j)%nat with (S i + j)%nat in * by lia. apply (A5 j oc'); auto.
      + unfold sbind at 1 in E. unfold in_con, szoom, swallowTrain in E. destruct (trainSurrogate (dr_us dr (S i)) (dr_ws dr (S i)) (nth i (y_con s) dsm)) as [m' r'] eqn:ET.
        assert (forall rs0 xs, mfit (S i) rs0 xs (nth i (y_con s) dsm) -> mfit (S i) rs0 xs m') as HM. { intros rs0 xs H. eapply mfit_train; eauto. }
        set (s1 := mkSt (y_opt s) (y_obj s) (upd (y_con s) i m')) in *.
        assert (forall j oc' rs0 xs, nth_error (oc :: cs) j = Some oc' -> mfit (S (i + j)) rs0 xs (nth (i + j) (y_con s) dsm) -> mfit (S (i + j)) rs0 xs (nth (i + j) (y_con s1) dsm)) as H1.
        { intros [|j] oc' rs0 xs _ H. rewrite Nat.add_0_r in *. cbn [y_con s1]. rewrite nth_upd_same by lia. auto. cbn [y_con s1]. rewrite nth_upd_other by lia. auto. }
        assert (s' = s1 \/ trainCons dr (S i) cs s1 = (s', r)) as [->|E1].
        { destruct r' as [[[]|]|x|]; auto; try (injection E as <- <-; auto; fail). destruct x; auto; injection E as <- <-; auto. }
        * split; auto. split; auto. split. { cbn. apply upd_length. } split. { intros j Hj. cbn. apply nth_upd_other. lia. } intros j oc' rs0 xs X1 X2 X3. apply (H1 j oc'); auto.
        * apply IH in E1. 2:{ cbn. rewrite upd_length. lia. } destruct E1 as (A1 & A2 & A3 & A4 & A5). split; auto. split; auto. split. { rewrite A3. cbn. apply upd_length. } split. { intros j Hj. rewrite A4 by lia. cbn. apply nth_upd_other. lia. }
          intros j oc' rs0 xs X1 X2 X3. specialize (H1 j oc' rs0 xs X1 X3). destruct j as [|j]; cbn [nth_error] in X1. { rewrite Nat.add_0_r in *. rewrite A4 by lia. auto. } replace (i + S j)%nat with (S i + j)%nat in * by lia. apply (A5 j oc'); auto.
  Qed.
  Lemma train_models dr os s s' r : (forall k j i n, 0 <= dr_us dr k j i n < 1) -> minv os s -> trainSurrogates c dr s = (s', r) -> y_opt s' = y_opt s /\ minv os s'.
  Proof.
    intros Hu [I1 I2 I3] E. unfold trainSurrogates in E. unfold sbind in E. unfold in_obj, szoom in E. destruct (trainSurrogate (dr_us dr 0%nat) (dr_ws dr 0%nat) (y_obj s)) as [m' r'] eqn:ET. pose proof (mfit_train _ _ _ _ _ _ _ _ (Hu 0%nat) I1 ET) as I1'.
    set (s1 := mkSt (y_opt s) m' (y_con s)) in *. assert (minv os s1) as J by (constructor; auto). assert (s' = s1 \/ trainCons dr 0 (c_cons c) s1 = (s', r)) as [->|E1].
    { destruct r' as [[[]|]|x|]; auto; injection E as <- <-; auto. }
    - split; auto.
    - apply trainCons_inv in E1; auto. 2:{ cbn. lia. } destruct E1 as (A1 & A2 & A3 & _ & A5). split; auto. constructor. { rewrite A2. auto. } { rewrite A3. auto. }
      intros i oc H1 H2. apply (A5 i oc); auto.
  Qed.
  Lemma due_models dr os s s' r : (forall k j i n, 0 <= dr_us dr k j i n < 1) -> minv os s -> trainDue c q dr s = (s', r) ->
    exists o, r = Ok o /\ y_opt s' = y_opt s /\ minv os s' /\ (Nat.modulo (S (s_iter (y_opt s))) (c_how c) <> 1%nat -> o = Ok (Some tt) /\ s' = s) /\
      (Nat.modulo (S (s_iter (y_opt s))) (c_how c) = 1%nat -> exists s0, initSurrogates c q (dr_perm dr) s = (s0, Ok tt) /\ trainSurrogates c dr s0 = (s', o)).
  Proof.
    intros Hu I E. unfold trainDue in E. unfold sbind at 1, sget at 1 in E. pose proof Hs as (_ & _ & _ & _ & _ & _ & _ & How & _). destruct (Nat.eqb_spec (c_how c) 0); [contradiction|].
    destruct (Nat.eqb_spec (Nat.modulo (S (s_iter (y_opt s))) (c_how c)) 1) as [Q|Q].
    - unfold attempt in E. destruct (init_models (dr_perm dr) os s I) as (s0 & E0 & O0 & I0). unfold sbind in E. rewrite E0 in E. destruct (trainSurrogates c dr s0) as [s1 o] eqn:ET. injection E as <- <-.
      destruct (train_models dr os s0 s1 o Hu I0 ET) as (O1 & I1). exists o. split; auto. split. congruence. split; auto. split. contradiction. intros _. exists s0. auto.
    - injection E as <- <-. exists (Ok (Some tt)). split; auto. split; auto. split; auto. split; auto. contradiction.
  Qed.
  (** the new samples *)
  Lemma mfit_add k rs0 xs m x perm : mfit k rs0 xs m -> length x = S d -> exists m', addSample fmt x perm m = (m', Ok tt) /\ mfit k rs0 (xs ++ [x]) m'.
  Proof.
    intros (th & ga & F & O) Hx. destruct (add_fits d b _ th ga m fmt x perm box_models pos_dim (lin_dim k) F Hx) as (m' & E & F' & _ & [(C & ->)|(C & Er)]).
    - exists m. split; auto. exists th, ga. split; auto. eapply offered_snoc; eauto. apply offered_dup; auto. constructor.
    - exists m'. split; auto. exists th, ga. split; auto. eapply offered_snoc; eauto. apply offered_new; auto. rewrite Er. constructor.
  Qed.
  Lemma add_models dr os o ds s : minv os s -> ds_x ds = o_x o -> ds_f ds = o_f o -> ds_con ds = o_vs o -> length (o_x o) = d -> length (o_vs o) = length (c_cons c) ->
    exists s1 s2, addObjective fmt dr ds s = (s1, Ok tt) /\ addConstraints c fmt dr ds s1 = (s2, Ok tt) /\ y_opt s1 = y_opt s /\ y_opt s2 = y_opt s /\ minv (os ++ [o]) s2.
  Proof.
    intros [I1 I2 I3] D1 D2 D3 L1 L2. destruct (mfit_add _ _ _ _ (objective_sample o) (dr_perm2 dr 0%nat) I1) as (m0 & E0 & F0). { unfold objective_sample. rewrite app_length, L1. cbn. lia. }
    set (s1 := mkSt (y_opt s) m0 (y_con s)). unfold addConstraints. pose proof Hs as (_ & _ & _ & _ & _ & _ & Ids & _).
    match goal with |- context [eachCon 0 (c_cons c) ?f] => destruct (eachCon_ok (fun i oc _ m' => mfit (S i) (rows (oc_data oc)) (map (constraint_sample i) os ++ [constraint_sample i o]) m') f (c_cons c) 0 s1) as (l & E & L & _ & Q) end.
    { cbn. lia. }
    { intros j oc s' H1 H2 H3. cbn [Nat.add] in *. destruct (mfit_add _ _ _ _ (constraint_sample j o) (dr_perm2 dr (S j)) (I3 j oc H1 H2)) as (m' & E' & F'). { unfold constraint_sample. rewrite app_length, L1. cbn. lia. }
      exists m'. split; auto. assert (j < length (c_cons c))%nat as Hj. { apply nth_error_Some. congruence. }
      assert (oc_id oc = j) as ->. { assert (nth_error (map oc_id (c_cons c)) j = Some (oc_id oc)) as Q. { rewrite nth_error_map, H1. reflexivity. } rewrite Ids in Q. apply (nth_error_nth _ _ 0%nat) in Q. rewrite seq_nth in Q by lia. lia. }
      rewrite (sbind_ok _ _ _ s' (nth j (o_vs o) 0)). 2:{ destruct (Nat.leb_spec (length (c_cons c)) j); [lia|]. rewrite D3, L2, Nat.eqb_refl. cbn [negb]. unfold vec_at. destruct (Nat.leb_spec (length (o_vs o)) j); [lia|]. reflexivity. }
      rewrite D1. apply in_con_ok. rewrite H3. exact E'. }
    exists s1, (mkSt (y_opt s) m0 l). split. { unfold addObjective. rewrite D1, D2. apply in_obj_ok. exact E0. } split. exact E. split; auto. split; auto.
    constructor; cbn [y_obj y_con]. { rewrite map_app. exact F0. } { rewrite L. exact I2. } intros i oc H1 H2. rewrite map_app. apply (Q i oc H1 H2).
  Qed.
End Inv.
