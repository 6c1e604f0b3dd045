(** Runs of a study. *)
From Coq Require Import Reals Lra List Arith Lia ZArith Bool Permutation.
From Verif Require Import Base StM Num RealNum VecModel MatModel MatSpec MatProofs BoundsModel DataModel DataProofs KrigModel KrigSpec KrigProg TrainModel TrainReal
  ErfMath AcqModel AcqSpec PropsAcq DesignModel HistModel HistSpec HistProofs OptModel OptProofs OptRun OptSpec OptReal OptRunReal OptStart OptTop RunFileModel RunFileProofs StudyModel StudyFit StudySpec StudyStep StudyLoop.
Import ListNotations.
Local Open Scope R_scope.

(** the draws of an iteration lie in [0,1) *)
Definition draws_ok (dr : draws) : Prop := (forall k j i n, 0 <= dr_us dr k j i n < 1) /\ (forall k j, 0 <= dr_u1 dr k j < 1) /\ (forall k j, 0 <= dr_u2 dr k j < 1).
Definition forget {A} (r : Res A) : Res unit := match r with Ok _ => Ok tt | Throw x => Throw x | UB => UB end.
Lemma env_units c dr t s : draws_ok dr -> draws_unit (envOf c dr t s).
Proof. intros (_ & A & B). split; auto. Qed.
Lemma in_opt_ok {A} (m : SM (ost R) A) s o' a : m (y_opt s) = (o', Ok a) -> in_opt m s = (mkSt o' (y_obj s) (y_con s), Ok a).
Proof. intros H. unfold in_opt, szoom. rewrite H. reflexivity. Qed.
Lemma failed_forget {A} c e s (r : Res A) : isOk r = false -> failed c e s r -> failed c e s (forget r).
Proof.
  intros N [(D & T & x & [(H1 & H2)|(H1 & H2)])|H]; [left|left|right; exact H]; split; auto; split; auto; exists x; subst r; auto.
Qed.
Lemma train_stops c e s s' r : c_how c <> 0%nat -> Nat.modulo (S (s_iter s)) (c_how c) = 1%nat -> beforeUpdate c e s = (s', Ok r) -> e_train e = Ok tt.
Proof.
  intros How D H. unfold beforeUpdate in H. rewrite (sbind_ok _ _ _ (set_iter (S (s_iter s)) s) tt) in H by reflexivity. rewrite (sbind_ok _ _ _ (set_iter (S (s_iter s)) s) (S (s_iter s))) in H by reflexivity.
  destruct (Nat.eqb_spec (c_how c) 0); [contradiction|]. rewrite D in H. cbn [Nat.eqb swhen] in H. apply TrainReal.sbind_inv in H. destruct H as (s1 & a & H & _). apply TrainReal.sbind_inv in H. destruct H as (s2 & [] & H & _).
  unfold slift in H. injection H as _ H. exact H.
Qed.
Section Run.
  Variables (c : cfg R) (q : ssets) (fmt : R -> R).
  Hypothesis Hs : settings_ok c.
  Hypothesis Hm : models_ok c (fun k => ss_lin (q k)).
  Definition due (n : nat) : Prop := Nat.modulo n (c_how c) = 1%nat.
  (** what the training at the start of the iteration gives: nothing is done unless it is due *)
  Definition trained_by (dr : draws) (n : nat) (os : list outcome) (t : Res unit) (s1 : study) : Prop :=
    (~ due n -> t = Ok tt) /\ (due n -> exists sb s0 o, initSurrogates c q (dr_perm dr) sb = (s0, Ok tt) /\ minv c q fmt os s0 /\ trainSurrogates c dr s0 = (s1, o) /\ t = forget o).
  Definition step_result dr os s (t : Res unit) s1 (s' : study) (r : Res (option unit)) : Prop :=
    let e := envOf c dr t s1 in minv c q fmt os s1 /\ trained_by dr (S (s_iter (y_opt s))) os t s1 /\ iteration c e (y_opt s) = (y_opt s', forget r) /\ r <> Ok None /\
      s_iter (y_opt s') = S (s_iter (y_opt s)) /\
      ((r = Ok (Some tt) /\ t = Ok tt /\ exists o, minv c q fmt (os ++ [o]) s' /\ ready c (y_opt s') /\ iter_spec c e (y_opt s) (y_opt s') (o_x o) (o_f o) (o_vs o) (o_fe o) (o_im o) /\
          o_ok o = Rltb (ds_imp (go_d (s_gopt (y_opt s)))) (o_im o)) \/
       (isOk r = false /\ minv c q fmt os s' /\ s_hist (y_opt s') = s_hist (y_opt s) /\ s_gopt (y_opt s') = s_gopt (y_opt s) /\ failed c e (y_opt s) (forget r))).
  Lemma step_rest dr os s s1 t s' r : draws_ok dr -> minv c q fmt os s1 -> ready c (y_opt s) -> y_opt s1 = y_opt s -> trained_by dr (S (s_iter (y_opt s))) os t s1 ->
    (let e := envOf c dr t s1 in get d <-- in_opt (beforeUpdate c e); run addObjective fmt dr d; run addConstraints c fmt dr d; run in_opt (run in_hist (hist_update d); run afterUpdate c e; findOptimum c); sret (Some tt)) s1 = (s', r) ->
    step_result dr os s t s1 s' r.
  Proof.
    intros Hd I1 HR O1 TB H. pose proof Hs as (_ & Hl & _ & _ & _ & _ & _ & How & _). unfold step_result. cbv zeta in *. set (e := envOf c dr t s1) in *. rewrite iteration_parts.
    unfold sbind at 1 in H. unfold in_opt at 1, szoom at 1 in H. rewrite O1 in H. destruct (beforeUpdate c e (y_opt s)) as [o1 rb] eqn:EB.
    pose proof (before_cases c e (y_opt s) o1 rb Hs (env_units _ _ _ _ Hd) eq_refl HR EB) as BC. destruct (before_frame _ _ _ _ _ EB) as (Fh & Fg).
    set (s2 := mkSt o1 (y_obj s1) (y_con s1)) in *. assert (minv c q fmt os s2) as I2 by (destruct I1; constructor; auto).
    destruct rb as [d|x|].
    + destruct BC as (x & f & vs & fe & im & sfin & D1 & D2 & D3 & EF & RF & SP). set (oc := Outcome x f vs fe im (Rltb (ds_imp (go_d (s_gopt (y_opt s)))) im)).
      pose proof SP as (Ax & _ & _ & Lv & _). destruct (add_models c q fmt Hs Hm dr os oc d s2 I2 D1 D2 D3) as (s3 & s4 & E3 & E4 & O3 & O4 & I4); auto. { cbn. rewrite <- Hl. apply Ax. }
      rewrite (sbind_ok _ _ _ s3 tt E3) in H. rewrite (sbind_ok _ _ _ s4 tt E4) in H. rewrite (sbind_ok _ _ _ (mkSt sfin (y_obj s4) (y_con s4)) tt) in H. 2:{ unfold in_opt, szoom. rewrite O4. cbn [y_opt s2]. rewrite EF. reflexivity. }
      injection H as <- <-. split; auto. split; auto. split. { rewrite (sbind_ok _ _ _ o1 d EB), EF. reflexivity. } split. discriminate. split. { cbn [y_opt]. apply SP. }
      left. split; auto. split. { destruct (Nat.eq_dec (Nat.modulo (S (s_iter (y_opt s))) (c_how c)) 1) as [Q|Q]. apply (train_stops c e (y_opt s) o1 d How Q EB). apply TB. exact Q. }
      exists oc. split. { destruct I4; constructor; auto. } split; auto.
    + injection H as <- <-. destruct BC as (It & Fa). split; auto. split; auto. split. { rewrite (sbind_fail _ _ _ _ _ EB eq_refl). reflexivity. } split. discriminate. split; auto. right. repeat (split; [solve [auto]|]). pose proof (fun H => failed_forget _ _ _ _ H Fa) as Fb. apply Fb. reflexivity.
    + injection H as <- <-. destruct BC as (It & Fa). split; auto. split; auto. split. { rewrite (sbind_fail _ _ _ _ _ EB eq_refl). reflexivity. } split. discriminate. split; auto. right. repeat (split; [solve [auto]|]). pose proof (fun H => failed_forget _ _ _ _ H Fa) as Fb. apply Fb. reflexivity.
  Qed.
  Lemma step_cases dr os s s' r : draws_ok dr -> minv c q fmt os s -> ready c (y_opt s) -> studyStep c q fmt dr s = (s', r) ->
    (due (S (s_iter (y_opt s))) /\ r = Ok None /\ exists s0 s1, minv c q fmt os s0 /\ initSurrogates c q (dr_perm dr) s = (s0, Ok tt) /\ trainSurrogates c dr s0 = (s1, Ok None)) \/ exists t s1, step_result dr os s t s1 s' r.
  Proof.
    intros Hd HI HR H. unfold studyStep in H. destruct (trainDue c q dr s) as [s1 r1] eqn:ET. destruct (due_models c q fmt Hs Hm dr os s s1 r1 (proj1 Hd) HI ET) as (o & -> & O1 & I1 & N1 & Y1).
    rewrite (sbind_ok _ _ _ s1 o ET) in H. unfold due.
    destruct (Nat.eq_dec (Nat.modulo (S (s_iter (y_opt s))) (c_how c)) 1) as [D|D].
    - destruct (Y1 D) as (s0 & E0 & E1). destruct (init_models c q fmt Hs Hm (dr_perm dr) os s HI) as (s0' & E0' & _ & I0). rewrite E0 in E0'. injection E0' as <-.
      assert (o = Ok None \/ o <> Ok None) as [->|NO]. { destruct o as [[[]|]|x|]; auto; right; discriminate. }
      { injection H as <- <-. left. split; auto. split; auto. exists s0, s1. auto. }
      right. exists (forget o), s1. apply step_rest; auto. { split. contradiction. intros _. exists s, s0, o. auto. }
      rewrite <- H. destruct o as [[[]|]|x|]; try reflexivity. contradiction.
    - destruct (N1 D) as (-> & ->). right. exists (Ok tt), s. apply step_rest; auto. split; auto. contradiction.
  Qed.

  (** the environments of the iterations *)
  Definition envs (drs : nat -> draws) (ts : nat -> Res unit) (ys : nat -> study) (i : nat) : env R := envOf c (drs i) (ts i) (ys i).
  Lemma study_loop drs : (forall k, draws_ok (drs k)) -> forall fuel k os s s' r, minv c q fmt os s -> ready c (y_opt s) -> (s_iter (y_opt s) < c_N c)%nat -> studyLoop fuel k c q fmt drs s = Some (s', r) ->
    exists ts ys new n, (0 < n)%nat /\
      egoLoop fuel k c (envs drs ts ys) (y_opt s) = Some (y_opt s', r) /\ s_iter (y_opt s') = (s_iter (y_opt s) + n)%nat /\ (s_iter (y_opt s') <= c_N c)%nat /\
      (forall j, (j < n)%nat -> minv c q fmt (os ++ firstn j new) (ys (k + j)%nat) /\ trained_by (drs (k + j)%nat) (S (s_iter (y_opt s) + j)) (os ++ firstn j new) (ts (k + j)%nat) (ys (k + j)%nat)) /\
      minv c q fmt (os ++ new) s' /\ outcomes_ok c (envs drs ts ys) k (rows (h_data (s_hist (y_opt s)))) new /\
      rows (h_data (s_hist (y_opt s'))) = rows (h_data (s_hist (y_opt s))) ++ map outcome_row new /\
      map o_im new = improvements (s_best (y_opt s)) (map (fun o => (o_fe o, o_f o)) new) /\
      optimum_of c (rows (h_data (s_hist (y_opt s')))) (s_gopt (y_opt s')) /\
      ((r = Ok tt /\ length new = n /\ s_iter (y_opt s') = c_N c) \/
       (isOk r = false /\ n = S (length new) /\ exists s1, s_iter s1 = (s_iter (y_opt s) + length new)%nat /\ failed c (envs drs ts ys (k + length new)) s1 r)).
  Proof.
    intros Hd. induction fuel as [|fuel IH]; intros k os s s' r HI HR HN H; cbn [studyLoop] in H; [discriminate|].
    destruct (studyStep c q fmt (drs k) s) as [s1 r1] eqn:ES. destruct (step_cases (drs k) os s s1 r1 (Hd k) HI HR ES) as [(_ & -> & _)|(t & y & J1 & TB & EI & NN & IT & C)]; [discriminate|].
    destruct C as [(-> & Et & o & I1 & R1 & SP & Eo)|(NR & I1 & Eh & Eg & Fa)].
    - pose proof SP as (A1 & A2 & A3 & A4 & A5 & A6 & A7 & A8 & A9 & A10 & A11).
      assert (forall es, es k = envOf c (drs k) t y -> outcome_ok c (es k) (rows (h_data (s_hist (y_opt s)))) o) as OK.
      { intros es Ee. split; auto. split. { rewrite Ee. exact A2. } split; auto. split; auto. destruct HR as (_ & _ & _ & (fb & ib & Rb & Ob) & _). exists fb, ib. split. exact Ob.
        destruct Rb as (_ & _ & _ & _ & _ & <- & _). rewrite Eo. rewrite Rltb_true. lra. }
      destruct (Nat.leb_spec (c_N c) (s_iter (y_opt s1))) as [L|L].
      + injection H as <- <-. exists (fun _ => t), (fun _ => y), [o], 1%nat. split; [lia|]. cbn [egoLoop]. unfold envs at 1. rewrite EI. cbn [forget]. rewrite (proj2 (Nat.leb_le _ _) L). split; auto. split; [lia|]. split; [lia|].
        split. { intros j Hj. assert (j = 0%nat) as -> by lia. cbn [firstn]. rewrite app_nil_r, !Nat.add_0_r. auto. } split; auto. split. { split. apply OK. reflexivity. exact Logic.I. } split. exact A10.
        split. { cbn [map improvements]. rewrite A6. reflexivity. } split. { apply R1. } left. split; auto. split; auto. lia.
      + destruct (IH (S k) (os ++ [o]) s1 s' r I1 R1 L H) as (ts & ys & new & n & P0 & P1 & P2 & P3 & P4 & P5 & P6 & P7 & P8 & P9 & P10).
        set (ts' := fun i => if Nat.eqb i k then t else ts i). set (ys' := fun i => if Nat.eqb i k then y else ys i).
        assert (envs drs ts' ys' k = envOf c (drs k) t y) as Ek. { unfold envs, ts', ys'. rewrite Nat.eqb_refl. reflexivity. }
        assert (forall i, (S k <= i)%nat -> envs drs ts' ys' i = envs drs ts ys i /\ ts' i = ts i /\ ys' i = ys i) as Ei. { intros i Hi. unfold envs, ts', ys'. destruct (Nat.eqb_spec i k); [lia|]. auto. }
        assert (forall f i es1 es2 sx, (forall j, (i <= j)%nat -> es1 j = es2 j) -> egoLoop f i c es1 sx = egoLoop f i c es2 sx) as EXT.
        { clear. induction f as [|f IHf]; intros i es1 es2 sx He; cbn [egoLoop]; auto. rewrite (He i) by lia. destruct (iteration c (es2 i) sx) as [s2 [[]|x|]]; auto. destruct (Nat.leb _ _); auto. apply IHf. intros j Hj. apply He. lia. }
        assert (forall l i es1 es2 bef, (forall j, (i <= j)%nat -> es1 j = es2 j) -> outcomes_ok c es1 i bef l -> outcomes_ok c es2 i bef l) as EXT2.
        { clear. induction l as [|a l IHl]; intros i es1 es2 bef He; cbn [outcomes_ok]; auto. intros [X Y]. split. rewrite <- He by lia. auto. apply IHl with es1; auto. intros j Hj. apply He. lia. }
        exists ts', ys', (o :: new), (S n). split; [lia|]. cbn [egoLoop]. rewrite Ek, EI. cbn [forget]. rewrite (proj2 (Nat.leb_gt _ _) L).
        split. { rewrite (EXT fuel (S k) _ (envs drs ts ys)). exact P1. intros j Hj. apply Ei. auto. } split; [lia|]. split; auto.
        split. { intros [|j] Hj. - cbn [firstn]. rewrite app_nil_r, !Nat.add_0_r. unfold ts', ys'. rewrite Nat.eqb_refl. auto.
                 - cbn [firstn]. replace (k + S j)%nat with (S k + j)%nat by lia. destruct (Ei (S k + j)%nat ltac:(lia)) as (_ & -> & ->). destruct (P4 j ltac:(lia)) as (X & Y). rewrite <- app_assoc in X, Y. split; auto. replace (S (s_iter (y_opt s) + S j)) with (S (s_iter (y_opt s1) + j)) by lia. exact Y. }
        split. { rewrite <- app_assoc in P5. exact P5. } split. { split. apply OK; auto. rewrite A10 in P6. apply EXT2 with (envs drs ts ys); auto. intros j Hj. symmetry. apply Ei. auto. }
        split. { rewrite P7, A10, <- app_assoc. reflexivity. } split. { cbn [map improvements]. rewrite A6, <- P8. reflexivity. } split; auto.
        destruct P10 as [(X & Y & Z)|(X & Y & sx & Z & W)].
        * left. split; auto. split; auto. cbn. lia.
        * right. split; auto. split. { cbn. lia. } exists sx. cbn [length]. split. lia. replace (k + S (length new))%nat with (S k + length new)%nat by lia. destruct (Ei (S k + length new)%nat ltac:(lia)) as (-> & _). exact W.
    - assert (Some (s1, forget r1) = Some (s', r)) as HH. { destruct r1 as [[[]|]|x|]; auto; discriminate. } injection HH as <- <-.
      exists (fun _ => t), (fun _ => y), [], 1%nat. split; [lia|]. cbn [egoLoop]. unfold envs at 1. rewrite EI. split. { destruct r1 as [?|x|]; [discriminate| |]; reflexivity. } split; [lia|]. split; [lia|].
      split. { intros j Hj. assert (j = 0%nat) as -> by lia. cbn [firstn]. rewrite app_nil_r, !Nat.add_0_r. auto. } rewrite app_nil_r. split; auto. split. { exact Logic.I. } split. { rewrite Eh. cbn [map]. rewrite app_nil_r. reflexivity. }
      split. reflexivity. split. { rewrite Eh, Eg. apply HR. } right. split. { destruct r1; auto; discriminate. } split; auto. exists (y_opt s). cbn [length]. rewrite !Nat.add_0_r. split; [reflexivity|exact Fa].
  Qed.
  (** a run that has not stopped is inside a training *)
  Lemma loop_running drs : (forall k, draws_ok (drs k)) -> forall fuel k os s, (c_N c - s_iter (y_opt s) <= fuel)%nat -> (s_iter (y_opt s) < c_N c)%nat -> minv c q fmt os s -> ready c (y_opt s) -> studyLoop fuel k c q fmt drs s = None ->
    exists j new sb s0 s1, due (S (s_iter (y_opt s) + j)) /\ (s_iter (y_opt s) + j < c_N c)%nat /\ minv c q fmt (os ++ new) s0 /\ length new = j /\ initSurrogates c q (dr_perm (drs (k + j)%nat)) sb = (s0, Ok tt) /\ trainSurrogates c (drs (k + j)%nat) s0 = (s1, Ok None).
  Proof.
    intros Hd. induction fuel as [|fuel IH]; intros k os s Hf HN HI HR H; [lia|]. cbn [studyLoop] in H.
    destruct (studyStep c q fmt (drs k) s) as [s1 r1] eqn:ES. destruct (step_cases (drs k) os s s1 r1 (Hd k) HI HR ES) as [(D & -> & s0 & s2 & I0 & EI0 & E0)|(t & y & J1 & TB & EI & NN & IT & C)].
    { exists 0%nat, [], s, s0, s2. rewrite !Nat.add_0_r, app_nil_r. auto 10. }
    destruct C as [(-> & Et & o & I1 & R1 & SP & Eo)|(NR & _)]. 2:{ destruct r1; discriminate. }
    destruct (Nat.leb_spec (c_N c) (s_iter (y_opt s1))) as [L|L]; [discriminate|].
    destruct (IH (S k) (os ++ [o]) s1 ltac:(lia) L I1 R1 H) as (j & new & sb & s0 & s2 & D & LN & I0 & Ln & EI0 & E0). exists (S j), (o :: new), sb, s0, s2. split. { replace (s_iter (y_opt s) + S j)%nat with (s_iter (y_opt s1) + j)%nat by lia. exact D. } split; [lia|].
    split. { rewrite <- app_assoc in I0. exact I0. } split. { cbn. lia. } replace (k + S j)%nat with (S k + j)%nat by lia. split; [exact EI0|exact E0].
  Qed.
  (** the start *)
  Lemma study_start perm : data_ok c -> c_objset c = true -> c_N c <> 0%nat ->
    exists o o1 s1, optSetup c ost_new = (o, Ok tt) /\ startRun c (Ok tt) o = (o1, Ok tt) /\ startStudy c q perm (studyNew c o) = (s1, Ok tt) /\ y_opt s1 = o1 /\ minv c q fmt [] s1 /\ ready c o1 /\
      Forall2 (start_row c) (rows (c_data c)) (rows (h_data (s_hist o1))) /\ initial_best (c_dim c) (rows (h_data (s_hist o1))) (s_best o1) /\ s_iter o1 = 0%nat.
  Proof.
    intros Hdat Ho HN. pose proof Hs as (Pd & Hl & Hu & Hb & _ & _ & _ & _ & Box).
    destruct (setup_ok c Pd Hl Hu) as (o & E0 & P0 & S1 & _); auto. { intros i Hi. specialize (Hb i Hi). lra. }
    destruct (startRun_ok c o Hs Hdat P0 Ho HN) as (o1 & E1 & R1 & T1 & T2 & T3 & _). exists o, o1.
    assert (exists oa, (run sthrow_if (negb (c_objset c)) RuntimeError; run sthrow_if (negb (c_boxset c)) RuntimeError; run settingsOk c; initSettings c) o = (oa, Ok tt) /\
      (run smod (set_init true); run szoom s_cur set_cur (design_setNumberOfConstraints (length (c_cons c))); run on_cur (ds_set_feas true); initHistory c) oa = (o1, Ok tt)) as (oa & EA & EB).
    { unfold startRun in E1. apply TrainReal.sbind_inv in E1. destruct E1 as (x1 & [] & X1 & E1). apply TrainReal.sbind_inv in E1. destruct E1 as (x2 & [] & X2 & E1). apply TrainReal.sbind_inv in E1. destruct E1 as (x3 & [] & X3 & E1). apply TrainReal.sbind_inv in E1. destruct E1 as (x4 & [] & X4 & E1).
      exists x4. rewrite (sbind_ok _ _ _ _ _ X1), (sbind_ok _ _ _ _ _ X2), (sbind_ok _ _ _ _ _ X3). split; auto. }
    destruct (init_first c q fmt Hs Hm perm oa Hdat) as (s2 & E2 & O2 & I2). exists (mkSt o1 (y_obj s2) (y_con s2)). split; auto. split; auto. split.
    { unfold startStudy. rewrite (sbind_ok _ _ _ (studyNew c oa) tt). 2:{ apply (in_opt_ok _ (studyNew c o) oa tt EA). } rewrite (sbind_ok _ _ _ s2 tt E2). apply in_opt_ok. rewrite O2. exact EB. }
    split; auto. split. { destruct I2; constructor; auto. } split; auto. split; auto. split; auto. congruence.
  Qed.
End Run.
