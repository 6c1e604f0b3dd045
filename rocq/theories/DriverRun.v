(** Running a study read from a configuration file. *)
From Coq Require Import Ascii String ZArith Bool Arith Reals Lra List Lia.
From Verif Require Import Base StM Num RealNum VecModel MatModel MatSpec BoundsModel DesignModel HistModel HistSpec KrigModel OptModel OptSpec OptReal OptRun OptRunReal OptStart OptTop.
From Verif Require Import StrModel ApiModel ApiProofs ApiReal ApiRun StrSpec DriverModel DriverSpec DriverRead DriverWhole DriverConfig.
Import ListNotations.
Local Open Scope R_scope.

Definition table_good (d : nat) (data : str -> option (mat R)) (n : str) : Prop := exists m, data n = Some m /\ wf m /\ (0 < nrows m)%nat /\ (d < ncols m)%nat.
Lemma map_ok_iff {A} (f : A -> Res R) l vs : map f l = map Ok vs <-> length vs = length l /\ forall i a, nth_error l i = Some a -> f a = Ok (nth i vs 0).
Proof.
  revert vs. induction l as [|a l IH]; intros [|v vs]; cbn [map length].
  - split; [intros _; split; [reflexivity|intros [|i] x E; discriminate E]|reflexivity].
  - split; [discriminate|intros (E & _); discriminate].
  - split; [discriminate|intros (E & _); discriminate].
  - split.
    + intros E. injection E as E1 E2. apply IH in E2. destruct E2 as (L & H). split; [lia|]. intros [|i] x X; cbn in X |- *; [injection X as <-; exact E1|now apply H].
    + intros (L & H). f_equal; [exact (H 0%nat a eq_refl)|]. apply IH. split; [lia|]. intros i x X. exact (H (S i) x X).
Qed.
Lemma Forall2_nth_iff {A} (P : A -> R -> Prop) l vs : Forall2 P l vs <-> length vs = length l /\ forall i a, nth_error l i = Some a -> P a (nth i vs 0).
Proof.
  revert vs. induction l as [|a l IH]; intros [|v vs]; cbn [length].
  - split; [intros _; split; [reflexivity|intros [|i] x E; discriminate E]|constructor].
  - split; [intros H; inversion H|intros (E & _); discriminate].
  - split; [intros H; inversion H|intros (E & _); discriminate].
  - split.
    + intros E. inversion E as [|? ? ? ? E1 E2]; subst. apply IH in E2. destruct E2 as (L & H). split; [lia|]. intros [|i] x X; cbn in X |- *; [injection X as <-; exact E1|now apply H].
    + intros (L & H). constructor; [exact (H 0%nat a eq_refl)|]. apply IH. split; [lia|]. intros i x X. exact (H (S i) x X).
Qed.

Section Run.
  Context (ext : odef -> ufun R) (udf : nat -> ufun R) (data : str -> option (mat R)) (c : config) (s : driver R) (HS : study ext udf c s) (HA : acceptable c).
  Let d := cf_dim c.
  Let lo := map ps_lb (cf_params c).
  Let up := map ps_ub (cf_params c).
  Let cs := cf_cons c.
  Let g := driver_cfg data s.
  Definition ocon_at (i : nat) (k : cspec) : ocon R := driver_con data (con_of ext udf (cbox c) (cf_dim c) i k, dfun_of (iters_of default_iters (cf_iters c)) k).
  Fixpoint ocons (i : nat) (l : list cspec) : list (ocon R) := match l with [] => [] | k :: t => ocon_at i k :: ocons (S i) t end.
  Lemma ocons_nth l : forall j i, nth_error (ocons j l) i = option_map (ocon_at (j + i)) (nth_error l i).
  Proof. induction l as [|k l IH]; intros j [|i]; cbn; auto. now rewrite Nat.add_0_r. rewrite IH. now rewrite Nat.add_succ_r. Qed.
  Lemma ocons_len l : forall j, length (ocons j l) = length l.
  Proof. induction l as [|k l IH]; intros j; cbn; auto. Qed.
  Lemma ocons_ids l : forall j, map oc_id (ocons j l) = seq j (length l).
  Proof. induction l as [|k l IH]; intros j; cbn; auto. now rewrite IH. Qed.
  Lemma ocons_form l : forall j, map (driver_con data) (combine (cons_of ext udf (cbox c) (cf_dim c) j l) (map (dfun_of (iters_of default_iters (cf_iters c))) l)) = ocons j l.
  Proof. induction l as [|k l IH]; intros j; cbn [cons_of map combine ocons]; auto. now rewrite IH. Qed.
  Lemma ocon_fun i k x : length x = d -> oc_fun (ocon_at i k) x = as_runtime (con_fun ext udf i k x).
  Proof.
    intros L. unfold ocon_at, driver_con, con_of, dfun_of. cbn [df_user]. destruct (cs_user k) eqn:E; cbn [oc_fun]; [reflexivity|]. unfold fcon_eval. cbn [k_f]. rewrite fobj_eval_ok by exact L. reflexivity.
  Qed.
  Lemma cfg_is : c_dim g = d /\ c_lb g = lo /\ c_ub g = up /\ c_N g = cf_N c /\ c_disc g = disc_of ps_discrete ps_inc (cf_params c) /\ c_boxset g = true /\ c_objset g = true /\ c_how g = (1000 * 100)%nat /\
    c_cons g = ocons 0 cs /\ c_data g = data_of data (od_train (cf_obj c)).
  Proof.
    destruct HS as (_ & _ & _ & _ & E1 & E2 & E3 & (O1 & O2 & O3 & O4 & O5 & O6 & O7 & O8 & O9 & _) & P1 & P2 & P3 & _). unfold g, driver_cfg. rewrite O5. cbn [c_dim c_lb c_ub c_N c_disc c_boxset c_objset c_how c_cons c_data f_file].
    rewrite O6, E3, (ocons_form (cf_cons c) 0). auto 12.
  Qed.
  Lemma disc_in i dx : In (i, dx) (disc_of ps_discrete ps_inc (cf_params c)) <-> exists p, nth_error (cf_params c) i = Some p /\ ps_discrete p = true /\ dx = ps_inc p.
  Proof.
    unfold disc_of. assert (G : forall (l : list pspec) k, In (i, dx) (flat_map (fun ip => if ps_discrete (snd ip) then [(fst ip, ps_inc (snd ip))] else []) (combine (seq k (length l)) l)) <-> exists j p, nth_error l j = Some p /\ i = (k + j)%nat /\ ps_discrete p = true /\ dx = ps_inc p).
    { induction l as [|p l IH]; intros k; cbn [length seq combine flat_map]. { split; [intros []|intros (j & p & E & _); destruct j; discriminate E]. } rewrite in_app_iff, (IH (S k)). cbn [fst snd]. split.
      - intros [H|(j & q & E & -> & H)]. { destruct (ps_discrete p) eqn:D; [|destruct H]. destruct H as [H|[]]. injection H as <- <-. exists 0%nat, p. cbn. auto. } exists (S j), q. cbn. rewrite Nat.add_succ_r. auto.
      - intros ([|j] & q & E & -> & D & ->); cbn in E. { injection E as ->. left. rewrite D. left. now rewrite Nat.add_0_r. } right. exists j, q. rewrite Nat.add_succ_r. auto. }
    rewrite G. split; [intros (j & p & E & -> & H); exists p; auto|intros (p & E & H); exists i, p; auto].
  Qed.
  Lemma disc_nodup : NoDup (map fst (disc_of ps_discrete ps_inc (cf_params c))).
  Proof.
    unfold disc_of. generalize 0%nat as k. induction (cf_params c) as [|p l IH]; intros k; cbn [length seq combine flat_map map]; [constructor|]. rewrite map_app. cbn [fst snd].
    destruct (ps_discrete p); cbn [map app]; [|apply IH]. constructor; [|apply IH]. intros I. apply in_map_iff in I. destruct I as ((i & x) & Ei & I). cbn in Ei. subst i. apply in_flat_map in I. destruct I as ((j & q) & I & J). apply in_combine_l in I. apply in_seq in I. cbn in J.
    destruct (ps_discrete q); [|destruct J]. destruct J as [J|[]]. injection J as J1 J2. lia.
  Qed.
  Lemma nth_lo i p : nth_error (cf_params c) i = Some p -> nth i lo 0 = ps_lb p /\ nth i up 0 = ps_ub p.
  Proof. intros E. unfold lo, up. split; apply nth_error_nth; now apply map_nth_error. Qed.

  (** the increments of the discrete parameters are not too small for the ranges *)
  Context (Hinc : forall p, In p (cf_params c) -> ps_discrete p = true -> 0 < ps_inc p /\ (ps_ub p - ps_lb p) / ps_inc p < 2 ^ 32 - 1).
  Lemma run_settings : settings_ok g.
  Proof.
    destruct HA as (D0 & N0 & DL & FB & ND & _). destruct cfg_is as (C1 & C2 & C3 & C4 & C5 & C6 & C7 & C8 & C9 & C10). unfold settings_ok. rewrite C1, C2, C3, C5, C6, C8, C9, ocons_len, ocons_ids. unfold lo, up. rewrite !map_length. fold lo up.
    split; [unfold d; lia|]. split; [auto|]. split; [auto|]. split.
    { intros i Hi. assert (exists p, nth_error (cf_params c) i = Some p) as (p & E). { destruct (nth_error (cf_params c) i) eqn:E; eauto. apply nth_error_None in E. unfold d in Hi. lia. } destruct (nth_lo i p E) as (-> & ->). rewrite Forall_forall in FB. apply FB. eapply nth_error_In; eauto. }
    split; [apply disc_nodup|]. split; [|split; [reflexivity|split; [discriminate|reflexivity]]].
    intros i dx I. apply disc_in in I. destruct I as (p & E & Dp & ->). destruct (nth_lo i p E) as (-> & ->). split. { assert (i < length (cf_params c))%nat by (apply nth_error_Some; congruence). unfold d. lia. } apply Hinc; [eapply nth_error_In; eauto|exact Dp].
  Qed.
  Lemma surrogates_bound n l : forall j, (forall k, In k l -> cs_user k = false -> bound (od_model (cs_def k)) = true /\ exists m, data (od_train (cs_def k)) = Some m) -> d <> 0%nat ->
    driver_surrogates data (combine (cons_of ext udf (cbox c) (cf_dim c) j l) (map (dfun_of n) l)) = Ok tt.
  Proof.
    induction l as [|k l IH]; intros j H D; cbn [cons_of map combine driver_surrogates]; [reflexivity|]. cbn [df_user dfun_of].
    assert ((if cs_user k then Ok tt else driver_surrogate data (k_f (con_of ext udf (cbox c) (cf_dim c) j k)) (od_model (df_def (dfun_of n k)))) = Ok tt) as E.
    { destruct (cs_user k) eqn:U; [reflexivity|]. destruct (H k (or_introl eq_refl) U) as (B & m & M). unfold driver_surrogate, con_of. cbn [k_f f_box f_dim f_file df_def dfun_of]. fold d. destruct (Nat.eqb_spec d 0); [congruence|]. rewrite B. cbn [negb]. now rewrite M. }
    rewrite E. cbn [bind]. apply IH; [|exact D]. intros k' I. apply H. now right.
  Qed.
  Lemma cons_names l : forall j, map (fun x => f_name (k_f x)) (cons_of ext udf (cbox c) (cf_dim c) j l) = map (fun k => od_name (cs_def k)) l.
  Proof. induction l as [|k l IH]; intros j; cbn; auto. now rewrite IH. Qed.

  (** everything goes well *)
  Context (Hobj : bound (od_model (cf_obj c)) = true) (Hdat : table_good d data (od_train (cf_obj c))).
  Context (Hcon : forall k, In k cs -> cs_user k = false -> bound (od_model (cs_def k)) = true /\ table_good d data (od_train (cs_def k))).
  Context (Hnames : NoDup (map (fun k => od_name (cs_def k)) cs)).
  Context (Hfun : forall x, in_box lo up x -> isOk (ext (cf_obj c) x) = true /\ forall i k, nth_error cs i = Some k -> isOk (con_fun ext udf i k x) = true).
  Context (Huser : forall r i k, In r (rows (data_of data (od_train (cf_obj c)))) -> nth_error cs i = Some k -> cs_user k = true -> isOk (udf i (firstn d r)) = true).
  Lemma run_ini : driver_ini data s (Ok tt) = Ok tt.
  Proof.
    destruct HS as (_ & _ & _ & _ & E1 & E2 & E3 & (O1 & O2 & O3 & O4 & O5 & O6 & O7 & O8 & O9 & _) & P1 & P2 & P3 & _). destruct HA as (D0 & _). unfold driver_ini. rewrite O5, E2, O6, E3.
    unfold driver_surrogate at 1. cbn [f_box f_dim f_file df_def]. fold d. destruct (Nat.eqb_spec d 0) as [|_]; [contradiction|]. rewrite Hobj. cbn [negb]. destruct Hdat as (m & M & _). rewrite M. cbn [bind].
    unfold d. rewrite (surrogates_bound _ (cf_cons c) 0); [|intros k I U; destruct (Hcon k I U) as (B & m' & M' & _); eauto|exact D0]. cbn [bind]. rewrite repeated_ok; [reflexivity| |intros x _ []]. now rewrite cons_names.
  Qed.
  Lemma len_box x : in_box lo up x -> length x = d.
  Proof. intros (L & _). destruct HA as (_ & _ & DL & _). unfold lo in L. rewrite map_length in L. unfold d. congruence. Qed.
  Theorem run_ok es fuel : surrogates_ok es -> (cf_N c <= fuel)%nat ->
    exists st os start, driver_run fuel data (Ok tt) es s = Some (w_d_opt (w_p_st st (d_opt s)) s, Ok tt) /\
      s_evals st = cf_N c /\ length os = cf_N c /\ s_pts st = map o_x os /\ rows (h_data (s_hist st)) = start ++ map outcome_row os /\
      Forall2 (start_row (driver_cfg data s)) (rows (data_of data (od_train (cf_obj c)))) start /\
      Forall (fun o => in_box lo up (o_x o) /\ (forall i p, nth_error (cf_params c) i = Some p -> ps_discrete p = true -> grid (ps_lb p) (ps_ub p) (ps_inc p) (nth i (o_x o) 0)) /\
        ext (cf_obj c) (o_x o) = Ok (o_f o) /\ length (o_vs o) = length cs /\ (forall i k, nth_error cs i = Some k -> con_fun ext udf i k (o_x o) = Ok (nth i (o_vs o) 0)) /\
        (o_fe o = true <-> forall i k, nth_error cs i = Some k -> if cs_gt k then nth i (o_vs o) 0 > cs_value k else nth i (o_vs o) 0 < cs_value k)) os /\
      exists fe i, reports d (length cs) (box_of lo up) (rows (h_data (s_hist st))) i fe (go_d (s_gopt st)) /\
        if fe : bool then best_feasible d (rows (h_data (s_hist st))) i else (forall j, ~ candidate d (rows (h_data (s_hist st))) j) /\ best_any d (rows (h_data (s_hist st))) i.
  Proof.
    intros Hes Hf. pose proof run_settings as Hs. destruct cfg_is as (C1 & C2 & C3 & C4 & C5 & C6 & C7 & C8 & C9 & C10).
    assert (P : p_obj (d_opt s) = Some (mkF (cf_dim c) (od_name (cf_obj c)) (od_train (cf_obj c)) (ext (cf_obj c)) (Some (cbox c)))). { destruct HS as (_ & _ & _ & _ & _ & _ & _ & O & _). exact (is_obj _ _ _ _ _ _ _ O). }
    assert (constraints_ok g) as Hco.
    { intros oc x I X. rewrite C2, C3 in X. rewrite C9 in I. apply In_nth_error in I. destruct I as (i & E). rewrite ocons_nth in E. destruct (nth_error cs i) as [k|] eqn:K; [|discriminate E]. injection E as <-. rewrite ocon_fun by (now apply len_box).
      destruct (Hfun x X) as (_ & H). specialize (H i k K). cbn [Nat.add]. destruct (con_fun ext udf i k x); [reflexivity|discriminate H|discriminate H]. }
    assert (forall k, world_ok g (with_objective (p_obj (d_opt s)) (es k))) as Hw.
    { intros k. destruct (Hes k) as (W1 & W2 & W3 & W4). rewrite P. repeat (split; auto). cbn [e_eval with_objective]. intros x X. rewrite C2, C3 in X. rewrite fobj_eval_ok by (cbn [f_dim]; fold d; now apply len_box). apply (Hfun x X). }
    assert (data_ok g) as Hda.
    { unfold data_ok. rewrite C10, C1, C9. unfold data_of at 1 2 3. destruct Hdat as (m & Em & M1 & M2 & M3). rewrite Em. split; auto. split; auto. split; [exact M3|]. intros oc I. apply In_nth_error in I. destruct I as (i & E). rewrite ocons_nth in E. destruct (nth_error cs i) as [k|] eqn:K; [|discriminate E]. injection E as <-. cbn [Nat.add].
      unfold ocon_at at 1, driver_con, dfun_of. cbn [df_user oc_user con_of]. destruct (cs_user k) eqn:U.
      - intros r I. assert (length (firstn d r) = d) as LR. { unfold rows, data_of in I. rewrite Em in I. apply in_map_iff in I. destruct I as (j & <- & _). rewrite firstn_length, map_length, seq_length. lia. }
        rewrite ocon_fun by exact LR. unfold con_fun. rewrite U. pose proof (Huser r i k I K U) as HU. destruct (udf i (firstn d r)); [reflexivity|discriminate HU|discriminate HU].
      - destruct (Hcon k (nth_error_In _ _ K) U) as (_ & m' & Em' & M'). unfold ocon_at, driver_con, con_of, data_of. cbn [oc_data k_f f_file]. rewrite Em'. exact M'. }
    assert (prepared g (p_st (d_opt s)) /\ s_trLen (p_st (d_opt s)) = 4 / 5 /\ s_iter (p_st (d_opt s)) = 0%nat /\ s_evals (p_st (d_opt s)) = 0%nat /\ s_pts (p_st (d_opt s)) = [] /\ s_succ (p_st (d_opt s)) = 0%nat /\ s_fail (p_st (d_opt s)) = 0%nat) as (Hp & Q1 & Q2 & Q3 & Q4 & Q5 & Q6).
    { destruct HS as (_ & _ & _ & _ & _ & _ & _ & (O1 & O2 & O3 & O4 & O5 & O6 & O7 & O8 & O9 & U1 & U2 & U3 & U4 & U5 & U6 & U7 & U8 & U9) & P1 & P2 & P3 & P4).
      assert (s_trLen (p_st (d_opt s)) = 4 / 5) as TR. { rewrite U4. cbn. unfold Rlit. simpl. field. }
      split; [|auto 10]. unfold prepared, gopt_ready. rewrite C1, C2, C3, C9, ocons_len, P4. cbn [b_lo b_up b_set cbox box_of]. rewrite TR. destruct HA as (D0 & _ & DL & _). rewrite O9.
      assert (forall l j, length (cons_of ext udf (cbox c) (cf_dim c) j l) = length l) as LC by (induction l as [|k l IH]; intros j; cbn; auto). rewrite LC.
      split. { split; [unfold d; lia|]. split; [exact O8|]. rewrite !map_length. unfold d. auto. } repeat (split; [assumption || reflexivity|]). lra. }
    destruct (ego_ok g (fun k => with_objective (p_obj (d_opt s)) (es k)) (p_st (d_opt s)) Hs Hda Hco Hw C7) with (fuel := fuel) as (st & os & b & E & L1 & L2 & L3 & start & G1 & G2 & G3 & G4 & G5 & G6 & G7 & G8); auto; try (rewrite C4; try apply HA; exact Hf).
    exists st, os, start. split. { unfold driver_run. destruct HS as (I1 & I2 & _). rewrite I1, I2. cbn [negb]. rewrite run_ini. fold g. rewrite E. reflexivity. }
    rewrite <- C4. split; [exact L3|]. split; [exact L1|]. split; [exact L2|]. split; [exact G2|]. split; [rewrite <- C10; exact G1|]. split.
    2:{ destruct G6 as (fe & i & A1 & A2). exists fe, i. rewrite C1, C9, ocons_len in A1. rewrite C1 in A2. split; [|exact A2]. unfold reports in *. cbn [b_lo b_up box_of]. rewrite G7, G8, C2, C3 in A1. exact A1. }
    assert (OC : forall o k0 bef, outcome_ok g (with_objective (p_obj (d_opt s)) (es k0)) bef o ->
      in_box lo up (o_x o) /\ (forall i p, nth_error (cf_params c) i = Some p -> ps_discrete p = true -> grid (ps_lb p) (ps_ub p) (ps_inc p) (nth i (o_x o) 0)) /\
        ext (cf_obj c) (o_x o) = Ok (o_f o) /\ length (o_vs o) = length cs /\ (forall i k, nth_error cs i = Some k -> con_fun ext udf i k (o_x o) = Ok (nth i (o_vs o) 0)) /\
        (o_fe o = true <-> forall i k, nth_error cs i = Some k -> if cs_gt k then nth i (o_vs o) 0 > cs_value k else nth i (o_vs o) 0 < cs_value k)).
    { intros o k0 bef ((Bx & Gr) & Ev & Va & Fe & _). rewrite C2, C3 in *. split; [exact Bx|]. split.
      { intros i p Ep Dp. destruct (nth_lo i p Ep) as (<- & <-). apply Gr. rewrite C5. apply disc_in. exists p. auto. }
      cbn [e_eval with_objective] in Ev. rewrite P in Ev. rewrite fobj_eval_ok in Ev by (cbn [f_dim]; fold d; now apply len_box). split; [exact Ev|].
      unfold values_at in Va. rewrite C9 in Va. apply map_ok_iff in Va. rewrite ocons_len in Va. destruct Va as (VL & VV). split; [exact VL|]. split.
      { intros i k K. specialize (VV i (ocon_at i k)). rewrite ocons_nth, K in VV. specialize (VV eq_refl). rewrite ocon_fun in VV by (now apply len_box). destruct (con_fun ext udf i k (o_x o)) as [v|e|]; cbn in VV; [congruence|destruct e; discriminate VV|discriminate VV]. }
      rewrite Fe. unfold feasible_values. rewrite C9, Forall2_nth_iff, ocons_len. split.
      - intros (_ & H) i k K. specialize (H i (ocon_at i k)). rewrite ocons_nth, K in H. exact (H eq_refl).
      - intros H. split; [exact VL|]. intros i a A. rewrite ocons_nth in A. destruct (nth_error cs i) as [k|] eqn:K; [|discriminate A]. injection A as <-. exact (H i k K). }
    clear -G5 OC. revert G5. generalize 0%nat as k0. generalize start as before. induction os as [|oo os IH]; intros before k0 G; constructor.
    - destruct G as [G _]. exact (OC _ _ _ G).
    - destruct G as [_ G]. exact (IH _ _ G).
  Qed.
End Run.
