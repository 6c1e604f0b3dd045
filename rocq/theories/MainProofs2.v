(** The study a runnable configuration starts. *)
From Coq Require Import Ascii String ZArith Bool Arith Reals Lra List Lia.
From Verif Require Import Base StM Num RealNum VecModel MatModel MatSpec MatProofs BoundsModel DataProofs DesignModel HistModel HistSpec KrigModel TrainModel TrainReal OptModel OptSpec OptReal OptRun OptRunReal OptStart OptTop RunFileModel StudyModel StudyFit StudySpec StudyStep StudyLoop StudyRun PropsStudy
  StrModel StrSpec StrProofs StrReal ApiModel ApiProofs ApiReal ApiRun DriverModel DriverSpec DriverRead DriverWhole DriverConfig DriverRun DriverFail PropsDriver MainModel MainSpec MainProofs.
Import ListNotations.
Local Open Scope R_scope.

(** *** file names *)
Lemma same_word_plain a b : same_word a b -> plain b -> plain a.
Proof.
  intros F P x I. revert P. induction F as [|z y a b H F IH]; [destruct I|]. intros P. destruct I as [->|I]. 2:{ apply IH; auto. intros w W. apply P. now right. }
  pose proof (P y (or_introl eq_refl)) as Py. destruct H as [->|(i & Hi & [(A & B)|(A & B)])]; auto; lia.
Qed.
Lemma xml_true f : xml_name f -> isXMLFile f = Ok true.
Proof.
  intros (a & w & -> & H). assert (length w = length (lit ".xml")) as L by (induction H; cbn; auto). unfold isXMLFile. rewrite app_length, L. change (length (lit ".xml")) with 4%nat. destruct (Nat.leb_spec 4 (length a + 4)) as [_|]; [|lia].
  replace (length a + 4 - 4)%nat with (length a) by lia. rewrite skipn_app, skipn_all, Nat.sub_diag. cbn [app]. change (skipn 0 w) with w.
  assert (P : plain (lit ".xml")) by (intros x [<-|[<-|[<-|[<-|[]]]]]; cbn; lia). destruct (equal_nocase_plain w (lit ".xml") (same_word_plain _ _ H P) P L) as (r & E & S). rewrite E. f_equal. now apply S.
Qed.
Lemma nocase_true a : forall b, length a = length b -> equal_nocase a b = Ok true -> plain a /\ plain b.
Proof.
  induction a as [|x a IH]; intros [|y b] L H; try discriminate L. { split; intros x []. } cbn [equal_nocase] in H. destruct (negative x || negative y)%bool eqn:N; [discriminate|]. apply orb_false_iff in N. destruct N as (N1 & N2).
  destruct (Ascii.eqb (lower x) (lower y)); [|discriminate]. destruct (IH b ltac:(cbn in L; lia) H) as (P1 & P2). unfold negative, code in *. apply Nat.leb_gt in N1, N2. split; intros z [<-|I]; auto.
Qed.
Lemma xml_only f : isXMLFile f = Ok true -> xml_name f.
Proof.
  unfold isXMLFile. destruct (Nat.leb_spec 4 (length f)) as [L|]; [|discriminate]. intros E. exists (firstn (length f - 4) f), (skipn (length f - 4) f). split. { symmetry. apply firstn_skipn. }
  assert (length (skipn (length f - 4) f) = length (lit ".xml")) as LL. { rewrite skipn_length. cbn. lia. } destruct (nocase_true _ _ LL E) as (P1 & P2). destruct (equal_nocase_plain _ _ P1 P2 LL) as (r & E2 & S). apply S. congruence.
Qed.
Lemma xml_nonempty f : xml_name f -> f <> [].
Proof. intros (a & w & -> & H) E. apply app_eq_nil in E. destruct E as (_ & ->). inversion H. Qed.

(** *** the settings *)
Section Study.
  Context (ext : odef -> ufun R) (udf : nat -> ufun R) (data : str -> option (mat R)) (c : config) (s : driver R) (HS : study ext udf c s) (HA : acceptable c) (HR : runnable udf data c).
  Context (HI : forall p, In p (cf_params c) -> ps_discrete p = true -> 0 < ps_inc p).
  Context (HU : forall k, In k (cf_cons c) -> cs_user k = true -> od_model (cs_def k) = MOrdinary).
  Let d := cf_dim c.
  Let g := driver_cfg data s.
  Let q := driver_sets s.
  Lemma inc_ok : forall p, In p (cf_params c) -> ps_discrete p = true -> 0 < ps_inc p /\ (ps_ub p - ps_lb p) / ps_inc p < 2 ^ 32 - 1.
  Proof. intros p I D. split; [now apply HI|]. now apply (rn_range _ _ _ HR p I). Qed.
  Lemma main_settings : settings_ok g.
  Proof. apply (run_settings ext udf data c s HS HA inc_ok). Qed.
  Lemma kriging_bound m : kriging m -> bound m = true.
  Proof. now intros [-> | ->]. Qed.
  Lemma good_table n rs : training_table d data n rs -> table_good d data n /\ rows (data_of data n) = rs /\ ncols (data_of data n) = S d.
  Proof. intros (m & E & W & N & C & ->). split. { exists m. repeat split; auto. lia. } unfold data_of. rewrite E. auto. Qed.
  Lemma con_def i k : nth_error (cf_cons c) i = Some k -> cs_user k = false -> model_def c (S i) = Some (cs_def k).
  Proof. intros E U. cbn. now rewrite E, U. Qed.
  Lemma cons_nth l : forall j i, nth_error (combine (cons_of ext udf (cbox c) (cf_dim c) j l) (map (dfun_of (iters_of default_iters (cf_iters c))) l)) i =
    option_map (fun k => (con_of ext udf (cbox c) (cf_dim c) (j + i) k, dfun_of (iters_of default_iters (cf_iters c)) k)) (nth_error l i).
  Proof. induction l as [|k l IH]; intros j [|i]; cbn; auto. now rewrite Nat.add_0_r. rewrite IH. now rewrite Nat.add_succ_r. Qed.
  Lemma main_guard k e : model_def c k = Some e -> guard_at data s k = Ok tt.
  Proof.
    intros M. destruct (rn_models _ _ _ HR k e M) as (K & _ & rs & T). apply good_table in T. destruct T as ((m & T & _) & _). pose proof HA as (D0 & _).
    destruct HS as (_ & _ & _ & _ & _ & E2 & E3 & (O1 & O2 & O3 & O4 & O5 & O6 & _) & _). destruct k as [|i]; unfold guard_at.
    - injection M as <-. rewrite O5, E2. unfold driver_surrogate. cbn [f_box f_dim f_file df_def]. destruct (Nat.eqb_spec (cf_dim c) 0); [contradiction|]. rewrite kriging_bound by exact K. cbn [negb]. now rewrite T.
    - rewrite O6, E3, cons_nth. cbn in M. destruct (nth_error (cf_cons c) i) as [k|]; [|discriminate]. destruct (cs_user k); [discriminate|]. injection M as <-. cbn [option_map]. unfold driver_surrogate, con_of. cbn [k_f f_box f_dim f_file df_def dfun_of]. destruct (Nat.eqb_spec (cf_dim c) 0); [contradiction|]. rewrite kriging_bound by exact K. cbn [negb]. now rewrite T.
  Qed.
  Lemma main_file k : file_name s k = option_map od_train (model_def c k).
  Proof.
    destruct HS as (_ & _ & _ & _ & _ & E2 & E3 & (O1 & O2 & O3 & O4 & O5 & O6 & _) & _). destruct k as [|i]; unfold file_name; [now rewrite O5|]. rewrite O6, E3, cons_nth. cbn. destruct (nth_error (cf_cons c) i) as [k|]; auto. cbn. now destruct (cs_user k).
  Qed.
  Lemma main_different : different (file_name s).
  Proof.
    intros j k a. rewrite !main_file. destruct (model_def c j) as [x|] eqn:J; [|discriminate]. destruct (model_def c k) as [y|] eqn:K; [|discriminate]. cbn. intros [= A] [= B]. apply (rn_files _ _ _ HR j k x y J K). congruence.
  Qed.
  Lemma main_set k e : model_def c k = Some e -> q k = mkSS (match od_model e with MUniversal => true | _ => false end) (iters_of default_iters (cf_iters c)).
  Proof.
    destruct HS as (_ & _ & _ & _ & _ & E2 & E3 & _). unfold q, driver_sets. destruct k as [|i]; cbn [model_def]. { intros [= <-]. rewrite E2. reflexivity. } rewrite E3, nth_error_map. destruct (nth_error (cf_cons c) i) as [k|]; [|discriminate]. destruct (cs_user k); [discriminate|]. intros [= <-]. reflexivity.
  Qed.
  Lemma main_cons i oc : nth_error (c_cons g) i = Some oc <-> exists k, nth_error (cf_cons c) i = Some k /\ oc = ocon_at ext udf data c i k.
  Proof.
    destruct (cfg_is ext udf data c s HS) as (_ & _ & _ & _ & _ & _ & _ & _ & C9 & _). unfold g. rewrite C9, ocons_nth. cbn [Nat.add]. destruct (nth_error (cf_cons c) i) as [k|]; cbn; split.
    - intros [= <-]. eauto. - intros (k' & [= <-] & ->). reflexivity. - discriminate. - intros (k & E & _). discriminate.
  Qed.
  Lemma ocon_user i k : oc_user (ocon_at ext udf data c i k) = cs_user k.
  Proof. unfold ocon_at, driver_con, dfun_of. reflexivity. Qed.
  Lemma ocon_table i k : oc_data (ocon_at ext udf data c i k) = data_of data (od_train (cs_def k)).
  Proof. unfold ocon_at, driver_con, con_of. reflexivity. Qed.
  Lemma main_modelled k e : model_def c k = Some e -> modelled g k = Some (data_of data (od_train e)).
  Proof.
    destruct (cfg_is ext udf data c s HS) as (_ & _ & _ & _ & _ & _ & _ & _ & _ & C10). destruct k as [|i]; cbn [model_def modelled]. { intros [= <-]. f_equal. exact C10. }
    destruct (nth_error (cf_cons c) i) as [k|] eqn:E; [|discriminate]. destruct (cs_user k) eqn:U; [discriminate|]. intros [= <-]. rewrite (proj2 (main_cons i _) (ex_intro _ k (conj E eq_refl))). now rewrite ocon_user, U, ocon_table.
  Qed.
  Lemma main_data : data_ok g.
  Proof.
    destruct (cfg_is ext udf data c s HS) as (C1 & C2 & C3 & C4 & C5 & C6 & C7 & C8 & C9 & C10). destruct (rn_models _ _ _ HR 0%nat _ eq_refl) as (_ & _ & rs & T). pose proof T as (m & Em & W & N & C & Er). unfold data_ok. unfold g. rewrite C10, C1. unfold data_of. rewrite Em.
    split; auto. split; auto. split; [lia|]. intros oc I. apply In_nth_error in I. destruct I as (i & I). apply main_cons in I. destruct I as (k & K & ->). rewrite ocon_user. destruct (cs_user k) eqn:U.
    - intros r Hr. assert (length (firstn d r) = d) as LR. { unfold rows in Hr. apply in_map_iff in Hr. destruct Hr as (j & <- & _). rewrite firstn_length, map_length, seq_length. unfold d. lia. }
      rewrite ocon_fun by exact LR. unfold con_fun. rewrite U. subst rs. pose proof (rn_linked _ _ _ HR _ r i k T Hr K U) as HV. destruct (udf i (firstn (cf_dim c) r)); [reflexivity|discriminate HV|discriminate HV].
    - rewrite ocon_table. destruct (rn_models _ _ _ HR (S i) _ (con_def i k K U)) as (_ & _ & rs' & m' & Em' & W' & N' & C' & _). unfold data_of. rewrite Em'. repeat split; auto. lia.
  Qed.
  Lemma main_models : models_ok g (fun k => ss_lin (q k)).
  Proof.
    destruct (cfg_is ext udf data c s HS) as (C1 & C2 & C3 & C4 & C5 & C6 & C7 & C8 & C9 & C10). pose proof HA as (_ & _ & DL & _). unfold models_ok. unfold g. rewrite C10, C1, C2, C3.
    split. { destruct (rn_models _ _ _ HR 0%nat _ eq_refl) as (_ & _ & rs & T). destruct (good_table _ _ T) as (_ & _ & GT); exact GT. } split.
    { intros oc I. apply In_nth_error in I. destruct I as (i & I). apply main_cons in I. destruct I as (k & K & ->). rewrite ocon_user, ocon_table. intros U. destruct (rn_models _ _ _ HR (S i) _ (con_def i k K U)) as (_ & _ & rs & T). destruct (good_table _ _ T) as (_ & _ & GT); exact GT. } split.
    { intros i Hi. destruct (nth_error (cf_params c) i) as [p|] eqn:Ep; [|apply nth_error_None in Ep; lia]. destruct (nth_lo c i p Ep) as (-> & ->). destruct (rn_range _ _ _ HR p (nth_error_In _ _ Ep)) as (RG & _); exact RG. }
    intros k L. destruct (model_def c k) as [e|] eqn:M.
    - rewrite (main_set k e M) in L. cbn [ss_lin] in L. destruct (rn_models _ _ _ HR k e M) as (_ & UL & _). apply UL. destruct (od_model e); try discriminate L; reflexivity.
    - (* linked functions are read with the default model *)
      exfalso. destruct HS as (_ & _ & _ & _ & _ & E2 & E3 & _). unfold q, driver_sets in L. destruct k as [|i]; [discriminate M|]. rewrite E3, nth_error_map in L. cbn in M. destruct (nth_error (cf_cons c) i) as [k|] eqn:K; cbn in L; [|discriminate L]. destruct (cs_user k) eqn:U; [|discriminate M]. rewrite (HU k (nth_error_In _ _ K) U) in L. discriminate L.
  Qed.
  Lemma main_repeated : repeated_name [] (p_cons (d_opt s)) = false.
  Proof.
    destruct HS as (_ & _ & _ & _ & _ & E2 & E3 & (O1 & O2 & O3 & O4 & O5 & O6 & _) & _). rewrite O6. rewrite repeated_ok; [reflexivity| |intros x _ []]. rewrite cons_names. apply (rn_names _ _ _ HR).
  Qed.
  (** an evaluated design in the words of the configuration *)
  Lemma evaluated_ok e before o : e_eval e = fobj_eval (mkF (cf_dim c) (od_name (cf_obj c)) (od_train (cf_obj c)) (ext (cf_obj c)) (Some (cbox c))) -> outcome_ok g e before o -> evaluated ext udf c o.
  Proof.
    intros Ee ((Bx & Gr) & Ev & Va & Fe & _). destruct (cfg_is ext udf data c s HS) as (C1 & C2 & C3 & C4 & C5 & C6 & C7 & C8 & C9 & C10). unfold g in *. rewrite C2, C3 in *. assert (length (o_x o) = cf_dim c) as LX by (now apply (len_box c HA)).
    split; [exact Bx|]. split. { intros i p Ep Dp. destruct (nth_lo c i p Ep) as (<- & <-). apply Gr. rewrite C5. apply disc_in. exists p. auto. }
    rewrite Ee in Ev. rewrite fobj_eval_ok in Ev by exact LX. split; [exact Ev|].
    unfold values_at in Va. rewrite C9 in Va. apply map_ok_iff in Va. rewrite ocons_len in Va. destruct Va as (VL & VV). split; [exact VL|]. split.
    { intros i k K. specialize (VV i (ocon_at ext udf data c i k)). rewrite ocons_nth, K in VV. specialize (VV eq_refl). rewrite (ocon_fun ext udf data c) in VV by exact LX. unfold constraint_value. fold (con_fun ext udf i k). destruct (con_fun ext udf i k (o_x o)) as [v|x|]; cbn in VV; [congruence|destruct x; discriminate VV|discriminate VV]. }
    rewrite Fe. unfold feasible_values. rewrite C9, Forall2_nth_iff, ocons_len. split.
    - intros (_ & H) i k K. specialize (H i (ocon_at ext udf data c i k)). rewrite ocons_nth, K in H. exact (H eq_refl).
    - intros H. split; [exact VL|]. intros i a A. rewrite ocons_nth in A. destruct (nth_error (cf_cons c) i) as [k|] eqn:K; [|discriminate A]. injection A as <-. exact (H i k K).
  Qed.
  Lemma evaluated_all es : (forall k, e_eval (es k) = fobj_eval (mkF (cf_dim c) (od_name (cf_obj c)) (od_train (cf_obj c)) (ext (cf_obj c)) (Some (cbox c)))) ->
    forall os k before, outcomes_ok g es k before os -> Forall (evaluated ext udf c) os.
  Proof.
    intros He. induction os as [|o os IH]; intros k before G; constructor. - destruct G as [G _]. exact (evaluated_ok _ _ _ (He k) G). - destruct G as [_ G]. exact (IH _ _ G).
  Qed.
End Study.
