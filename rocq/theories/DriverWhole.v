(** Reading a configuration: the constraints, the optimiser's bounds, names, discrete parameters, and all stages together. *)
From Coq Require Import Ascii String ZArith Bool Arith Reals Lra List Lia.
From Verif Require Import Base Num RealNum StM VecModel BoundsModel BoundsProofs DesignModel HistModel KrigModel OptModel StrModel StrSpec StrProofs StrNum StrReal KeyModel PropsStr PropsKey ApiModel ApiProofs DriverModel DriverSpec DriverText DriverKeys DriverParts DriverProofs DriverRead.
Import ListNotations.

(** *** the optimiser *)
Definition addc (o : popt R) (c : fcon R) : popt R := fst (opt_addConstraint c o).
(** an optimiser that has its settings and has not run *)
Definition unrun (o : popt R) (d : nat) : Prop :=
  ds_dim (s_cur (p_st o)) = d /\ h_dim (s_hist (p_st o)) = d /\ h_cn (s_hist (p_st o)) = 0 /\ s_trLen (p_st o) = s_trLen (ost_new (T := R)) /\
  s_iter (p_st o) = 0 /\ s_evals (p_st o) = 0 /\ s_pts (p_st o) = [] /\ s_succ (p_st o) = 0 /\ s_fail (p_st o) = 0.
Definition opt_is (o : popt R) (name : str) (d N inner : nat) (obj : option (fobj R)) (cons : list (fcon R)) : Prop :=
  p_name o = name /\ p_dim o = d /\ p_N o = N /\ p_inner o = inner /\ p_obj o = obj /\ p_cons o = cons /\ p_nc o = length cons /\ godim o = d /\
  ds_nc (go_d (s_gopt (p_st o))) = length cons /\ unrun o d.
Lemma addc_ok o c : godim o <> 0 -> opt_addConstraint c o = (addc o c, Ok tt).
Proof. intros G. unfold addc. destruct (opt_addConstraint_ok c o) as (o' & r & E & [(-> & _)|(_ & X)] & _); [now rewrite E|congruence]. Qed.
Lemma addc_is o name d N inner obj cons c : d <> 0 -> opt_is o name d N inner obj cons -> opt_is (addc o c) name d N inner obj (cons ++ [c]).
Proof.
  intros D (A1 & A2 & A3 & A4 & A5 & A6 & A7 & A8 & A9 & B1 & B2 & B3 & B4 & B5 & B6 & B7 & B8 & B9). unfold addc.
  assert (p_inner (fst (opt_addConstraint c o)) = p_inner o) as PI.
  { unfold opt_addConstraint, sbind, smod, sget, in_st, on_god, in_gopt, szoom. cbn [p_nc w_p_nc w_p_cons p_st]. destruct (design_setNumberOfConstraints _ _) as [x r]. destruct r; reflexivity. }
  destruct (opt_addConstraint_ok c o) as (o' & r & E & Hr & F1 & F2 & F3 & F4 & F5 & F6 & F7 & F8 & F9 & F10 & F11 & F12 & F13 & F14 & F15 & F16 & F17 & F18 & F19). rewrite E in *. cbn [fst] in *.
  assert (ds_nc (go_d (s_gopt (p_st o'))) = S (p_nc o)) as NC. { destruct Hr as [(_ & _ & H)|(_ & H)]; [exact H|congruence]. }
  unfold opt_is, unrun. rewrite app_length, Nat.add_1_r. rewrite F9, F3, F8, PI, F6, F1, F2, F10, NC, F12, F13, F14, F15, F16, F17, F18, F19, A6, A7. repeat (split; [assumption || reflexivity|]). assumption.
Qed.
Lemma addcs_is name d N inner obj l : forall o cons, d <> 0 -> opt_is o name d N inner obj cons -> opt_is (fold_left addc l o) name d N inner obj (cons ++ l).
Proof.
  induction l as [|c l IH]; intros o cons D H; cbn [fold_left]; [now rewrite app_nil_r|]. replace (cons ++ c :: l) with ((cons ++ [c]) ++ l) by (rewrite <- app_assoc; reflexivity). apply IH; [exact D|]. now apply addc_is.
Qed.
Lemma cons_same (l l' : list (fcon R)) b : 
  map (fun c => (k_id c, k_gt c, k_value c, f_dim (k_f c), f_name (k_f c), f_file (k_f c), f_fun (k_f c))) l' = map (fun c => (k_id c, k_gt c, k_value c, f_dim (k_f c), f_name (k_f c), f_file (k_f c), f_fun (k_f c))) l ->
  (forall c, In c l -> f_box (k_f c) = b) -> (forall c, In c l' -> f_box (k_f c) = b) -> l' = l.
Proof.
  revert l'. induction l as [|c l IH]; intros [|c' l'] E H H'; try discriminate; [reflexivity|]. cbn [map] in E. injection E as E1 E2 E3 E4 E5 E6 E7 E8. f_equal.
  - pose proof (H c (or_introl eq_refl)) as X. pose proof (H' c' (or_introl eq_refl)) as X'. destruct c as [i g v [a1 a2 a3 a4 a5]], c' as [i' g' v' [b1 b2 b3 b4 b5]]. cbn in *. congruence.
  - apply IH; [exact E8| |]; intros x I; [apply H|apply H']; now right.
Qed.
Definition box_good (b : bnds R) (d : nat) : Prop := b_set b = true /\ b_dim b = d /\ length (b_lo b) = d /\ length (b_up b) = d /\ forall i, i < d -> (vget (b_lo b) i < vget (b_up b) i)%R.
Lemma setBox_is o b name d N inner f cons : d <> 0 -> box_good b d -> opt_is o name d N inner (Some f) cons -> f_dim f = d -> f_box f = Some b -> (forall c, In c cons -> f_dim (k_f c) = d /\ f_box (k_f c) = Some b) ->
  exists o', opt_setBox b o = (o', Ok tt) /\ opt_is o' name d N inner (Some f) cons /\ p_lo o' = b_lo b /\ p_up o' = b_up b /\ p_box o' = true /\ go_box (s_gopt (p_st o')) = b.
Proof.
  intros D (BS & BD & BL & BU & BG) (A1 & A2 & A3 & A4 & A5 & A6 & A7 & A8 & A9 & B1 & B2 & B3 & B4 & B5 & B6 & B7 & B8 & B9) FD FB FC.
  destruct (opt_setBox b o) as [o' r] eqn:E.
  assert (r = Ok tt) as ->.
  { unfold opt_setBox in E. unfold sbind at 1 in E. cbn [smod] in E. rewrite BL, BU, Nat.eqb_refl in E. cbn [negb] in E. unfold sbind at 1, sthrow_if at 1 in E. cbn [sret] in E.
    assert (existsb (fun i => vget (b_up b) i <! vget (b_lo b) i) (seq 0 d) = false) as EX.
    { destruct (existsb _ _) eqn:EX; [|reflexivity]. apply existsb_exists in EX. destruct EX as (i & I & Q). apply in_seq in I. apply Rltb_true in Q. assert (Hi : i < d) by lia. specialize (BG i Hi). lra. }
    rewrite EX in E. unfold sbind at 1, sthrow_if at 1 in E. cbn [sret] in E. unfold sbind at 1 in E. cbn [sget p_obj w_p_up w_p_lo] in E. rewrite A5 in E. unfold sbind at 1 in E. cbn [slift] in E.
    unfold fobj_setBounds in E. rewrite FD, BD, Nat.eqb_refl, andb_false_r, BS in E. cbn [negb] in E. unfold sbind at 1 in E. cbn [smod] in E. unfold sbind at 1 in E. cbn [sget] in E.
    match type of E with sbind (if _ then _ else _) _ ?x = _ => set (o2 := x) in * end.
    assert (exists cs, (if Nat.ltb 0 (p_nc o2) then (fun o => let (cs, r) := cons_setBounds b (p_cons o) in (w_p_cons cs o, r)) else sret tt) o2 = (w_p_cons cs o2, Ok tt)) as (cs & Q).
    { destruct (Nat.ltb 0 (p_nc o2)). 2:{ exists (p_cons o2). unfold o2. now destruct o. } destruct (cons_setBounds_accepts b (p_cons o2) BS) as (cs & Ec). { intros c I. right. rewrite BD. apply FC. unfold o2 in I. cbn in I. now rewrite A6 in I. }
      exists cs. now rewrite Ec. }
    rewrite (bind_ok _ _ _ _ _ Q) in E. unfold sbind, in_st, in_gopt, szoom, gopt_setBox in E. unfold sbind, sget, smod, sthrow_if in E. rewrite BS in E. cbn [negb sret] in E.
    unfold o2 in E. cbn [p_st w_p_cons w_p_obj w_p_up w_p_lo] in E. unfold godim in A8. rewrite A8, BD, Nat.eqb_refl in E. cbn in E. now injection E as _ <-. }
  exists o'. split; [reflexivity|].
  destruct (opt_setBox_frame _ _ _ _ E) as (F1 & F2 & F3 & F4 & F5 & F6 & F7 & F8 & F9 & F10 & F11 & F12 & F13 & F14 & F15 & F16 & F17 & F18 & F19 & G & _).
  destruct (G eq_refl) as (G1 & G2 & G3 & G4 & G5 & G6 & G7).
  assert (PO : p_obj o' = Some f).
  { unfold obj_defs in F7. rewrite A5 in F7. destruct (p_obj o') as [f'|] eqn:P; [|discriminate]. cbn in F7. injection F7 as X1 X2 X3 X4. specialize (G6 f' eq_refl). destruct f, f'. cbn in *. congruence. }
  assert (PC : p_cons o' = cons).
  { rewrite <- A6. apply (cons_same _ _ (Some b)); [exact F6| |].
    - intros c I. rewrite A6 in I. now apply FC.
    - destruct cons as [|c0 cons]. { unfold same_defs in F6. rewrite A6 in F6. destruct (p_cons o'); [intros c []|discriminate]. } apply G7. rewrite A7. discriminate. }
  split; [|auto]. unfold opt_is, unrun. rewrite F4, F1, F3, F5, PO, PC, F2, F8, F13, F11, F12, F14, F15, F16, F17, F18, F19. repeat (split; [assumption || reflexivity|]). assumption.
Qed.
Lemma setDimension_is d o : d <> 0 -> opt_setDimension d popt_new = (o, Ok tt) -> opt_is o [] d 0 (d * (100 * 100)) None [].
Proof.
  intros D E. destruct (opt_setDimension_ok d (popt_new (T := R)) D) as (o' & E' & F1 & F2 & F3 & F4 & F5 & F6 & F7 & F8 & F9 & F10 & F11 & F12 & F13 & F14 & F15 & F16 & F17 & F18).
  assert (o' = o) by congruence. subst o'.
  assert (p_inner o = d * (100 * 100)) as PI.
  { replace o with (fst (opt_setDimension d (popt_new (T := R)))) by (now rewrite E). unfold opt_setDimension. destruct (Nat.eqb_spec d 0) as [|_]; [congruence|]. unfold sbind, smod, sthrow_if, sret, in_st, on_god, in_gopt, in_hist, szoom, design_setDimension, hist_setDimension.
    destruct (Nat.eqb_spec d 0) as [|_]; [congruence|]. reflexivity. }
  unfold opt_is, unrun. rewrite F8, F1, F7, PI, F5, F3, F4, F2, F9, F10, F11, F12, F13, F14, F15, F16, F17, F18. repeat (split; [reflexivity|]). reflexivity.
Qed.

Section Whole.
  Context (files : str -> option str) (ext : odef -> ufun R) (udf : nat -> ufun R) (text : str).
  Implicit Types s : driver R.

  (** *** the loop over the constraints *)
  Definition conkeys (l : list str) (k : list (keyword R)) : list (keyword R) := fold_left (fun _ t => map (kread t) constraint_keys) l k.
  Lemma constraints_iff d b os it z l : forall id s s', d <> 0 -> key_int (d_gk s) "dimension" = Ok z -> wrap32 z = d -> d_box s = b -> b_set b = true -> b_dim b = d ->
    d_ok s = okeys os -> Forall (fun p => kres os p = Ok tt) objective_keys -> int_value os "number_of_training_iterations" it -> godim (d_opt s) = d ->
    (readConstraintsFrom ext udf id l s = (s', Ok tt) <-> exists cs, Forall2 describes_constraint l cs /\ (forall i k, nth_error cs i = Some k -> cs_user k = true -> id + i < 4) /\
       s' = w_d_conf (d_conf s ++ map (dfun_of (iters_of default_iters it)) cs) (w_d_opt (fold_left addc (cons_of ext udf b d id cs) (d_opt s)) (w_d_ck (conkeys l (d_ck s)) s))).
  Proof.
    induction l as [|t l IH]; intros id s s' D KD WD BX BS BD OK FO II GD; cbn [readConstraintsFrom].
    - split.
      + intros H. injection H as <-. exists []. split; [constructor|]. split; [intros [|i] k X; discriminate|]. cbn. rewrite app_nil_r. now destruct s.
      + intros (cs & F & _ & ->). inversion F. cbn. rewrite app_nil_r. now destruct s.
    - rewrite sb_iff. split.
      + intros (s1 & [] & H1 & H). apply (constraint_iff ext udf d b id t s s1 z os it) in H1; try assumption. destruct H1 as (c & o & DC & US & EA & ->).
        rewrite addc_ok in EA by congruence. assert (o = addc (d_opt s) (con_of ext udf b d id c)) by congruence. subst o.
        apply IH in H; try assumption. 2:{ destruct (opt_addConstraint_ok (con_of ext udf b d id c) (d_opt s)) as (o' & r & E & _ & _ & _ & _ & _ & _ & _ & _ & _ & _ & G & _). unfold addc. cbn [d_opt w_d_conf w_d_opt]. rewrite E. cbn [fst]. congruence. }
        destruct H as (cs & F & U & ->). exists (c :: cs). split; [constructor; assumption|]. split.
        { intros [|i] k X K; cbn in X. { injection X as <-. specialize (US K). lia. } specialize (U i k X K). lia. }
        cbn [map cons_of fold_left conkeys d_conf d_opt d_ck w_d_conf w_d_opt w_d_ck]. rewrite <- app_assoc. reflexivity.
      + intros (cs & F & U & ->). inversion F as [|? c ? cs' DC F']; subst. exists (w_d_conf (d_conf s ++ [dfun_of (iters_of default_iters it) c]) (w_d_opt (addc (d_opt s) (con_of ext udf (d_box s) (b_dim (d_box s)) id c)) (w_d_ck (map (kread t) constraint_keys) s))), tt. split.
        { apply (constraint_iff ext udf (b_dim (d_box s)) (d_box s) id t s _ z os it); auto. exists c, (addc (d_opt s) (con_of ext udf (d_box s) (b_dim (d_box s)) id c)). split; [exact DC|]. split.
          { intros K. specialize (U 0 c eq_refl K). lia. } split; [|rewrite BD; reflexivity]. apply addc_ok. congruence. }
        apply (IH (S id)); auto.
        { destruct (opt_addConstraint_ok (con_of ext udf (d_box s) (b_dim (d_box s)) id c) (d_opt s)) as (o' & r & E & _ & _ & _ & _ & _ & _ & _ & _ & _ & _ & G & _). unfold addc. cbn [d_opt w_d_conf w_d_opt]. rewrite E. cbn [fst]. congruence. }
        exists cs'. split; [exact F'|]. split. { intros i k X K. specialize (U (S i) k X K). lia. } cbn [map cons_of fold_left conkeys d_conf d_opt d_ck w_d_conf w_d_opt w_d_ck]. rewrite <- app_assoc, !BD. reflexivity.
  Qed.
  Lemma cons_of_in b d cs : forall id c, In c (cons_of ext udf b d id cs) -> f_dim (k_f c) = d /\ f_box (k_f c) = Some b.
  Proof. induction cs as [|x cs IH]; intros id c; cbn; [tauto|]. intros [<-|I]; [auto|]. now apply (IH (S id)). Qed.

  (** *** names *)
  Lemma repeated_iff l : has_repeated l = false <-> NoDup l.
  Proof.
    induction l as [|x l IH]; cbn [has_repeated]. { split; [constructor|reflexivity]. } rewrite orb_false_iff, IH. split.
    - intros (E & N). constructor; [|exact N]. intros I. assert (existsb (str_eqb x) l = true) by (apply existsb_exists; exists x; split; [exact I|now apply str_eqb_eq]). congruence.
    - intros N. inversion N as [|? ? N1 N2]; subst. split; [|exact N2]. destruct (existsb (str_eqb x) l) eqn:E; [|reflexivity]. apply existsb_exists in E. destruct E as (y & I & E). apply str_eqb_eq in E. now subst.
  Qed.
  Lemma filter_all {A} (f : A -> bool) l : Forall (fun x => f x = true) l -> filter f l = l.
  Proof. induction 1 as [|x l H _ IH]; cbn; [reflexivity|]. now rewrite H, IH. Qed.
  Lemma names_iff s s' d : d <> 0 -> length (d_params s) = d -> h_dim (s_hist (p_st (d_opt s))) = d -> Forall (fun p => pa_name p <> []) (d_params s) ->
    (setStudyNames s = (s', Ok tt) <-> NoDup (map pa_name (d_params s)) /\ s' = w_d_names (map pa_name (d_params s)) s).
  Proof.
    clear files ext udf text. intros D L H F. unfold setStudyNames. rewrite get_b. cbn zeta. rewrite filter_all.
    2:{ apply Forall_map. revert F. apply Forall_impl. intros p N. destruct (pa_name p); [congruence|reflexivity]. }
    set (ns := map pa_name (d_params s)) in *. assert (length ns = d) as LN by (unfold ns; now rewrite map_length). destruct ns as [|x0 ns'] eqn:EN; [cbn in LN; congruence|]. cbn [is_empty negb swhen]. rewrite <- EN in *. rewrite tif_b, H. rewrite tif_b. replace (Nat.eqb _ d) with true by (symmetry; apply Nat.eqb_eq; exact LN). rewrite tif_b, mod_iff, repeated_iff. destruct (Nat.eqb_spec d 0); [congruence|]. cbn [negb]. tauto.
  Qed.
  (** *** discrete parameters *)
  Definition disc_of {P} (disc : P -> bool) (inc : P -> R) (l : list P) : list (nat * R) :=
    flat_map (fun ip => if disc (snd ip) then [(fst ip, inc (snd ip))] else []) (combine (seq 0 (length l)) l).
  Lemma discrete_loop l s : (forall ip, In ip l -> fst ip < p_dim (d_opt s)) ->
    sfor l (fun ip => swhen (is_discrete (pa_type (snd ip))) (get s <-- sget (fun s => s); run sassert (Nat.ltb (fst ip) (p_dim (d_opt s))); smod (fun s => w_d_disc (d_disc s ++ [(fst ip, pa_inc (snd ip))]) s))) s =
      (w_d_disc (d_disc s ++ flat_map (fun ip => if is_discrete (pa_type (snd ip)) then [(fst ip, pa_inc (snd ip))] else []) l) s, Ok tt).
  Proof.
    revert s. induction l as [|ip l IH]; intros s H; cbn [sfor flat_map]. { rewrite app_nil_r. now destruct s. }
    assert (Hi : Nat.ltb (fst ip) (p_dim (d_opt s)) = true) by (apply Nat.ltb_lt, H; now left).
    destruct (is_discrete (pa_type (snd ip))); cbn [swhen].
    - erewrite bind_ok. 2:{ unfold sbind, sget, sassert, smod. rewrite Hi. reflexivity. } rewrite IH. { cbn. rewrite <- app_assoc. reflexivity. } intros jp J. cbn. apply H. now right.
    - erewrite bind_ok by reflexivity. rewrite IH; [reflexivity|]. intros jp J. apply H. now right.
  Qed.
  Lemma discrete_ok s : key_int (d_gk s) "dimension" = Ok (Z.of_nat (length (d_params s))) -> p_dim (d_opt s) = length (d_params s) ->
    setStudyDiscrete s = (w_d_disc (d_disc s ++ disc_of (fun p => is_discrete (pa_type p)) pa_inc (d_params s)) s, Ok tt).
  Proof.
    intros K D. unfold setStudyDiscrete. rewrite get_b, lift_b. eexists. split; [exact K|]. rewrite tif_b, Z.eqb_refl. split; [reflexivity|]. apply discrete_loop.
    intros [i p] I. apply in_combine_l in I. apply in_seq in I. cbn [fst]. lia.
  Qed.
  Lemma disc_match l qs : Forall2 pmatch l qs -> disc_of (fun p => is_discrete (pa_type p)) pa_inc l = disc_of ps_discrete ps_inc qs.
  Proof.
    unfold disc_of. generalize 0 as k. intros k F. revert k. induction F as [|p q l qs M F IH]; intros k; cbn [length seq combine flat_map]; [reflexivity|]. cbn [fst snd]. destruct M as (_ & -> & _ & _ & ->). now rewrite IH.
  Qed.
End Whole.
