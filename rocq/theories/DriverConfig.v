(** A configuration text and the study that is read from it. *)
From Coq Require Import Ascii String ZArith Bool Arith Reals Lra List Lia.
From Verif Require Import Base Num RealNum StM VecModel BoundsModel BoundsProofs DesignModel HistModel KrigModel OptModel StrModel StrSpec StrProofs StrNum StrReal KeyModel PropsStr PropsKey ApiModel ApiProofs DriverModel DriverSpec DriverText DriverKeys DriverParts DriverProofs DriverRead DriverWhole.
Import ListNotations.

Section Config.
  Context (files : str -> option str) (ext : odef -> ufun R) (udf : nat -> ufun R) (text : str) (blks : list str).
  Implicit Types s : driver R.

  Lemma is_dim o name d N inner obj cons : opt_is o name d N inner obj cons -> p_dim o = d.
  Proof. now intros (_ & H & _). Qed.
  Lemma is_hdim o name d N inner obj cons : opt_is o name d N inner obj cons -> h_dim (s_hist (p_st o)) = d.
  Proof. now intros (_ & _ & _ & _ & _ & _ & _ & _ & _ & _ & H & _). Qed.
  Lemma is_god o name d N inner obj cons : opt_is o name d N inner obj cons -> godim o = d.
  Proof. now intros (_ & _ & _ & _ & _ & _ & _ & H & _). Qed.
  Lemma is_obj o name d N inner obj cons : opt_is o name d N inner obj cons -> p_obj o = obj.
  Proof. now intros (_ & _ & _ & _ & H & _). Qed.
  (** *** everything after the general settings *)
  Definition setBoxes : SM (driver R) unit := get s <-- sget (fun s => s); on_opt (opt_setBox (d_box s)).
  Definition rest : SM (driver R) unit :=
    run readOptimizationParameters files; run setDriverBox; run readObjectiveFunction files ext; run readConstraintFunctions files ext udf; run setBoxes; run setStudyNames; setStudyDiscrete.
  Definition pbox (l : list (param R)) : bnds R := box_of (map pa_lb l) (map pa_ub l).
  Definition R3 (l : list (param R)) (os : str) (def : odef) (it : option Z) s : driver R := Ost ext os def it (length l) (pbox l) (w_d_box (pbox l) (w_d_params l s)).
  Definition R4 (l : list (param R)) (it : option Z) (cs : list cspec) s : driver R :=
    w_d_conf (d_conf s ++ map (dfun_of (iters_of default_iters it)) cs) (w_d_opt (fold_left addc (cons_of ext udf (pbox l) (length l) 0 cs) (d_opt s)) (w_d_ck (conkeys blks (d_ck s)) s)).
  Definition R5 (l : list (param R)) s : driver R := w_d_opt (fst (opt_setBox (pbox l) (d_opt s))) s.
  Definition R7 (l : list (param R)) s : driver R := w_d_disc (d_disc s ++ disc_of (fun p => is_discrete (pa_type p)) pa_inc l) (w_d_names (map pa_name l) s).
  Definition rest_ok (d : nat) (l : list (param R)) (os : str) (def : odef) (it : option Z) (cs : list cspec) : Prop :=
    (exists ps pts, section text "optimization_parameters" ps /\ blocks (lit "parameter") ps pts /\ Forall2 (fun t p => readParameter t = Ok p) pts l) /\
    length l = d /\ Forall (fun p => (pa_lb p < pa_ub p)%R) l /\ section text "objective_function" os /\ describes_objective os def it /\
    Forall2 describes_constraint blks cs /\ (forall i k, nth_error cs i = Some k -> cs_user k = true -> i < 4) /\ NoDup (map pa_name l).
  Lemma pbox_good l : length l <> 0 -> Forall (fun p => (pa_lb p < pa_ub p)%R) l -> box_good (pbox l) (length l).
  Proof.
    intros N F. unfold box_good, pbox, box_of. cbn [b_set b_dim b_lo b_up]. rewrite !map_length. repeat (split; [reflexivity|]). intros i Hi. destruct l as [|p0 l0]; [cbn in N; congruence|]. set (l := p0 :: l0) in *.
    unfold vget. rewrite (nth_indep _ _ (pa_lb p0)) by (now rewrite map_length). rewrite (nth_indep (map pa_ub l) _ (pa_ub p0)) by (now rewrite map_length). rewrite !map_nth. rewrite Forall_forall in F. apply F. now apply nth_In.
  Qed.
  Lemma boxes_iff s s' l name d N inner f cons : d_box s = pbox l -> length l = d -> d <> 0 -> Forall (fun p => (pa_lb p < pa_ub p)%R) l ->
    opt_is (d_opt s) name d N inner (Some f) cons -> f_dim f = d -> f_box f = Some (pbox l) -> (forall c, In c cons -> f_dim (k_f c) = d /\ f_box (k_f c) = Some (pbox l)) ->
    (setBoxes s = (s', Ok tt) <-> s' = R5 l s).
  Proof.
    intros B L D F O F1 F2 F3. unfold setBoxes. rewrite get_b, B. unfold on_opt, szoom, R5.
    destruct (setBox_is (d_opt s) (pbox l) name d N inner f cons D) as (o' & E & _); auto. { subst d. now apply pbox_good. }
    rewrite E. cbn [fst]. split; [now intros [= <-]|now intros ->].
  Qed.
  Lemma tail_iff s s' l : d_params s = l -> length l <> 0 -> h_dim (s_hist (p_st (d_opt s))) = length l -> p_dim (d_opt s) = length l -> key_int (d_gk s) "dimension" = Ok (Z.of_nat (length l)) -> Forall (fun p => pa_name p <> []) l ->
    (sbind setStudyNames (fun _ => setStudyDiscrete) s = (s', Ok tt) <-> NoDup (map pa_name l) /\ s' = R7 l s).
  Proof.
    intros P D H1 H2 K F. rewrite sb_iff. subst l. split.
    - intros (s6 & [] & E1 & E2). apply (names_iff _ _ (length (d_params s))) in E1; try assumption; try reflexivity. destruct E1 as (ND & ->). split; [exact ND|].
      rewrite discrete_ok in E2; [|exact K|exact H2]. injection E2 as <-. reflexivity.
    - intros (ND & ->). exists (w_d_names (map pa_name (d_params s)) s), tt. split; [apply (names_iff _ _ (length (d_params s))); auto|]. rewrite discrete_ok; [reflexivity|exact K|exact H2].
  Qed.
  Lemma param_names pts l : Forall2 (fun t p => readParameter t = Ok p) pts l -> Forall (fun p => pa_name p <> []) l.
  Proof. induction 1 as [|t p pts l E F IH]; constructor; auto. apply readParameter_some in E. destruct E as (q & D & M & _). rewrite M. apply D. Qed.
  Definition Rst l os def it cs s := R7 l (R5 l (R4 l it cs (R3 l os def it s))).
  (** what holds before *)
  Record before (d : nat) (name : str) (N inner : nat) s : Prop := mkBefore {
    bf_from : reads_from files text s; bf_keys : d_keysinit s = true; bf_file : d_fileset s = true; bf_gk : d_gk s <> []; bf_ok : d_ok s = new_keys objective_keys;
    bf_dim : key_int (d_gk s) "dimension" = Ok (Z.of_nat d); bf_wrap : wrap32 (Z.of_nat d) = d; bf_pos : d <> 0; bf_params : d_params s = []; bf_conf : d_conf s = []; bf_disc : d_disc s = [];
    bf_iters : d_iters s = default_iters; bf_opt : opt_is (d_opt s) name d N inner None [] }.
  Lemma obj_is name d N inner f o : opt_is o name d N inner None [] -> opt_is (w_p_obj (Some f) o) name d N inner (Some f) [].
  Proof. intros (A1 & A2 & A3 & A4 & A5 & A6 & A7 & A8 & A9 & B). unfold opt_is. cbn. repeat (split; [assumption || reflexivity|]). exact B. Qed.
  Definition objf (l : list (param R)) (def : odef) : fobj R := mkF (length l) (od_name def) (od_train def) (ext def) (Some (pbox l)).
  Lemma R4_is d name N inner s l os def it cs : before d name N inner s -> length l = d -> Forall (fun p => (pa_lb p < pa_ub p)%R) l ->
    opt_is (d_opt (R4 l it cs (R3 l os def it s))) name d N inner (Some (objf l def)) (cons_of ext udf (pbox l) (length l) 0 cs).
  Proof.
    intros B L F. unfold R4, R3, Ost. cbn [d_opt w_d_conf w_d_opt w_d_objf w_d_iters w_d_ok w_d_ck w_d_box w_d_params]. apply (addcs_is name d N inner (Some (objf l def)) _ _ []).
    - apply (bf_pos _ _ _ _ _ B). - apply obj_is. apply (bf_opt _ _ _ _ _ B).
  Qed.
  Lemma R5_is d name N inner s l os def it cs : before d name N inner s -> length l = d -> Forall (fun p => (pa_lb p < pa_ub p)%R) l ->
    let o := d_opt (R5 l (R4 l it cs (R3 l os def it s))) in
    opt_is o name d N inner (Some (objf l def)) (cons_of ext udf (pbox l) (length l) 0 cs) /\ p_lo o = map pa_lb l /\ p_up o = map pa_ub l /\ p_box o = true /\ go_box (s_gopt (p_st o)) = pbox l.
  Proof.
    intros B L F. cbn zeta. unfold R5. cbn [d_opt w_d_opt]. pose proof (R4_is d name N inner s l os def it cs B L F) as O.
    destruct (setBox_is _ (pbox l) name d N inner _ _ (bf_pos _ _ _ _ _ B) ltac:(subst d; apply pbox_good; [exact (bf_pos _ _ _ _ _ B)|exact F]) O) as (o' & E & Q1 & Q2 & Q3 & Q4 & Q5); auto.
    { intros c I. rewrite <- L. now apply cons_of_in in I. }
    rewrite E. cbn [fst]. auto.
  Qed.
  Lemma rest_inv d name N inner s s' : before d name N inner s -> constraintBlocks text = blks -> rest s = (s', Ok tt) -> exists l os def it cs, rest_ok d l os def it cs /\ s' = Rst l os def it cs s.
  Proof.
    intros B LO H. pose proof B as [RF KI FS GK OK KD WD D PA CO DI IT OP]. unfold rest in H.
    rewrite sb_iff in H. destruct H as (s1 & [] & H1 & H). apply (params_iff files text) in H1; [|exact RF]. destruct H1 as (ps & pts & l & SP & BP & FP & ->). rewrite PA in H. cbn [app] in H.
    rewrite sb_iff in H. destruct H as (s2 & [] & H1 & H). apply box_iff in H1. destruct H1 as (_ & K2 & b & EB & ->). cbn [d_gk d_params w_d_params] in K2, EB. rewrite KD in K2. injection K2 as K2. apply Nat2Z.inj in K2. subst d.
    apply setStd_iff in EB; [|exact D]. destruct EB as (FB & ->). change (box_of (map pa_lb l) (map pa_ub l)) with (pbox l) in H.
    rewrite sb_iff in H. destruct H as (s3 & [] & H1 & H). apply (objective_iff files ext text (length l) (pbox l) _ _ (Z.of_nat (length l))) in H1; try assumption; try reflexivity; [|cbn; now rewrite map_length|exact (is_obj _ _ _ _ _ _ _ OP)].
    destruct H1 as (os & def & it & SO & DO & ->). pose proof DO as DO'. apply describes_objective_iff in DO'. destruct DO' as (FK & II & _).
    rewrite sb_iff in H. destruct H as (s4 & [] & H1 & H). unfold readConstraintFunctions in H1. rewrite get_b in H1. change (d_fname _) with (d_fname s) in H1. rewrite (proj2 RF) in H1. rewrite LO in H1.
    apply (constraints_iff ext udf (length l) (pbox l) os it (Z.of_nat (length l))) in H1; try assumption; try reflexivity; [|cbn; now rewrite map_length|exact (is_god _ _ _ _ _ _ _ OP)].
    destruct H1 as (cs & FC & US & ->). change (w_d_conf _ _) with (R4 l it cs (R3 l os def it s)) in H. 
    rewrite sb_iff in H. destruct H as (s5 & [] & H1 & H).
    pose proof (R4_is _ name N inner s l os def it cs B eq_refl FB) as O4.
    eapply (boxes_iff _ _ l) in H1; [|reflexivity|reflexivity|exact D|exact FB|exact O4|reflexivity|reflexivity|]. 2:{ intros c I. now apply cons_of_in in I. }
    subst s5. destruct (R5_is _ name N inner s l os def it cs B eq_refl FB) as (O5 & _). set (s5 := R5 l _) in *.
    assert (P5 : d_params s5 = l) by reflexivity. assert (G5 : d_gk s5 = d_gk s) by reflexivity. assert (E5 : Rst l os def it cs s = R7 l s5) by reflexivity.
    clearbody s5. apply (tail_iff _ _ l) in H; [|exact P5|exact D|exact (is_hdim _ _ _ _ _ _ _ O5)|exact (is_dim _ _ _ _ _ _ _ O5)|now rewrite G5|exact (param_names pts l FP)].
    destruct H as (ND & ->). exists l, os, def, it, cs. split; [|now symmetry]. split; [exists ps, pts; auto|]. auto 10.
  Qed.
  Lemma rest_reads d name N inner s l os def it cs : before d name N inner s -> constraintBlocks text = blks -> rest_ok d l os def it cs -> rest s = (Rst l os def it cs s, Ok tt).
  Proof.
    intros B LO ((ps & pts & SP & BP & FP) & L & FB & SO & DO & FC & US & ND). pose proof B as [RF KI FS GK OK KD WD D PA CO DI IT OP]. subst d. unfold rest.
    rewrite sb_iff. exists (w_d_params l s), tt. split. { apply (params_iff files text); [exact RF|]. exists ps, pts, l. rewrite PA. auto. }
    rewrite sb_iff. exists (w_d_box (pbox l) (w_d_params l s)), tt. split. { apply box_iff. split; [exact GK|]. split; [exact KD|]. exists (pbox l). split; [apply setStd_iff; [exact D|split; [exact FB|reflexivity]]|reflexivity]. }
    rewrite sb_iff. exists (R3 l os def it s), tt. split.
    { apply (objective_iff files ext text (length l) (pbox l) _ _ (Z.of_nat (length l))); try assumption; try reflexivity; [cbn; now rewrite map_length|exact (is_obj _ _ _ _ _ _ _ OP)|]. exists os, def, it. auto. }
    apply describes_objective_iff in DO. destruct DO as (FK & II & _).
    rewrite sb_iff. exists (R4 l it cs (R3 l os def it s)), tt. split.
    { unfold readConstraintFunctions. rewrite get_b. change (d_fname _) with (d_fname s). rewrite (proj2 RF). rewrite LO.
      apply (constraints_iff ext udf (length l) (pbox l) os it (Z.of_nat (length l))); try assumption; try reflexivity; [cbn; now rewrite map_length|exact (is_god _ _ _ _ _ _ _ OP)|]. exists cs. auto. }
    pose proof (R4_is _ name N inner s l os def it cs B eq_refl FB) as O4. rewrite sb_iff. exists (R5 l (R4 l it cs (R3 l os def it s))), tt. split.
    { eapply (boxes_iff _ _ l); [reflexivity|reflexivity|exact D|exact FB|exact O4|reflexivity|reflexivity| |reflexivity]. intros c I. now apply cons_of_in in I. }
    destruct (R5_is _ name N inner s l os def it cs B eq_refl FB) as (O5 & _). set (s5 := R5 l _) in *. assert (P5 : d_params s5 = l) by reflexivity. assert (G5 : d_gk s5 = d_gk s) by reflexivity. assert (E5 : Rst l os def it cs s = R7 l s5) by reflexivity. rewrite E5. clear E5.
    clearbody s5. apply (tail_iff _ _ l); [exact P5|exact D|exact (is_hdim _ _ _ _ _ _ _ O5)|exact (is_dim _ _ _ _ _ _ _ O5)|now rewrite G5|exact (param_names pts l FP)|auto].
  Qed.

  (** *** the study *)
  Definition cbox (c : config) : bnds R := box_of (map ps_lb (cf_params c)) (map ps_ub (cf_params c)).
  Definition study (c : config) s : Prop :=
    let o := d_opt s in
    d_isopt s = true /\ d_isread s = true /\
    d_threads s = iters_of 1 (cf_threads c) /\ d_names s = map ps_name (cf_params c) /\ d_disc s = disc_of ps_discrete ps_inc (cf_params c) /\
    d_objf s = Some (mkDF (cf_obj c) (iters_of default_iters (cf_iters c)) false) /\ d_conf s = map (dfun_of (iters_of default_iters (cf_iters c))) (cf_cons c) /\
    opt_is o (if is_empty (cf_name c) then [] else lit "OptimizationStudy") (cf_dim c) (cf_N c) (iters_of (cf_dim c * (100 * 100)) (cf_inner c))
      (Some (mkF (cf_dim c) (od_name (cf_obj c)) (od_train (cf_obj c)) (ext (cf_obj c)) (Some (cbox c)))) (cons_of ext udf (cbox c) (cf_dim c) 0 (cf_cons c)) /\
    p_lo o = map ps_lb (cf_params c) /\ p_up o = map ps_ub (cf_params c) /\ p_box o = true /\ go_box (s_gopt (p_st o)) = cbox c.
  Definition started (f : str) : driver R := w_d_fileset true (w_d_fname f driver_new).
  Definition keyed (f : str) : driver R := w_d_keysinit true (w_d_ck (new_keys constraint_keys) (w_d_ok (new_keys objective_keys) (w_d_gk (new_keys general_keys) (started f)))).
  Lemma read_form f s' : readConfigurationFile files ext udf (started f) = (s', Ok tt) <->
    exists s1, readGeneralSettings files (keyed f) = (s1, Ok tt) /\ exists s2, (if d_isopt s1 then rest s1 else (s1, Ok tt)) = (s2, Ok tt) /\ s' = w_d_isread true s2.
  Proof.
    unfold readConfigurationFile. fold setBoxes. fold rest. rewrite get_b, tif_b. cbn [d_fileset started w_d_fileset]. change (negb true = false) with (false = false). unfold initializeKeywords. rewrite mod_b. fold (started f). fold (keyed f). rewrite sb_iff. split.
    - intros (_ & s1 & [] & H1 & H). exists s1. split; [exact H1|]. rewrite get_b, sb_iff in H. destruct H as (s2 & [] & H2 & H). apply mod_iff in H. exists s2. split; [|exact H]. destruct (d_isopt s1); exact H2.
    - intros (s1 & H1 & s2 & H2 & ->). split; [reflexivity|]. exists s1, tt. split; [exact H1|]. rewrite get_b, sb_iff. exists s2, tt. split; [|now apply mod_iff]. destruct (d_isopt s1); exact H2.
  Qed.
  Lemma gopt_is o d name N oi : opt_is o [] d 0 (d * (100 * 100)) None [] -> opt_is (Gopt name N oi o) (if is_empty name then [] else lit "OptimizationStudy") d N (iters_of (d * (100 * 100)) oi) None [].
  Proof.
    intros (A1 & A2 & A3 & A4 & A5 & A6 & A7 & A8 & A9 & B). unfold Gopt, iters_of, opt_is. assert ((if is_empty name then name else lit "OptimizationStudy") = (if is_empty name then [] else lit "OptimizationStudy")) as -> by (now destruct name).
    destruct oi as [z|]; cbn [p_name p_dim p_N p_inner p_obj p_cons p_nc p_st w_p_N w_p_name w_p_inner]; (repeat (split; [assumption || reflexivity|])); exact B.
  Qed.
  Lemma general_before f gs name d N oi ot o : f <> [] -> files f = Some text -> general_ok gs name d N oi ot -> opt_setDimension d (d_opt (keyed f)) = (o, Ok tt) ->
    before d (if is_empty name then [] else lit "OptimizationStudy") N (iters_of (d * (100 * 100)) oi) (Gst gs name N oi ot o (keyed f)).
  Proof.
    intros NF FT G EO. pose proof G as (RD & (ty & VT & SW) & VN & I1 & I2 & I3 & I4 & D0 & N0 & T0).
    assert (NE : gs <> []) by (apply (gs_nonempty gs ty (lit "optimization") VT SW); discriminate).
    assert (F : Forall (fun p => kres gs p = Ok tt) general_keys).
    { apply general_keys_read; [exact NE|]. split; [|repeat split; eauto]. apply readable_of. repeat constructor; eauto. apply RD. apply in_b. reflexivity. }
    assert (KD : key_int (gkeys gs) "dimension" = Ok (Z.of_nat d)). { apply dim_key; [apply in_b; reflexivity|exact F|]. exists (Some (Z.of_nat d)). auto. }
    apply setDimension_is in EO; [|exact D0]. pose proof (int_range _ _ _ I1) as RG.
    constructor; try reflexivity; try assumption; try discriminate. { split; assumption. } { rewrite wrap32_small by lia. apply Nat2Z.id. } now apply gopt_is.
  Qed.
  Lemma params_match pts l : Forall2 (fun t p => readParameter t = Ok p) pts l -> exists qs, Forall2 describes_parameter pts qs /\ Forall2 pmatch l qs.
  Proof.
    induction 1 as [|t p pts l E F (qs & H1 & H2)]. { exists []. split; constructor. } apply readParameter_some in E. destruct E as (q & D & M). exists (q :: qs). split; constructor; assumption.
  Qed.
  Lemma params_found pts qs : Forall2 describes_parameter pts qs -> exists l, Forall2 (fun t p => readParameter t = Ok p) pts l /\ Forall2 pmatch l qs.
  Proof.
    induction 1 as [|t q pts qs D F (l & H1 & H2)]. { exists []. split; constructor. } apply readParameter_reads in D. destruct D as (p & E & M). exists (p :: l). split; constructor; assumption.
  Qed.
  Lemma match_maps l qs : Forall2 pmatch l qs -> length l = length qs /\ map pa_lb l = map ps_lb qs /\ map pa_ub l = map ps_ub qs /\ map pa_name l = map ps_name qs /\
    (Forall (fun p => (pa_lb p < pa_ub p)%R) l <-> Forall (fun q => (ps_lb q < ps_ub q)%R) qs).
  Proof.
    induction 1 as [|p q l qs (M1 & M2 & M3 & M4 & M5) F (H1 & H2 & H3 & H4 & H5)]. { repeat split; auto. } cbn [length map]. rewrite H1, H2, H3, H4, M1, M3, M4. repeat (split; [reflexivity|]). rewrite !Forall_cons_iff, H5, M3, M4. tauto.
  Qed.
  Lemma r7_opt l s : d_opt (w_d_isread true (R7 l s)) = d_opt s.
  Proof. reflexivity. Qed.
  Lemma rst_opt l os def it cs s : d_opt (w_d_isread true (Rst l os def it cs s)) = d_opt (R5 l (R4 l it cs (R3 l os def it s))).
  Proof. exact (r7_opt l (R5 l (R4 l it cs (R3 l os def it s)))). Qed.
  Lemma rst_study f gs name d N oi ot o l os def it cs qs : f <> [] -> files f = Some text -> general_ok gs name d N oi ot -> opt_setDimension d (d_opt (keyed f)) = (o, Ok tt) ->
    length l = d -> Forall (fun p => (pa_lb p < pa_ub p)%R) l -> Forall2 pmatch l qs ->
    study (mkCF name d N oi ot qs def it cs) (w_d_isread true (Rst l os def it cs (Gst gs name N oi ot o (keyed f)))).
  Proof.
    intros NF FT G EO L FB M. pose proof (general_before f gs name d N oi ot o NF FT G EO) as B. destruct (R5_is _ _ _ _ _ l os def it cs B L FB) as (O5 & L5 & U5 & X5 & G5). destruct (match_maps _ _ M) as (M1 & M2 & M3 & M4 & _).
    unfold study. cbn [cf_name cf_dim cf_N cf_inner cf_threads cf_params cf_obj cf_iters cf_cons]. unfold cbox. cbn [cf_params]. unfold objf, pbox in *. rewrite M2, M3, L in *. rewrite <- M4. rewrite <- (disc_match _ _ M).
    split; [reflexivity|]. split; [reflexivity|]. split; [reflexivity|]. split; [reflexivity|]. split; [reflexivity|]. split; [reflexivity|]. split; [reflexivity|].
    rewrite rst_opt. split; [exact O5|]. auto.
  Qed.
  Theorem config_inv f s' : f <> [] -> files f = Some text -> constraintBlocks text = blks -> readConfigurationFile files ext udf (started f) = (s', Ok tt) -> d_isopt s' = true ->
    exists c, describes text blks c /\ acceptable c /\ study c s'.
  Proof.
    intros NF FT LO H IO. apply read_form in H. destruct H as (s1 & H1 & s2 & H2 & ->). change (d_isopt (w_d_isread true s2)) with (d_isopt s2) in IO. destruct (d_isopt s1) eqn:I1.
    2:{ injection H2 as <-. congruence. }
    apply (general_inv files text) in H1; [|split; assumption|reflexivity|reflexivity|exact I1]. destruct H1 as (gs & name & d & N & oi & ot & o & SG & G & EO & ->).
    pose proof (general_before f gs name d N oi ot o NF FT G EO) as B. apply (rest_inv _ _ _ _ _ _ B LO) in H2. destruct H2 as (l & os & def & it & cs & RO & ->).
    destruct RO as ((ps & pts & SP & BP & FP) & L & FB & SO & DO & FC & US & ND). destruct (params_match _ _ FP) as (qs & FD & M). destruct (match_maps _ _ M) as (M1 & M2 & M3 & M4 & M5).
    exists (mkCF name d N oi ot qs def it cs). destruct G as (RD & TY & VN & J1 & J2 & J3 & J4 & D0 & N0 & T0). split; [|split].
    - exists gs, ps, os, pts. cbn [cf_name cf_dim cf_N cf_inner cf_threads cf_params cf_obj cf_iters cf_cons]. auto 20.
    - unfold acceptable. cbn [cf_name cf_dim cf_N cf_inner cf_threads cf_params cf_obj cf_iters cf_cons]. split; [exact D0|]. split; [exact N0|]. split; [congruence|]. split; [now apply M5|]. split; [now rewrite <- M4|]. split; [exact T0|exact US].
    - apply rst_study; auto. unfold general_ok. auto 12.
  Qed.
  Theorem config_reads f c : f <> [] -> files f = Some text -> constraintBlocks text = blks -> describes text blks c -> acceptable c ->
    exists s', readConfigurationFile files ext udf (started f) = (s', Ok tt) /\ study c s'.
  Proof.
    intros NF FT LO (gs & ps & os & pts & SG & SP & SO & RD & TY & VN & J1 & J2 & J3 & J4 & BP & FD & DO & FC) (D0 & N0 & DL & FL & ND & T0 & US). destruct c as [name d N oi ot qs def it cs]. cbn [cf_name cf_dim cf_N cf_inner cf_threads cf_params cf_obj cf_iters cf_cons] in *.
    assert (G : general_ok gs name d N oi ot) by (unfold general_ok; auto 12).
    pose proof (setDimension_fst d (d_opt (keyed f)) D0) as EO. set (o := fst _) in EO. destruct (params_found _ _ FD) as (l & FP & M). destruct (match_maps _ _ M) as (M1 & M2 & M3 & M4 & M5).
    exists (w_d_isread true (Rst l os def it cs (Gst gs name N oi ot o (keyed f)))). split.
    - apply read_form. exists (Gst gs name N oi ot o (keyed f)). split. { apply (general_reads files text) with (d := d); auto. split; assumption. }
      change (d_isopt (Gst _ _ _ _ _ _ _)) with true. eexists. split; [|reflexivity]. apply (rest_reads _ _ _ _ _ _ _ _ _ _ (general_before f gs name d N oi ot o NF FT G EO) LO).
      split; [exists ps, pts; auto|]. split; [congruence|]. split; [now apply M5|]. split; [exact SO|]. split; [exact DO|]. split; [exact FC|]. split; [exact US|now rewrite M4].
    - apply rst_study; auto; [congruence|now apply M5].
  Qed.
End Config.
