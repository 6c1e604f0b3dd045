(** Reading a configuration: parameters, bounds, objective, constraints and the rest. *)
From Coq Require Import Ascii String ZArith Bool Arith Reals Lra List Lia.
From Verif Require Import Base Num RealNum StM VecModel BoundsModel BoundsProofs DesignModel HistModel KrigModel OptModel StrModel StrSpec StrProofs StrNum StrReal KeyModel PropsStr PropsKey ApiModel ApiProofs DriverModel DriverSpec DriverText DriverKeys DriverParts DriverProofs.
Import ListNotations.

Section Read.
  Context (files : str -> option str) (ext : odef -> ufun R) (udf : nat -> ufun R) (text : str).
  Implicit Types s : driver R.

  (** *** parameters *)
  Lemma params_loop ps s s' : sfor ps (fun t => get p <-- slift (readParameter t); smod (fun s => w_d_params (d_params s ++ [p]) s)) s = (s', Ok tt) <->
    exists l, Forall2 (fun t p => readParameter t = Ok p) ps l /\ s' = w_d_params (d_params s ++ l) s.
  Proof.
    revert s. induction ps as [|t ps IH]; intros s; cbn [sfor].
    - split.
      + intros H. injection H as <-. exists []. split; [constructor|]. rewrite app_nil_r. now destruct s.
      + intros (l & F & ->). inversion F. rewrite app_nil_r. now destruct s.
    - rewrite sb_iff. split.
      + intros (s1 & [] & H1 & H). rewrite lift_b in H1. destruct H1 as (p & RP & H1). injection H1 as <-. apply IH in H. destruct H as (l & F & ->). exists (p :: l). split; [constructor; assumption|].
        cbn. now rewrite <- app_assoc.
      + intros (l & F & ->). inversion F as [|? p ? l' RP F']; subst. eexists _, tt. split. { rewrite lift_b. exists p. split; [exact RP|reflexivity]. }
        apply IH. exists l'. split; [exact F'|]. cbn. now rewrite <- app_assoc.
  Qed.
  Lemma params_iff s s' : reads_from files text s -> (readOptimizationParameters files s = (s', Ok tt) <->
    exists ps pts l, section text "optimization_parameters" ps /\ blocks (lit "parameter") ps pts /\ Forall2 (fun t p => readParameter t = Ok p) pts l /\ s' = w_d_params (d_params s ++ l) s).
  Proof.
    intros RF. unfold readOptimizationParameters. rewrite get_b, lift_b. split.
    - intros (ps & SP & H). apply (segment_iff _ _ _ _ _ RF) in SP. destruct ps as [|x ps]; cbn [is_empty] in H.
      + injection H as <-. exists [], [], []. split; [exact SP|]. split; [|split; [constructor|rewrite app_nil_r; now destruct s]].
        apply blocks_none. intros a b E. destruct a; discriminate.
      + rewrite lift_b in H. destruct H as (pts & B & H). apply C58_contents in B. apply params_loop in H. destruct H as (l & F & ->). exists (x :: ps), pts, l. auto.
    - intros (ps & pts & l & SP & B & F & ->). exists ps. split; [now apply (segment_iff _ _ _ _ _ RF)|]. destruct ps as [|x ps]; cbn [is_empty].
      + assert (pts = []) as ->. { inversion B as [? X|? ? ? FI|? ? ? ? ? ? FI]; subst; [reflexivity|reflexivity|]. exfalso. destruct FI as (E & _). destruct a; discriminate. }
        inversion F. rewrite app_nil_r. now destruct s.
      + rewrite lift_b. exists pts. split; [now apply C58_contents|]. apply params_loop. eauto.
  Qed.

  (** *** bounds *)
  Lemma box_iff s s' : setDriverBox s = (s', Ok tt) <-> d_gk s <> [] /\ key_int (d_gk s) "dimension" = Ok (Z.of_nat (length (d_params s))) /\
    exists b, bnds_setStd (d_box s) (map pa_lb (d_params s)) (map pa_ub (d_params s)) = (b, Ok tt) /\ s' = w_d_box b s.
  Proof.
    unfold setDriverBox. rewrite get_b, tif_b. split.
    - intros (G & H). split; [intros X; now rewrite X in G|]. rewrite lift_b in H. destruct H as (z & K & H). rewrite tif_b in H. destruct H as (B & H). apply negb_false_iff in B. apply Z.eqb_eq in B. subst z.
      split; [exact K|]. destruct (bnds_setStd _ _ _) as [b r]. rewrite mod_b, lift_iff in H. destruct H as (-> & ->). eauto.
    - intros (G & K & b & E & ->). split; [destruct (d_gk s); [congruence|reflexivity]|]. rewrite lift_b. exists (Z.of_nat (length (d_params s))). split; [exact K|]. rewrite tif_b. split; [now rewrite Z.eqb_refl|].
      rewrite E. rewrite mod_b, lift_iff. auto.
  Qed.
  Lemma setStd_iff (b b' : bnds R) l (lo up : param R -> R) : length l <> 0 -> (bnds_setStd b (map lo l) (map up l) = (b', Ok tt) <->
    Forall (fun p => (lo p < up p)%R) l /\ b' = box_of (map lo l) (map up l)).
  Proof.
    intros NL. unfold bnds_setStd. rewrite !map_length, Nat.ltb_irrefl. replace (firstn (length l) (map up l)) with (map up l) by (symmetry; apply firstn_all2; now rewrite map_length).
    unfold bnds_finish, bnds_check. cbn [b_dim b_lo b_up b_set]. destruct (Nat.eqb_spec (length l) 0) as [|_]; [congruence|].
    assert (C : check_from (map lo l) (map up l) (seq 0 (length l)) = Ok true <-> Forall (fun p => (lo p < up p)%R) l).
    { rewrite check_from_ok. rewrite Forall_forall. split.
      - intros H p I. apply (In_nth _ _ p) in I. destruct I as (i & Hi & E). destruct (H i) as (_ & _ & Q). { apply in_seq. lia. } unfold vget in Q.
        rewrite (nth_indep (map up l) _ (up p)) in Q by (now rewrite map_length). rewrite (nth_indep (map lo l) _ (lo p)) in Q by (now rewrite map_length). rewrite !map_nth, E in Q. apply Rleb_false in Q. lra.
      - intros H i I. apply in_seq in I. rewrite !map_length. split; [lia|]. split; [lia|]. destruct l as [|p0 l0]; [cbn in NL; congruence|]. set (l := p0 :: l0) in *. unfold vget.
        rewrite (nth_indep (map up l) _ (up p0)) by (rewrite map_length; lia). rewrite (nth_indep (map lo l) _ (lo p0)) by (rewrite map_length; lia). rewrite !map_nth. apply Rleb_false.
        apply Rlt_gt. apply H. apply nth_In. lia. }
    unfold box_of. rewrite map_length. destruct (check_from _ _ _) as [[|]|e|] eqn:E; split; try discriminate.
    - intros X. injection X as <-. split; [now apply C|reflexivity].
    - intros (_ & ->). reflexivity.
    - intros (F & _). apply C in F. discriminate.
    - intros (F & _). apply C in F. discriminate.
    - intros (F & _). apply C in F. discriminate.
  Qed.

  (** *** objective function *)
  Definition okeys (os : str) : list (keyword R) := map (kread os) objective_keys.
  Definition iters_of (d : nat) (it : option Z) : nat := match it with Some z => wrap32 z | None => d end.
  Definition Ost (os : str) (def : odef) (it : option Z) (d : nat) (b : bnds R) s : driver R :=
    w_d_objf (Some (mkDF def (iters_of (d_iters s) it) false))
      (w_d_opt (w_p_obj (Some (mkF d (od_name def) (od_train def) (ext def) (Some b))) (d_opt s)) (w_d_iters (iters_of (d_iters s) it) (w_d_ok (okeys os) s))).
  Lemma setBounds_fits (b : bnds R) d n t f : b_set b = true -> b_dim b = d -> fobj_setBounds b (mkF d n t f None) = Ok (mkF d n t f (Some b)).
  Proof. intros B D. unfold fobj_setBounds. cbn [f_dim f_name f_file f_fun]. rewrite B, D, Nat.eqb_refl, andb_false_r. reflexivity. Qed.
  Lemma iterations_key os z : Forall (fun p => kres os p = Ok tt) objective_keys -> (key_int (okeys os) "number_of_training_iterations" = Ok z <-> exists o, int_value os "number_of_training_iterations" o /\ z = int_seen o).
  Proof. intros F. apply key_int_iff; [exact F|reflexivity|discriminate|nolt]. Qed.
  Lemma iters_seen os it d : int_value os "number_of_training_iterations" it -> (if (int_seen it =? -10000000)%Z then d else wrap32 (int_seen it)) = iters_of d it.
  Proof. intros I. pose proof (int_value_seen _ _ _ I) as E. unfold iters_of. destruct it as [z|]; cbn [int_seen] in *; [|reflexivity]. destruct (Z.eqb z (-10000000)); [discriminate|reflexivity]. Qed.
  Lemma objective_iff d b s s' z : reads_from files text s -> d_keysinit s = true -> d_fileset s = true -> d_ok s = new_keys objective_keys -> key_int (d_gk s) "dimension" = Ok z -> wrap32 z = d ->
    d_box s = b -> b_set b = true -> b_dim b = d -> p_obj (d_opt s) = None ->
    (readObjectiveFunction files ext s = (s', Ok tt) <-> exists os def it, section text "objective_function" os /\ describes_objective os def it /\ s' = Ost os def it d b s).
  Proof.
    intros RF KI FS OK KD WD BX BS BD PO. unfold readObjectiveFunction. rewrite get_b, tif_b, tif_b, KI, FS, lift_b. split.
    - intros (_ & _ & os & SO & H). apply (segment_iff _ _ _ _ _ RF) in SO. rewrite sb_iff in H. destruct H as (s1 & [] & RK & H). unfold read_into in RK. rewrite OK in RK.
      destruct (read_keys os (new_keys objective_keys)) as [l r] eqn:ER. injection RK as <- ->. apply read_keys_iff in ER. destruct ER as (-> & F). fold (okeys os) in H.
      rewrite get_b in H. cbn [d_gk d_ok d_box w_d_ok] in H. rewrite lift_b in H. destruct H as (z' & KD' & H). assert (z' = z) by congruence. subst z'. rewrite lift_b in H. destruct H as (zi & KI' & H).
      apply iterations_key in KI'; [|exact F]. destruct KI' as (it & II & ->). pose proof (iters_seen os it (d_iters s) II) as IS.
      rewrite sb_iff in H. destruct H as (s2 & [] & H2 & H). assert (s2 = w_d_iters (iters_of (d_iters s) it) (w_d_ok (okeys os) s)) as ->.
      { destruct (Z.eqb (int_seen it) (-10000000)); cbn [negb swhen] in H2; [injection H2 as <-; rewrite <- IS; now destruct s|]. injection H2 as <-. now rewrite <- IS. }
      rewrite lift_b in H. destruct H as (def & OD & H). rewrite tif_b, BX in H. destruct H as (_ & H). rewrite WD, setBounds_fits in H by assumption. rewrite lift_b in H. destruct H as (f & Ef & H). injection Ef as <-.
      rewrite sb_iff in H. destruct H as (s3 & [] & H3 & H). unfold on_opt, szoom, opt_addObjective in H3. cbn [d_opt w_d_iters w_d_ok] in H3. unfold sbind, sget, sassert, smod in H3. rewrite PO in H3. cbn in H3. injection H3 as <-.
      injection H as <-. exists os, def, it. split; [exact SO|]. split; [|reflexivity]. apply describes_objective_iff. auto.
    - intros (os & def & it & SO & D & ->). apply describes_objective_iff in D. destruct D as (F & II & OD). split; [reflexivity|]. split; [reflexivity|]. exists os. split; [now apply (segment_iff _ _ _ _ _ RF)|].
      rewrite sb_iff. exists (w_d_ok (okeys os) s), tt. split. { unfold read_into. rewrite OK. rewrite (proj2 (read_keys_iff os objective_keys (okeys os)) (conj eq_refl F)). reflexivity. }
      rewrite get_b, lift_b. exists z. split; [exact KD|]. rewrite lift_b. exists (int_seen it). split; [apply iterations_key; eauto|]. pose proof (iters_seen os it (d_iters s) II) as IS.
      rewrite sb_iff. exists (w_d_iters (iters_of (d_iters s) it) (w_d_ok (okeys os) s)), tt. split.
      { destruct (Z.eqb (int_seen it) (-10000000)); cbn [negb swhen]; rewrite <- IS; [now destruct s|reflexivity]. }
      rewrite lift_b. exists def. split; [exact OD|]. cbn [d_box w_d_ok]. rewrite tif_b, BX, BS. split; [reflexivity|]. rewrite WD, setBounds_fits by assumption. rewrite lift_b. eexists. split; [reflexivity|].
      rewrite sb_iff. eexists _, tt. split. { unfold on_opt, szoom, opt_addObjective. cbn [d_opt w_d_iters w_d_ok]. unfold sbind, sget, sassert, smod. rewrite PO. reflexivity. }
      reflexivity.
  Qed.

  (** *** constraints *)
  Definition con_fun (i : nat) (c : cspec) : ufun R := if cs_user c then udf i else ext (cs_def c).
  Definition con_of (b : bnds R) (d i : nat) (c : cspec) : fcon R := mkC i (cs_gt c) (cs_value c) (mkF d (od_name (cs_def c)) (od_train (cs_def c)) (con_fun i c) (Some b)).
  Fixpoint cons_of (b : bnds R) (d i : nat) (l : list cspec) : list (fcon R) := match l with [] => [] | c :: t => con_of b d i c :: cons_of b d (S i) t end.
  Definition dfun_of (n : nat) (c : cspec) : dfun := mkDF (cs_def c) n (cs_user c).
  Lemma constraint_part_name l c : constraint_part l = Ok c -> key_required l "name" = Ok (od_name (cs_def c)).
  Proof.
    unfold constraint_part. rewrite bind_iff. intros (mf & V1 & H). rewrite bind_iff in H. destruct H as (name & V2 & H). rewrite bind_iff in H. destruct H as (g & V3 & H). rewrite bind_iff in H. destruct H as (vt & V4 & H).
    rewrite bind_iff in H. destruct H as (v & NU & H). rewrite bind_iff in H. destruct H as (u & V5 & H). rewrite bind_iff in H. destruct H as (d & D & H). injection H as <-. cbn [cs_def]. rewrite V2. f_equal.
    destruct (checkIfOn u); [injection D as <-; reflexivity|]. unfold constraintDefinition in D. repeat (rewrite bind_iff in D; destruct D as (? & _ & D)). injection D as <-. reflexivity.
  Qed.
  Lemma constraint_iff d b id t s s' z os it : key_int (d_gk s) "dimension" = Ok z -> wrap32 z = d -> d_box s = b -> b_set b = true -> b_dim b = d ->
    d_ok s = okeys os -> Forall (fun p => kres os p = Ok tt) objective_keys -> int_value os "number_of_training_iterations" it ->
    (readConstraint ext udf id t s = (s', Ok tt) <-> exists c o, describes_constraint t c /\ (cs_user c = true -> id < 4) /\ opt_addConstraint (con_of b d id c) (d_opt s) = (o, Ok tt) /\
       s' = w_d_conf (d_conf s ++ [dfun_of (iters_of default_iters it) c]) (w_d_opt o (w_d_ck (map (kread t) constraint_keys) s))).
  Proof.
    intros KD WD BX BS BD OK FO II. unfold readConstraint. rewrite tif_b, mod_b. pose proof (iters_seen os it default_iters II) as IS.
    assert (KI : key_int (d_ok s) "number_of_training_iterations" = Ok (int_seen it)). { rewrite OK. apply iterations_key; eauto. }
    split.
    - intros (NE & H). assert (NT : t <> []) by (intros ->; discriminate NE). rewrite sb_iff in H. destruct H as (s1 & [] & RK & H). unfold read_into in RK. cbn [d_ck w_d_ck] in RK.
      destruct (read_keys t (new_keys constraint_keys)) as [l r] eqn:ER. injection RK as <- ->. apply read_keys_iff in ER. destruct ER as (-> & F). remember (map (kread t) constraint_keys) as ck eqn:Eck.
      rewrite get_b in H. cbn [d_gk d_ok d_ck d_box w_d_ck] in H. rewrite lift_b in H. destruct H as (z' & KD' & H). assert (z' = z) by congruence. subst z'. rewrite lift_b in H. destruct H as (zi & KI' & H). assert (zi = int_seen it) by congruence. subst zi. rewrite IS in H.
      rewrite lift_b in H. destruct H as (mf & V1 & H). rewrite lift_b in H. destruct H as (name & V2 & H). rewrite lift_b in H. destruct H as (g & V3 & H). rewrite lift_b in H. destruct H as (vt & V4 & H).
      rewrite lift_b in H. destruct H as (v & V5 & H). rewrite lift_b in H. destruct H as (u & V6 & H). rewrite sb_iff in H. destruct H as (s2 & [] & HU & H).
      assert (HU' : s2 = w_d_ck ck (w_d_ck (new_keys constraint_keys) s) /\ (checkIfOn u = true -> id < 4)).
      { destruct (checkIfOn u); cbn [swhen] in HU; [|injection HU as <-; split; [reflexivity|discriminate]]. unfold sassert in HU. rewrite sb_iff in HU. destruct HU as (s3 & [] & HU1 & HU2).
        apply tif_iff in HU2. destruct HU2 as (LE & ->). destruct (Nat.ltb id 20); [|discriminate]. injection HU1 as <-. split; [reflexivity|]. intros _. apply Nat.leb_gt in LE. exact LE. }
      destruct HU' as (-> & US). rewrite lift_b in H. destruct H as (def & DF & H).
      assert (CP : constraint_part ck = Ok (mkCS def g v (checkIfOn u))). { unfold constraint_part. rewrite V1. cbn [bind]. rewrite V2. cbn [bind]. rewrite V3. cbn [bind]. rewrite V4. cbn [bind]. rewrite V5. cbn [bind]. rewrite V6. cbn [bind]. rewrite DF. reflexivity. }
      pose proof (constraint_part_name _ _ CP) as V2'. cbn [cs_def] in V2'. assert (NM : od_name def = name) by congruence.
      rewrite tif_b, BX in H. destruct H as (_ & H). rewrite WD, setBounds_fits in H by assumption. rewrite lift_b in H. destruct H as (f & Ef & H). injection Ef as <-.
      rewrite sb_iff in H. destruct H as (s3 & [] & H3 & H). unfold on_opt, szoom in H3. cbn [d_opt w_d_ck] in H3. destruct (opt_addConstraint _ (d_opt s)) as [o r] eqn:EA. injection H3 as <- ->. apply mod_iff in H. subst s'.
      exists (mkCS def g v (checkIfOn u)), o. split. { apply constraint_part_iff; [exact NT|]. rewrite <- Eck. auto. } split; [exact US|]. split. { unfold con_of, con_fun. cbn [cs_def cs_gt cs_value cs_user]. rewrite NM. exact EA. }
      destruct s. reflexivity.
    - intros (c & o & DC & US & EA & ->). assert (NT : t <> []) by (destruct DC as (NT & _); exact NT). apply constraint_part_iff in DC; [|exact NT]. destruct DC as (F & CP). split; [destruct t; [congruence|reflexivity]|].
      rewrite sb_iff. exists (w_d_ck (map (kread t) constraint_keys) s), tt. split. { unfold read_into. cbn [d_ck w_d_ck]. rewrite (proj2 (read_keys_iff t constraint_keys _) (conj eq_refl F)). reflexivity. }
      remember (map (kread t) constraint_keys) as ck eqn:Eck. pose proof (constraint_part_name _ _ CP) as V2'.
      unfold constraint_part in CP. rewrite bind_iff in CP. destruct CP as (mf & V1 & H). rewrite bind_iff in H. destruct H as (name & V2 & H). rewrite bind_iff in H. destruct H as (g & V3 & H). rewrite bind_iff in H. destruct H as (vt & V4 & H).
      rewrite bind_iff in H. destruct H as (v & V5 & H). rewrite bind_iff in H. destruct H as (u & V6 & H). rewrite bind_iff in H. destruct H as (def & DF & H). injection H as <-. cbn [cs_def cs_user] in *.
      assert (NM : od_name def = name) by congruence.
      rewrite get_b, lift_b. exists z. split; [exact KD|]. rewrite lift_b. exists (int_seen it). split; [exact KI|]. cbn zeta. rewrite IS. cbn [d_ck w_d_ck].
      rewrite lift_b. exists mf. split; [exact V1|]. rewrite lift_b. exists name. split; [exact V2|]. rewrite lift_b. exists g. split; [exact V3|]. rewrite lift_b. exists vt. split; [exact V4|].
      rewrite lift_b. exists v. split; [exact V5|]. rewrite lift_b. exists u. split; [exact V6|]. rewrite sb_iff. exists (w_d_ck ck s), tt. split.
      { destruct (checkIfOn u); cbn [swhen]; [|reflexivity]. specialize (US eq_refl). unfold sassert. replace (Nat.ltb id 20) with true by (symmetry; apply Nat.ltb_lt; lia). rewrite sb_iff. exists (w_d_ck ck s), tt. split; [reflexivity|]. apply tif_iff.
        split; [|reflexivity]. apply Nat.leb_gt. exact US. }
      rewrite lift_b. exists def. split; [exact DF|]. cbn [d_box w_d_ck]. rewrite tif_b, BX, BS. split; [reflexivity|]. rewrite WD, setBounds_fits by assumption. rewrite lift_b. eexists. split; [reflexivity|].
      rewrite sb_iff. exists (w_d_opt o (w_d_ck ck s)), tt. split.
      { unfold on_opt, szoom. cbn [d_opt w_d_ck]. unfold con_of, con_fun in EA. cbn [cs_def cs_gt cs_value cs_user] in EA. rewrite NM in EA. rewrite EA. reflexivity. }
      reflexivity.
  Qed.
End Read.
