(** Reading a configuration, stage by stage. *)
From Coq Require Import Ascii String ZArith Bool Arith Reals Lra List Lia.
From Verif Require Import Base Num RealNum StM VecModel BoundsModel BoundsProofs DesignModel HistModel KrigModel OptModel StrModel StrSpec StrProofs StrNum StrReal KeyModel PropsStr PropsKey ApiModel ApiProofs DriverModel DriverSpec DriverText DriverKeys DriverParts.
Import ListNotations.

Lemma int_range seg k z : int_value seg k (Some z) -> (-2147483648 <= z <= 2147483647)%Z.
Proof. intros [(_ & E)|(c & y & _ & I & E)]; [discriminate|]. destruct (Z.eqb y (-10000000)); [discriminate|]. injection E as ->. now inversion I. Qed.
Lemma wrap32_small z : (0 <= z < 4294967296)%Z -> wrap32 z = Z.to_nat z.
Proof. intros H. unfold wrap32. rewrite Z.mod_small; [reflexivity|exact H]. Qed.

Ltac sameint I I' Z := match type of I with int_value _ _ ?a => match type of I' with int_value _ _ ?b =>
  let E := fresh in assert (E : b = a) by (eapply int_value_unique; [|exact I'|exact I]; nolt); rewrite E in Z; clear I'; clear E end end.
Section Stages.
  Context (files : str -> option str) (ext : odef -> ufun R) (udf : nat -> ufun R) (text : str).
  Implicit Types s : driver R.
  Definition reads_from s : Prop := d_fname s <> [] /\ files (d_fname s) = Some text.
  Lemma segment_iff s key c : reads_from s -> (segment files s key = Ok c <-> section text key c).
  Proof.
    intros (N & F). unfold segment. destruct (d_fname s) as [|x f] eqn:E; [congruence|]. cbn [is_empty]. rewrite F. apply C58_extract.
  Qed.

  (** *** general settings *)
  Definition gkeys (gs : str) : list (keyword R) := map (kread gs) general_keys.
  Definition Gopt (name : str) (N : nat) (oi : option Z) (o : popt R) : popt R :=
    let o := w_p_N N (w_p_name (if is_empty name then name else lit "OptimizationStudy") o) in
    match oi with Some z => w_p_inner (wrap32 z) o | None => o end.
  Definition Gst (gs name : str) (N : nat) (oi ot : option Z) (o : popt R) s : driver R :=
    w_d_threads (match ot with Some z => wrap32 z | None => d_threads s end) (w_d_opt (Gopt name N oi o) (w_d_isopt true (w_d_gk (gkeys gs) s))).
  Definition general_ok (gs name : str) (d N : nat) (oi ot : option Z) : Prop :=
    readable gs ["display"]%string /\ (exists t, text_value gs "type" t /\ same_word t (lit "optimization")) /\ text_value gs "name" name /\
    int_value gs "dimension" (Some (Z.of_nat d)) /\ int_value gs "number_of_function_evaluations" (Some (Z.of_nat N)) /\
    int_value gs "max_number_of_inner_iterations" oi /\ int_value gs "number_of_threads" ot /\ d <> 0 /\ N <> 0 /\ ot <> Some 0%Z.
  Lemma general_keys_read gs : gs <> [] -> (Forall (fun p => kres gs p = Ok tt) general_keys <->
    readable gs ["name"; "type"; "display"]%string /\ (exists o, int_value gs "dimension" o) /\ (exists o, int_value gs "number_of_function_evaluations" o) /\
    (exists o, int_value gs "max_number_of_inner_iterations" o) /\ (exists o, int_value gs "number_of_threads" o)).
  Proof.
    intros NE. unfold general_keys. rewrite !Forall_cons_iff.
    rewrite (kres_string gs "name") by (discriminate || nolt). rewrite (kres_string gs "type") by (discriminate || nolt). rewrite (kres_string gs "display") by (discriminate || nolt).
    rewrite (kres_int gs "dimension") by (discriminate || nolt). rewrite (kres_int gs "number_of_function_evaluations") by (discriminate || nolt).
    rewrite (kres_int gs "max_number_of_inner_iterations") by (discriminate || nolt). rewrite (kres_int gs "number_of_threads") by (discriminate || nolt).
    split.
    - intros (A & B & C & D & _ & _ & E & F & G & _). split; [|auto]. apply readable_of. repeat constructor; assumption.
    - intros (A & D & E & F & G). split; [apply A; apply in_b; reflexivity|]. split; [apply A; apply in_b; reflexivity|]. split; [apply A; apply in_b; reflexivity|]. split; [exact D|].
      split; [apply kres_vector; [discriminate|nolt|exact NE]|]. split; [apply kres_vector; [discriminate|nolt|exact NE]|]. auto.
  Qed.
  Lemma text_value_nil k v : text_value [] k v -> v = [].
  Proof.
    intros [(_ & E)|(c & L & _)]; [exact E|]. exfalso. inversion L as [| | |a rest c' r F G]. destruct F as (E & _). destruct a; discriminate.
  Qed.
  Lemma gs_nonempty gs t w : text_value gs "type" t -> same_word t w -> w <> [] -> gs <> [].
  Proof. intros V S N ->. apply text_value_nil in V. subst. inversion S. congruence. Qed.
  Lemma setDimension_fst d (o : popt R) : d <> 0 -> opt_setDimension d o = (fst (opt_setDimension d o), Ok tt).
  Proof. intros N. destruct (opt_setDimension_ok d o N) as (o' & E & _). now rewrite E. Qed.
  Lemma szoom_mod {S A} (g : S -> A) (p : A -> S -> S) f x : szoom g p (smod f) x = (p (f (g x)) x, Ok tt).
  Proof. reflexivity. Qed.
  Lemma positive_int gs k o z : int_value gs k o -> z = int_seen o -> (z <=? 0)%Z = false -> exists n, n <> 0 /\ z = Z.of_nat n /\ o = Some (Z.of_nat n) /\ wrap32 z = n.
  Proof.
    intros V E B. apply Z.leb_gt in B. destruct o as [y|]; [|cbn in E; lia]. cbn in E. subst y. pose proof (int_range _ _ _ V) as Rg.
    exists (Z.to_nat z). split; [lia|]. split; [lia|]. split; [f_equal; lia|]. apply wrap32_small. lia.
  Qed.
  Lemma general_keys_type gs t : Forall (fun p => kres gs p = Ok tt) general_keys -> key_required (gkeys gs) "type" = Ok t <-> required gs "type" t.
  Proof. intros F. apply key_required_iff; [exact F|reflexivity|discriminate|nolt]. Qed.
  (** each setting, in terms of the value of its key *)
  Lemma set_opt_same s : w_d_opt (d_opt s) s = s.
  Proof. destruct s. reflexivity. Qed.
  Lemma dimension_step s s' : setStudyDimension s = (s', Ok tt) <-> exists z, key_int (d_gk s) "dimension" = Ok z /\ (z <=? 0)%Z = false /\
    exists o, opt_setDimension (wrap32 z) (d_opt s) = (o, Ok tt) /\ s' = w_d_opt o s.
  Proof.
    unfold setStudyDimension. rewrite get_b, lift_b. split.
    - intros (z & K & H). exists z. rewrite tif_b in H. destruct H as (B & H). repeat (split; [assumption|]). unfold on_opt, szoom in H.
      destruct (opt_setDimension (wrap32 z) (d_opt s)) as [o r]. injection H as <- ->. exists o. auto.
    - intros (z & K & B & o & E & ->). exists z. split; [exact K|]. rewrite tif_b. split; [exact B|]. unfold on_opt, szoom. now rewrite E.
  Qed.
  Lemma name_step s s' : setStudyName s = (s', Ok tt) <-> exists n, key_string (d_gk s) "name" = Ok n /\ s' = w_d_opt (w_p_name (if is_empty n then n else lit "OptimizationStudy") (d_opt s)) s.
  Proof.
    unfold setStudyName. rewrite get_b, lift_b. split.
    - intros (n & K & H). exists n. split; [exact K|]. unfold on_opt in H. rewrite szoom_mod in H. now injection H as <-.
    - intros (n & K & ->). exists n. split; [exact K|]. unfold on_opt. now rewrite szoom_mod.
  Qed.
  Lemma evaluations_step s s' : setStudyEvaluations s = (s', Ok tt) <-> exists z, key_int (d_gk s) "number_of_function_evaluations" = Ok z /\ (z <=? 0)%Z = false /\ s' = w_d_opt (w_p_N (wrap32 z) (d_opt s)) s.
  Proof.
    unfold setStudyEvaluations. rewrite get_b, lift_b. split.
    - intros (z & K & H). exists z. rewrite tif_b in H. destruct H as (B & H). repeat (split; [assumption|]). unfold on_opt in H. rewrite szoom_mod in H. now injection H as <-.
    - intros (z & K & B & ->). exists z. split; [exact K|]. rewrite tif_b. split; [exact B|]. unfold on_opt. now rewrite szoom_mod.
  Qed.
  Lemma inner_step s s' : setStudyInner s = (s', Ok tt) <-> exists z, key_int (d_gk s) "max_number_of_inner_iterations" = Ok z /\
    s' = w_d_opt (if Z.eqb z (-10000000) then d_opt s else w_p_inner (wrap32 z) (d_opt s)) s.
  Proof.
    unfold setStudyInner. rewrite get_b, lift_b. split.
    - intros (z & K & H). exists z. split; [exact K|]. unfold on_opt in H. destruct (Z.eqb z (-10000000)); cbn [negb swhen] in H; [injection H as <-; symmetry; apply set_opt_same|rewrite szoom_mod in H; now injection H as <-].
    - intros (z & K & ->). exists z. split; [exact K|]. unfold on_opt. destruct (Z.eqb z (-10000000)); cbn [negb swhen]; [rewrite set_opt_same; reflexivity|now rewrite szoom_mod].
  Qed.
  Lemma threads_step s s' : setStudyThreads s = (s', Ok tt) <-> exists z, key_int (d_gk s) "number_of_threads" = Ok z /\
    (z = -10000000 /\ s' = s \/ z <> -10000000 /\ (z mod 2 ^ 32 =? 0) = false /\ s' = w_d_threads (wrap32 z) s)%Z.
  Proof.
    unfold setStudyThreads. rewrite get_b, lift_b. split.
    - intros (z & K & H). exists z. split; [exact K|]. destruct (Z.eqb_spec z (-10000000)); cbn [negb swhen] in H; [injection H as <-; auto|]. rewrite tif_b, mod_iff in H. right. destruct H. auto.
    - intros (z & K & H). exists z. split; [exact K|]. destruct (Z.eqb_spec z (-10000000)); cbn [negb swhen]; destruct H as [(Q & ->)|(Q & B & ->)]; try contradiction; [reflexivity|]. rewrite tif_b. split; [exact B|reflexivity].
  Qed.
  Lemma dim_key gs k z : In k ["dimension"; "number_of_function_evaluations"; "max_number_of_inner_iterations"; "number_of_threads"]%string ->
    Forall (fun p => kres gs p = Ok tt) general_keys -> (key_int (gkeys gs) k = Ok z <-> exists o, int_value gs k o /\ z = int_seen o).
  Proof. intros I F. cbn [In] in I. decompose [or] I; subst; try contradiction; (apply key_int_iff; [exact F|reflexivity|discriminate|nolt]). Qed.
  Lemma name_key gs v : Forall (fun p => kres gs p = Ok tt) general_keys -> (key_string (gkeys gs) "name" = Ok v <-> text_value gs "name" v).
  Proof. intros F. apply key_string_iff; [exact F|reflexivity|discriminate|nolt]. Qed.
  Lemma threads_zero z : (-2147483648 <= z <= 2147483647)%Z -> ((z mod 2 ^ 32 =? 0) = false <-> z <> 0)%Z.
  Proof.
    intros Rg. rewrite Z.eqb_neq. split; [intros M E; subst; now apply M|]. intros NZ M. apply NZ. destruct (Z.lt_ge_cases z 0) as [L|L].
    - rewrite <- (Z.mod_add z 1) in M by lia. rewrite Z.mod_small in M by lia. lia.
    - rewrite Z.mod_small in M by lia. exact M.
  Qed.
  (** the settings after the type *)
  Definition study_part : SM (driver R) unit := run setStudyDimension; run setStudyName; run setStudyEvaluations; run setStudyInner; setStudyThreads.
  Definition ints_ok (gs name : str) (d N : nat) (oi ot : option Z) : Prop :=
    text_value gs "name" name /\ int_value gs "dimension" (Some (Z.of_nat d)) /\ int_value gs "number_of_function_evaluations" (Some (Z.of_nat N)) /\
    int_value gs "max_number_of_inner_iterations" oi /\ int_value gs "number_of_threads" ot /\ d <> 0 /\ N <> 0 /\ ot <> Some 0%Z.
  Definition Sst (name : str) (N : nat) (oi ot : option Z) (o : popt R) s : driver R :=
    w_d_threads (match ot with Some z => wrap32 z | None => d_threads s end) (w_d_opt (Gopt name N oi o) s).
  Lemma study_inv gs s s' : d_gk s = gkeys gs -> Forall (fun p => kres gs p = Ok tt) general_keys -> study_part s = (s', Ok tt) ->
    exists name d N oi ot o, ints_ok gs name d N oi ot /\ opt_setDimension d (d_opt s) = (o, Ok tt) /\ s' = Sst name N oi ot o s.
  Proof.
    intros GK F H. unfold study_part in H.
    rewrite sb_iff in H. destruct H as (s1 & [] & H1 & H). apply dimension_step in H1. destruct H1 as (z1 & K1 & B1 & o & EO & ->). rewrite GK in K1. apply dim_key in K1; [|apply in_b; reflexivity|exact F]. destruct K1 as (o1 & I1 & Z1).
    destruct (positive_int _ _ _ _ I1 Z1 B1) as (d & D0 & Zd & Od & Wd). rewrite Wd in EO. subst o1.
    rewrite sb_iff in H. destruct H as (s2 & [] & H1 & H). apply name_step in H1. destruct H1 as (name & K2 & ->). cbn [d_gk w_d_opt] in K2. rewrite GK in K2. apply name_key in K2; [|exact F].
    rewrite sb_iff in H. destruct H as (s3 & [] & H1 & H). apply evaluations_step in H1. destruct H1 as (z3 & K3 & B3 & ->). cbn [d_gk w_d_opt] in K3. rewrite GK in K3. apply dim_key in K3; [|apply in_b; reflexivity|exact F]. destruct K3 as (o3 & I3 & Z3).
    destruct (positive_int _ _ _ _ I3 Z3 B3) as (N & N0 & ZN & ON & WN). subst o3. rewrite WN in H.
    rewrite sb_iff in H. destruct H as (s4 & [] & H1 & H). apply inner_step in H1. destruct H1 as (z4 & K4 & ->). cbn [d_gk w_d_opt] in K4. rewrite GK in K4. apply dim_key in K4; [|apply in_b; reflexivity|exact F]. destruct K4 as (oi & I4 & Z4).
    apply threads_step in H. destruct H as (z5 & K5 & H). cbn [d_gk w_d_opt] in K5. rewrite GK in K5. apply dim_key in K5; [|apply in_b; reflexivity|exact F]. destruct K5 as (ot & I5 & Z5).
    exists name, d, N, oi, ot, o. pose proof (int_value_seen _ _ _ I4) as S4. rewrite <- Z4 in S4. pose proof (int_value_seen _ _ _ I5) as S5. rewrite <- Z5 in S5.
    split; [|split; [exact EO|]].
    - unfold ints_ok. repeat (split; [assumption|]). intros X. rewrite X in Z5. cbn in Z5. rewrite Z5 in H. destruct H as [(Q & _)|(_ & Q & _)]; discriminate Q.
    - unfold Sst, Gopt. rewrite S4, S5. destruct H as [(-> & ->)|(Q & _ & ->)].
      + cbn [Z.eqb Pos.eqb]. destruct (Z.eqb z4 (-10000000)); destruct s; reflexivity.
      + apply Z.eqb_neq in Q. rewrite Q. destruct (Z.eqb z4 (-10000000)); destruct s; reflexivity.
  Qed.
  Lemma study_reads gs name d N oi ot o s : d_gk s = gkeys gs -> Forall (fun p => kres gs p = Ok tt) general_keys -> ints_ok gs name d N oi ot -> opt_setDimension d (d_opt s) = (o, Ok tt) ->
    study_part s = (Sst name N oi ot o s, Ok tt).
  Proof.
    intros GK F (VN & I1 & I2 & I3 & I4 & D0 & N0 & T0) EO. unfold study_part.
    assert (W1 : wrap32 (Z.of_nat d) = d). { pose proof (int_range _ _ _ I1). rewrite wrap32_small by lia. apply Nat2Z.id. }
    assert (W2 : wrap32 (Z.of_nat N) = N). { pose proof (int_range _ _ _ I2). rewrite wrap32_small by lia. apply Nat2Z.id. }
    rewrite sb_iff. eexists _, tt. split.
    { apply dimension_step. exists (Z.of_nat d). rewrite GK. split; [apply dim_key; [apply in_b; reflexivity|exact F|]; exists (Some (Z.of_nat d)); auto|]. split; [apply Z.leb_gt; lia|]. exists o. rewrite W1. split; [exact EO|reflexivity]. }
    rewrite sb_iff. eexists _, tt. split.
    { apply name_step. exists name. cbn [d_gk w_d_opt]. rewrite GK. split; [now apply name_key|reflexivity]. }
    rewrite sb_iff. eexists _, tt. split.
    { apply evaluations_step. exists (Z.of_nat N). cbn [d_gk w_d_opt]. rewrite GK. split; [apply dim_key; [apply in_b; reflexivity|exact F|]; exists (Some (Z.of_nat N)); auto|]. split; [apply Z.leb_gt; lia|]. rewrite W2. reflexivity. }
    pose proof (int_value_seen _ _ _ I3) as S3. pose proof (int_value_seen _ _ _ I4) as S4.
    rewrite sb_iff. eexists _, tt. split.
    { apply inner_step. exists (int_seen oi). cbn [d_gk w_d_opt]. rewrite GK. split; [apply dim_key; [apply in_b; reflexivity|exact F|]; exists oi; auto|]. reflexivity. }
    apply threads_step. exists (int_seen ot). cbn [d_gk w_d_opt]. rewrite GK. split; [apply dim_key; [apply in_b; reflexivity|exact F|]; exists ot; auto|].
    unfold Sst, Gopt. destruct (Z.eqb (int_seen ot) (-10000000)) eqn:Q.
    - rewrite S4. left. split; [now apply Z.eqb_eq|]. rewrite S3 at 1. destruct (Z.eqb (int_seen oi) (-10000000)); destruct s; reflexivity.
    - assert (O5 : ot = Some (int_seen ot)) by exact S4. clear S4. right. split; [now apply Z.eqb_neq|]. split. { rewrite O5 in I4. apply threads_zero; [exact (int_range _ _ _ I4)|]. intros X. rewrite X in O5. now apply T0. }
      destruct ot as [zt|]; [|discriminate]. cbn [int_seen].
      rewrite S3 at 1. destruct (Z.eqb (int_seen oi) (-10000000)); destruct s; reflexivity.
  Qed.
  Lemma general_inv s s' : reads_from s -> d_gk s = new_keys general_keys -> d_isopt s = false -> readGeneralSettings files s = (s', Ok tt) -> d_isopt s' = true ->
     exists gs name d N oi ot o, section text "general_settings" gs /\ general_ok gs name d N oi ot /\ opt_setDimension d (d_opt s) = (o, Ok tt) /\ s' = Gst gs name N oi ot o s.
  Proof.
    intros RF GK IO H IS. unfold readGeneralSettings in H. fold study_part in H. rewrite get_b, lift_b in H. destruct H as (gs & SG & H). apply (segment_iff _ _ _ RF) in SG.
    rewrite sb_iff in H. destruct H as (s1 & u & RK & H). unfold read_into in RK. rewrite GK in RK. destruct (read_keys gs (new_keys general_keys)) as [l r] eqn:ER. injection RK as <- ->. destruct u.
    apply read_keys_iff in ER. destruct ER as (-> & F). fold (gkeys gs) in H. rewrite get_b in H. cbn [d_gk w_d_gk] in H. rewrite lift_b in H. destruct H as (ty & ET & H).
    apply general_keys_type in ET; [|exact F]. pose proof (required_plain _ _ _ ET) as PT. rewrite lift_b in H. destruct H as (b & EB & H).
    rewrite when_b in H. destruct b.
    2:{ rewrite get_b in H. cbn [d_isopt w_d_gk] in H. rewrite IO in H. cbn [swhen] in H. injection H as <-. cbn in IS. congruence. }
    rewrite mod_b, get_b in H. cbn [d_isopt w_d_isopt w_d_gk swhen] in H.
    assert (SW : same_word ty (lit "optimization")). { apply (isEqual_iff _ _ _ PT (lit_plain "optimization" eq_refl) ltac:(discriminate) EB). reflexivity. }
    assert (NE : gs <> []) by (apply (gs_nonempty gs ty (lit "optimization") (proj1 ET) SW); discriminate).
    destruct (proj1 (general_keys_read gs NE) F) as (RS & _).
    apply (study_inv gs) in H; [|reflexivity|exact F]. destruct H as (name & d & N & oi & ot & o & G & EO & ->).
    exists gs, name, d, N, oi, ot, o. split; [exact SG|]. split; [|split; [exact EO|reflexivity]]. split; [intros k Hk; apply RS; revert k Hk; apply incl_b; reflexivity|]. split; [exists ty; split; [exact (proj1 ET)|exact SW]|]. exact G.
  Qed.
  Lemma general_reads s gs name d N oi ot o : reads_from s -> d_gk s = new_keys general_keys -> section text "general_settings" gs -> general_ok gs name d N oi ot ->
    opt_setDimension d (d_opt s) = (o, Ok tt) -> readGeneralSettings files s = (Gst gs name N oi ot o s, Ok tt).
  Proof.
    intros RF GK SG (RD & (ty & VT & SW) & G) EO.
    assert (NE : gs <> []) by (apply (gs_nonempty gs ty (lit "optimization") VT SW); discriminate).
    assert (F : Forall (fun p => kres gs p = Ok tt) general_keys).
    { destruct G as (VN & I1 & I2 & I3 & I4 & _). apply general_keys_read; [exact NE|]. split; [|repeat split; eauto]. apply readable_of. repeat constructor; eauto. apply RD. apply in_b. reflexivity. }
    assert (ET : required gs "type" ty). { split; [exact VT|]. apply (same_word_nonempty _ _ SW). discriminate. }
    unfold readGeneralSettings. fold study_part. rewrite get_b, lift_b. exists gs. split; [now apply segment_iff|]. rewrite sb_iff.
    exists (w_d_gk (gkeys gs) s), tt. split. { unfold read_into. rewrite GK. rewrite (proj2 (read_keys_iff gs general_keys (gkeys gs)) (conj eq_refl F)). reflexivity. }
    rewrite get_b, lift_b. exists ty. split; [now apply general_keys_type|]. rewrite lift_b. exists true. split.
    { destruct (isEqual_total ty (lit "optimization") (required_plain _ _ _ ET) (lit_plain "optimization" eq_refl)) as (b & EB). rewrite EB. f_equal.
      apply (isEqual_iff _ _ _ (required_plain _ _ _ ET) (lit_plain "optimization" eq_refl) ltac:(discriminate) EB). exact SW. }
    rewrite when_b, mod_b, get_b. cbn [d_isopt w_d_isopt w_d_gk swhen]. apply (study_reads gs name d N oi ot o); [reflexivity|exact F|exact G|exact EO].
  Qed.
End Stages.
