(** The parts of a configuration: words, parameters, objective function, constraints. *)
From Coq Require Import Ascii String ZArith Bool Arith Reals Lra List Lia.
From Verif Require Import Base Num RealNum StM StrModel StrSpec StrProofs StrNum StrReal KeyModel PropsStr PropsKey DriverModel DriverSpec DriverText DriverKeys.
Import ListNotations.

Lemma nolt_b s : existsb (Ascii.eqb lt) s = false -> ~ In lt s.
Proof. intros E I. rewrite (proj2 (existsb_exists _ _)) in E; [discriminate|]. exists lt. split; [exact I|apply Ascii.eqb_refl]. Qed.
Ltac nolt := apply nolt_b; reflexivity.

(** lists of keys *)
Lemma in_b k ks : existsb (String.eqb k) ks = true -> In k ks.
Proof. intros E. apply existsb_exists in E. destruct E as (x & I & E). apply String.eqb_eq in E. now subst. Qed.
Lemma incl_b l1 l2 : forallb (fun k => existsb (String.eqb k) l2) l1 = true -> forall k, In k l1 -> In k l2.
Proof. intros E k I. rewrite forallb_forall in E. apply in_b. auto. Qed.
Lemma readable_of seg ks : Forall (fun k => exists v, text_value seg k v) ks -> readable seg ks.
Proof. intros F k I. rewrite Forall_forall in F. auto. Qed.
Lemma keys_read seg ks ki : forallb (fun k => (negb (is_empty (lit k)) && negb (existsb (Ascii.eqb lt) (lit k)))%bool) (ki :: ks) = true ->
  (Forall (fun p => kres seg p = Ok tt) (map (fun k => (k, KString)) ks ++ [(ki, KInt)]) <-> readable seg ks /\ exists o, int_value seg ki o).
Proof.
  intros B. rewrite forallb_forall in B.
  assert (G : forall k, In k (ki :: ks) -> lit k <> [] /\ ~ In lt (lit k)).
  { intros k I. specialize (B k I). apply andb_true_iff in B. destruct B as (B1 & B2). split; [destruct (lit k); [discriminate|discriminate]|apply nolt_b; now apply negb_true_iff]. }
  clear B. rewrite Forall_app. assert (Q : Forall (fun p => kres seg p = Ok tt) [(ki, KInt)] <-> exists o, int_value seg ki o).
  { destruct (G ki (or_introl eq_refl)) as (N & L). rewrite <- (kres_int seg ki N L). split; [intros F; now inversion F|auto]. }
  rewrite Q. clear Q. apply and_iff_compat_r. assert (G' : forall k, In k ks -> lit k <> [] /\ ~ In lt (lit k)) by (intros k I; apply G; now right). clear G.
  rewrite Forall_map. split.
  - intros F k I. rewrite Forall_forall in F. destruct (G' k I) as (N & L). apply (kres_string seg k N L). auto.
  - intros R. rewrite Forall_forall. intros k I. destruct (G' k I) as (N & L). apply (kres_string seg k N L). auto.
Qed.

(** *** words *)
Lemma isEqual_lit a w : plain a -> existsb negative (lit w) = false -> lit w <> [] -> isEqual a (lit w) = Ok (str_eqb (map lower a) (map lower (lit w))).
Proof.
  intros PA PW NW. apply plain_negative in PW. destruct (isEqual_total a (lit w) PA PW) as (b & E). rewrite E. f_equal. apply eq_iff_eq_true. rewrite str_eqb_eq.
  rewrite (isEqual_iff _ _ _ PA PW NW E). split; [apply same_word_lower|]. clear. generalize (lit w). intros v H. revert v H. induction a as [|x a IH]; intros [|y v] H; try discriminate; [constructor|].
  cbn in H. injection H as H1 H2. constructor; [|now apply IH]. apply lower_same. now apply Ascii.eqb_eq.
Qed.
Lemma one_of_lower t ws : forallb (fun w => str_eqb (map lower (lit w)) (lit w)) ws = true -> (one_of t ws <-> existsb (fun w => str_eqb (map lower t) (lit w)) ws = true).
Proof.
  intros L. rewrite forallb_forall in L. unfold one_of. rewrite existsb_exists. split; intros (w & I & H); exists w; (split; [exact I|]); pose proof (L w I) as E; apply str_eqb_eq in E.
  - apply str_eqb_eq. now apply same_word_lit.
  - apply str_eqb_eq in H. now apply same_word_lit.
Qed.
Ltac words_case w := let E := fresh "E" in
  match goal with |- context [str_eqb ?l (lit w)] => destruct (str_eqb l (lit w)) eqn:E; [apply str_eqb_eq in E; rewrite !E in *; clear E|] end.
Lemma surrogateModelID_iff t m : plain t -> (surrogateModelID t = Ok m <-> model_of t m).
Proof.
  intros P. unfold surrogateModelID, model_of. destruct t as [|c t0] eqn:Et; [cbn [is_empty]; split; [intros [= <-]; auto|intros [[_ ->]|(w & I & S)]; [reflexivity|]]|].
  { exfalso. inversion S. destruct m; cbn in I; decompose [or] I; subst; discriminate || contradiction. }
  rewrite <- Et in *. assert (is_empty t = false) as -> by (rewrite Et; reflexivity). assert (NE : t <> []) by (rewrite Et; discriminate).
  rewrite one_of_lower by (destruct m; reflexivity).
  assert (R : surrogateModelID t = surrogateModelID t) by reflexivity. clear R.
  unfold model_names. cbn [map fst snd model_find].
  rewrite !isEqual_lit by (auto; discriminate || reflexivity). cbn [bind].
  change (map lower (lit "DEFAULT")) with (lit "default"). change (map lower (lit "GRADIENT_ENHANCED")) with (lit "gradient_enhanced"). change (map lower (lit "TANGENT_ENHANCED")) with (lit "tangent_enhanced").
  change (map lower (lit "default")) with (lit "default"). change (map lower (lit "gradient_enhanced")) with (lit "gradient_enhanced"). change (map lower (lit "tangent_enhanced")) with (lit "tangent_enhanced").
  change (map lower (lit "kriging")) with (lit "kriging"). change (map lower (lit "ordinary_kriging")) with (lit "ordinary_kriging"). change (map lower (lit "universal_kriging")) with (lit "universal_kriging").
  assert (Q : forall X : Prop, (t = [] /\ m = MOrdinary \/ X) <-> X) by tauto. rewrite Q. clear Q. clear Et. generalize dependent (map lower t). intros lw.
  destruct m; cbn [model_words existsb];
  (words_case "default"%string; [split; (reflexivity || discriminate || idtac); intros H; (discriminate H || reflexivity)|]);
  (words_case "gradient_enhanced"%string; [split; (reflexivity || discriminate || idtac); intros H; (discriminate H || reflexivity)|]);
  (words_case "tangent_enhanced"%string; [split; (reflexivity || discriminate || idtac); intros H; (discriminate H || reflexivity)|]);
  (words_case "kriging"%string; [split; (reflexivity || discriminate || idtac); intros H; (discriminate H || reflexivity)|]);
  (words_case "ordinary_kriging"%string; [split; (reflexivity || discriminate || idtac); intros H; (discriminate H || reflexivity)|]);
  (words_case "universal_kriging"%string; [split; (reflexivity || discriminate || idtac); intros H; (discriminate H || reflexivity)|]);
  split; discriminate.
Qed.
Lemma constraintType_iff t g : plain t -> t <> [] ->
  (a <- isEqual t (lit "lt") ;; a <- (if a : bool then Ok true else isEqual t (lit "LT")) ;;
   if a : bool then Ok false else
     b <- isEqual t (lit "gt") ;; b <- (if b : bool then Ok true else isEqual t (lit "TT")) ;;
     if b : bool then Ok true else Throw InvalidArgument) = Ok g <-> one_of t (constraint_words g).
Proof.
  intros P NE. rewrite one_of_lower by (destruct g; reflexivity). rewrite !isEqual_lit by (auto; discriminate || reflexivity). cbn [bind].
  change (map lower (lit "lt")) with (lit "lt"). change (map lower (lit "LT")) with (lit "lt"). change (map lower (lit "gt")) with (lit "gt"). change (map lower (lit "TT")) with (lit "tt").
  generalize (map lower t). intros lw. destruct g; cbn [constraint_words existsb].
  - words_case "lt"%string; [split; discriminate|]. cbn [bind]. words_case "gt"%string; [split; reflexivity|]. cbn [bind]. words_case "tt"%string; split; try reflexivity; discriminate.
  - words_case "lt"%string; [split; reflexivity|]. cbn [bind]. words_case "gt"%string; [split; discriminate|]. cbn [bind]. words_case "tt"%string; split; discriminate.
Qed.
Lemma required_plain seg k v : required seg k v -> plain v.
Proof. intros [V _]. exact (string_plain _ _ _ V). Qed.

(** *** parameters *)
Definition pmatch (p : param R) (q : pspec) : Prop :=
  pa_name p = ps_name q /\ is_discrete (pa_type p) = ps_discrete q /\ pa_lb p = ps_lb q /\ pa_ub p = ps_ub q /\ pa_inc p = ps_inc q.
Lemma type_words lw : existsb (str_eqb lw) type_names = true <-> existsb (fun w => str_eqb lw (lit w)) (parameter_words (is_discrete lw)) = true.
Proof.
  unfold type_names, is_discrete. cbn [map existsb]. words_case "continuous"%string; [reflexivity|]. words_case "discrete"%string; [reflexivity|]. words_case "real"%string; [reflexivity|]. words_case "int"%string; [reflexivity|].
  cbn [orb parameter_words existsb]. repeat match goal with H : str_eqb _ _ = false |- _ => rewrite H; clear H end. split; discriminate.
Qed.
Lemma readParameter_some t p : readParameter t = Ok p -> exists q, describes_parameter t q /\ pmatch p q.
Proof.
  unfold readParameter. rewrite bind_iff. intros (n & E1 & H). rewrite bind_iff in H. destruct H as (ty & E2 & H).
  apply string_iff in E1; [|nolt]. apply string_iff in E2; [|nolt].
  destruct n as [|x0 n']; [discriminate|]. destruct ty as [|t0 ty']; [discriminate|]. cbn [is_empty] in H. set (n := x0 :: n') in *. set (ty := t0 :: ty') in *.
  pose proof (string_plain _ _ _ E2) as PT.
  assert (toLower ty = Ok (map lower ty)) as TL. { unfold toLower. apply plain_negative in PT. now rewrite PT. }
  rewrite TL in H. cbn [bind] in H. destruct (existsb (str_eqb (map lower ty)) type_names) eqn:TN; [|discriminate]. cbn [negb] in H.
  rewrite bind_iff in H. destruct H as (lb & E3 & H). rewrite bind_iff in H. destruct H as (ub & E4 & H).
  apply double_iff in E3; [|nolt]. apply double_iff in E4; [|nolt].
  change (ub <! lb) with (Rltb ub lb) in H. destruct (Rltb_spec ub lb) as [|B]; [discriminate|].
  rewrite bind_iff in H. destruct H as (inc & E5 & H). apply double_iff in E5; [|nolt].
  assert (W : one_of ty (parameter_words (is_discrete (map lower ty)))). { apply one_of_lower. destruct (is_discrete _); reflexivity. now apply type_words. }
  destruct (is_discrete (map lower ty)) eqn:D.
  - change (inc <=! n0) with (Rleb inc 0) in H. change ((ub -! lb) <! inc) with (Rltb (ub - lb) inc) in H.
    destruct (Rleb_spec inc 0) as [|I1]; [discriminate|]. destruct (Rltb_spec (ub - lb) inc) as [|I2]; [discriminate|]. cbn [orb] in H. injection H as <-.
    exists (mkPS n true lb ub inc). split; [|unfold pmatch; cbn; repeat split; exact D].
    unfold describes_parameter. cbn [ps_name ps_discrete ps_lb ps_ub ps_inc]. repeat (split; [assumption|]). split; [discriminate|]. split; [eauto|]. repeat (split; [assumption|]). split; [lra|]. exists inc. repeat split; auto; lra.
  - injection H as <-. exists (mkPS n false lb ub 0). split; [|unfold pmatch; cbn; repeat split; exact D].
    unfold describes_parameter. cbn [ps_name ps_discrete ps_lb ps_ub ps_inc]. repeat (split; [assumption|]). split; [discriminate|]. split; [eauto|]. repeat (split; [assumption|]). split; [lra|]. exists inc. auto.
Qed.
Lemma readParameter_reads t q : describes_parameter t q -> exists p, readParameter t = Ok p /\ pmatch p q.
Proof.
  intros (V1 & NE & (ty & V2 & W) & V3 & V4 & B & inc & V5 & I).
  pose proof (string_plain _ _ _ V2) as PT. assert (TN : ty <> []). { intros ->. destruct W as (w & Iw & S). inversion S. destruct (ps_discrete q); cbn in Iw; decompose [or] Iw; subst; discriminate || contradiction. }
  unfold readParameter. apply string_iff in V1; [|nolt]. apply string_iff in V2; [|nolt]. apply double_iff in V3; [|nolt]. apply double_iff in V4; [|nolt]. apply double_iff in V5; [|nolt].
  rewrite V1, V2. cbn [bind]. assert (is_empty (ps_name q) = false) as -> by (destruct (ps_name q); [congruence|reflexivity]). assert (is_empty ty = false) as -> by (destruct ty; [congruence|reflexivity]).
  assert (toLower ty = Ok (map lower ty)) as ->. { unfold toLower. apply plain_negative in PT. now rewrite PT. }
  cbn [bind]. assert (D : is_discrete (map lower ty) = ps_discrete q).
  { apply one_of_lower in W; [|destruct (ps_discrete q); reflexivity]. unfold is_discrete. destruct (ps_discrete q); cbn [parameter_words existsb] in W; rewrite orb_false_r in W.
    - exact W.
    - apply orb_true_iff in W. destruct W as [W|W]; apply str_eqb_eq in W; rewrite W; reflexivity. }
  assert (existsb (str_eqb (map lower ty)) type_names = true) as ->. { apply type_words. rewrite D. apply one_of_lower in W; [exact W|destruct (ps_discrete q); reflexivity]. }
  cbn [negb]. rewrite V3, V4. cbn [bind]. change (ps_ub q <! ps_lb q) with (Rltb (ps_ub q) (ps_lb q)). destruct (Rltb_spec (ps_ub q) (ps_lb q)) as [|_]; [lra|].
  rewrite V5. cbn [bind]. rewrite D. destruct (ps_discrete q) eqn:DQ.
  - change (inc <=! n0) with (Rleb inc 0). change ((ps_ub q -! ps_lb q) <! inc) with (Rltb (ps_ub q - ps_lb q) inc). destruct I as (Ei & I1 & I2).
    destruct (Rleb_spec inc 0) as [|_]; [lra|]. destruct (Rltb_spec (ps_ub q - ps_lb q) inc) as [|_]; [lra|]. cbn [orb]. eexists. split; [reflexivity|]. unfold pmatch. cbn. repeat split; congruence.
  - eexists. split; [reflexivity|]. unfold pmatch. cbn. repeat split; congruence.
Qed.

(** *** the objective function *)
Definition objective_texts : list string := ["multi_fidelity"; "name"; "design_vector_filename"; "warm_start"; "output_filename"; "output_filename_gradient"; "executable_filename"; "executable_filename_gradient";
    "executable_filename_tangent"; "surrogate_model_type"; "training_data_filename"]%string.
Lemma objective_keys_read os : Forall (fun p => kres os p = Ok tt) objective_keys <-> readable os objective_texts /\ exists o, int_value os "number_of_training_iterations" o.
Proof. exact (keys_read os objective_texts "number_of_training_iterations" eq_refl). Qed.
Definition model_part (os : str) (d : odef) : Prop :=
  match od_model d with
  | MGradient => required os "executable_filename_gradient" (od_exeg d) /\ required os "output_filename_gradient" (od_outg d) /\ ~ same_word (od_outg d) (od_out d)
  | _ => od_exeg d = [] /\ od_outg d = []
  end.
Lemma objectiveDefinition_iff os d : Forall (fun p => kres os p = Ok tt) objective_keys ->
  (objectiveDefinition (map (kread os) objective_keys) = Ok d <->
   required os "name" (od_name d) /\ required os "design_vector_filename" (od_dv d) /\ required os "executable_filename" (od_exe d) /\
   required os "training_data_filename" (od_train d) /\ required os "output_filename" (od_out d) /\
   (exists t, text_value os "surrogate_model_type" t /\ model_of t (od_model d)) /\ od_multi d = false /\ model_part os d).
Proof.
  intros F. unfold objectiveDefinition.
  assert (KR : forall k v, List.find (fun p => str_eqb (lit (fst p)) (lit k)) objective_keys = Some (k, KString) -> lit k <> [] -> ~ In lt (lit k) -> (key_required (map (kread os) objective_keys) k = Ok v <-> required os k v)).
  { intros k v E N L. now apply key_required_iff. }
  assert (KS : forall k v, List.find (fun p => str_eqb (lit (fst p)) (lit k)) objective_keys = Some (k, KString) -> lit k <> [] -> ~ In lt (lit k) -> (key_string (map (kread os) objective_keys) k = Ok v <-> text_value os k v)).
  { intros k v E N L. now apply key_string_iff. }
  split.
  - rewrite bind_iff. intros (name & E1 & H). rewrite bind_iff in H. destruct H as (dv & E2 & H). rewrite bind_iff in H. destruct H as (exe & E3 & H). rewrite bind_iff in H. destruct H as (train & E4 & H).
    rewrite bind_iff in H. destruct H as (out & E5 & H). rewrite bind_iff in H. destruct H as (mt & E6 & H). rewrite bind_iff in H. destruct H as (m & E7 & H).
    apply KR in E1; [|reflexivity|discriminate|nolt]. apply KR in E2; [|reflexivity|discriminate|nolt]. apply KR in E3; [|reflexivity|discriminate|nolt]. apply KR in E4; [|reflexivity|discriminate|nolt]. apply KR in E5; [|reflexivity|discriminate|nolt].
    apply KS in E6; [|reflexivity|discriminate|nolt]. apply surrogateModelID_iff in E7; [|exact (string_plain _ _ _ E6)].
    destruct m; try (injection H as <-; cbn; repeat (split; [assumption|]); split; [eauto|]; repeat split; reflexivity).
    rewrite bind_iff in H. destruct H as (exeg & E8 & H). rewrite bind_iff in H. destruct H as (outg & E9 & H). rewrite bind_iff in H. destruct H as (b & E10 & H).
    apply KR in E8; [|reflexivity|discriminate|nolt]. apply KR in E9; [|reflexivity|discriminate|nolt].
    destruct b; [discriminate|]. injection H as <-. cbn. repeat (split; [assumption|]). split; [eauto|]. split; [reflexivity|]. unfold model_part. cbn. repeat (split; [assumption|]).
    intros S. apply (isEqual_iff _ _ _ (required_plain _ _ _ E9) (required_plain _ _ _ E5) (proj2 E5) E10) in S. discriminate.
  - intros (E1 & E2 & E3 & E4 & E5 & (mt & E6 & E7) & E8 & E9). pose proof (required_plain _ _ _ E5) as PO. pose proof (proj2 E5) as NO.
    apply KR in E1; [|reflexivity|discriminate|nolt]. apply KR in E2; [|reflexivity|discriminate|nolt]. apply KR in E3; [|reflexivity|discriminate|nolt]. apply KR in E4; [|reflexivity|discriminate|nolt]. apply KR in E5; [|reflexivity|discriminate|nolt].
    apply surrogateModelID_iff in E7; [|exact (string_plain _ _ _ E6)]. apply KS in E6; [|reflexivity|discriminate|nolt].
    rewrite E1, E2, E3, E4, E5, E6. cbn [bind]. rewrite E7. cbn [bind]. destruct d as [name dv exe exeg out outg train multi m]. cbn [od_name od_dv od_exe od_exeg od_out od_outg od_train od_multi od_model] in *. subst multi.
    unfold model_part in E9. cbn [od_name od_dv od_exe od_exeg od_out od_outg od_train od_multi od_model] in E9. destruct m; try (destruct E9 as [-> ->]; reflexivity).
    destruct E9 as (E10 & E11 & NS). pose proof (required_plain _ _ _ E11) as PG. apply KR in E10; [|reflexivity|discriminate|nolt]. apply KR in E11; [|reflexivity|discriminate|nolt]. rewrite E10, E11. cbn [bind].
    destruct (isEqual_total outg out PG PO) as (b & EB). rewrite EB. cbn [bind]. destruct b; [|reflexivity]. exfalso. apply NS. now apply (isEqual_iff _ _ _ PG PO NO EB).
Qed.
Lemma describes_objective_keys os d it : describes_objective os d it -> Forall (fun p => kres os p = Ok tt) objective_keys.
Proof.
  intros (R & I & (V1 & _) & (V2 & _) & (V3 & _) & (V4 & _) & (V5 & _) & (t & V6 & _) & _ & _). apply objective_keys_read. split; [|eauto].
  apply readable_of. repeat constructor; eauto; apply R; apply in_b; reflexivity.
Qed.
Lemma describes_objective_iff os d it : describes_objective os d it <->
  Forall (fun p => kres os p = Ok tt) objective_keys /\ int_value os "number_of_training_iterations" it /\ objectiveDefinition (map (kread os) objective_keys) = Ok d.
Proof.
  split.
  - intros H. pose proof (describes_objective_keys _ _ _ H) as F. split; [exact F|]. destruct H as (R & I & H). split; [exact I|]. apply objectiveDefinition_iff; [exact F|]. exact H.
  - intros (F & I & E). apply objectiveDefinition_iff in E; [|exact F]. split; [|split; [exact I|exact E]]. apply objective_keys_read in F. destruct F as (F & _). intros k Hk. apply F. revert k Hk. apply incl_b. reflexivity.
Qed.

(** *** constraints *)
Definition constraint_texts : list string := ["multi_fidelity"; "name"; "constraint_value"; "constraint_type"; "user_defined_function"; "design_vector_filename"; "warm_start"; "output_filename"; "output_filename_gradient"; "executable_filename"; "executable_filename_gradient";
    "executable_filename_tangent"; "surrogate_model_type"; "training_data_filename"]%string.
Lemma constraint_keys_read cs : Forall (fun p => kres cs p = Ok tt) constraint_keys <-> readable cs constraint_texts /\ exists o, int_value cs "number_of_training_iterations" o.
Proof. exact (keys_read cs constraint_texts "number_of_training_iterations" eq_refl). Qed.
(** the part of readConstraint between the keywords and the optimiser *)
Definition constraint_part (l : list (keyword R)) : Res cspec :=
  mf <- key_string l "multi_fidelity" ;;
  name <- key_required l "name" ;;
  g <- constraintType l ;;
  vt <- key_required l "constraint_value" ;;
  v <- stod vt ;;
  u <- key_string l "user_defined_function" ;;
  d <- (if checkIfOn u then Ok (mkOD name [] [] [] [] [] [] (checkIfOn mf) MOrdinary) else constraintDefinition l name (checkIfOn mf)) ;;
  Ok (mkCS d g v (checkIfOn u)).
Lemma constraint_part_iff cs c : cs <> [] -> (describes_constraint cs c <-> Forall (fun p => kres cs p = Ok tt) constraint_keys /\ constraint_part (map (kread cs) constraint_keys) = Ok c).
Proof.
  intros NS.
  assert (A : Forall (fun p => kres cs p = Ok tt) constraint_keys -> describes_constraint cs c <-> constraint_part (map (kread cs) constraint_keys) = Ok c).
  { intros F. pose proof (proj1 (constraint_keys_read cs) F) as (RS & RI).
    assert (KR : forall k v, List.find (fun p => str_eqb (lit (fst p)) (lit k)) constraint_keys = Some (k, KString) -> lit k <> [] -> ~ In lt (lit k) -> (key_required (map (kread cs) constraint_keys) k = Ok v <-> required cs k v)).
    { intros k v E N L. now apply key_required_iff. }
    assert (KS : forall k v, List.find (fun p => str_eqb (lit (fst p)) (lit k)) constraint_keys = Some (k, KString) -> lit k <> [] -> ~ In lt (lit k) -> (key_string (map (kread cs) constraint_keys) k = Ok v <-> text_value cs k v)).
    { intros k v E N L. now apply key_string_iff. }
    unfold constraint_part. split.
    - intros (_ & _ & _ & (mf & V1 & O1) & V2 & (ty & V3 & W) & (vt & V4 & NU) & (u & V5 & O2) & X1 & X2 & D).
      assert (NT : ty <> []). { intros ->. destruct W as (w & Iw & S). inversion S. destruct (cs_gt c); cbn in Iw; decompose [or] Iw; subst; discriminate || contradiction. }
      assert (R3 : required cs "constraint_type" ty) by (split; assumption). pose proof (string_plain _ _ _ V3) as PT.
      apply KS in V1; [|reflexivity|discriminate|nolt]. apply KR in V2; [|reflexivity|discriminate|nolt]. apply KR in R3; [|reflexivity|discriminate|nolt]. apply KR in V4; [|reflexivity|discriminate|nolt]. apply KS in V5; [|reflexivity|discriminate|nolt].
      rewrite V1. cbn [bind]. rewrite V2. cbn [bind]. unfold constraintType. rewrite R3. cbn [bind]. rewrite (proj2 (constraintType_iff ty (cs_gt c) PT NT) W). cbn [bind]. rewrite V4. cbn [bind].
      apply stod_number_of in NU. rewrite NU. cbn [bind]. rewrite V5. cbn [bind].
      assert (checkIfOn u = cs_user c) as ->. { apply eq_iff_eq_true. rewrite on_iff. symmetry. exact O2. }
      assert (checkIfOn mf = od_multi (cs_def c)) as ->. { apply eq_iff_eq_true. rewrite on_iff. symmetry. exact O1. }
      destruct c as [[name dv exe exeg out outg train multi m] g v us]. cbn [cs_def cs_gt cs_value cs_user od_name od_dv od_exe od_exeg od_out od_outg od_train od_multi od_model] in *. subst exeg outg. destruct us.
      + destruct D as (-> & -> & -> & -> & ->). reflexivity.
      + destruct D as (D1 & D2 & D3 & D4 & mt & D5 & D6). unfold constraintDefinition. apply surrogateModelID_iff in D6; [|exact (string_plain _ _ _ D5)].
        apply KS in D1; [|reflexivity|discriminate|nolt]. apply KR in D2; [|reflexivity|discriminate|nolt]. apply KR in D3; [|reflexivity|discriminate|nolt]. apply KR in D4; [|reflexivity|discriminate|nolt]. apply KS in D5; [|reflexivity|discriminate|nolt].
        rewrite D1, D2, D3, D4, D5. cbn [bind]. rewrite D6. reflexivity.
    - rewrite bind_iff. intros (mf & V1 & H). rewrite bind_iff in H. destruct H as (name & V2 & H). rewrite bind_iff in H. destruct H as (g & V3 & H). rewrite bind_iff in H. destruct H as (vt & V4 & H).
      rewrite bind_iff in H. destruct H as (v & NU & H). rewrite bind_iff in H. destruct H as (u & V5 & H). rewrite bind_iff in H. destruct H as (d & D & H). injection H as <-.
      apply KS in V1; [|reflexivity|discriminate|nolt]. apply KR in V2; [|reflexivity|discriminate|nolt]. apply KR in V4; [|reflexivity|discriminate|nolt]. apply KS in V5; [|reflexivity|discriminate|nolt].
      unfold constraintType in V3. rewrite bind_iff in V3. destruct V3 as (ty & V3 & W). apply KR in V3; [|reflexivity|discriminate|nolt]. apply constraintType_iff in W; [|exact (required_plain _ _ _ V3)|exact (proj2 V3)].
      apply stod_number_of in NU. unfold describes_constraint. cbn [cs_def cs_gt cs_value cs_user].
      split; [exact NS|]. split. { intros k Hk. apply RS. revert k Hk. apply incl_b. reflexivity. } split; [exact RI|].
      assert (DM : od_multi d = checkIfOn mf /\ od_name d = name /\ od_exeg d = [] /\ od_outg d = []).
      { destruct (checkIfOn u); [injection D as <-; auto|]. unfold constraintDefinition in D. repeat (rewrite bind_iff in D; destruct D as (? & _ & D)). injection D as <-. auto. }
      destruct DM as (DM & DN & X1 & X2).
      split. { exists mf. split; [exact V1|]. rewrite DM. apply on_iff. } split; [now rewrite DN|]. split; [exists ty; split; [exact (proj1 V3)|exact W]|]. split; [eauto|].
      split. { exists u. split; [exact V5|]. apply on_iff. } split; [exact X1|]. split; [exact X2|].
      destruct (checkIfOn u).
      + injection D as <-. repeat split.
      + unfold constraintDefinition in D. rewrite bind_iff in D. destruct D as (exe & D1 & D). rewrite bind_iff in D. destruct D as (dv & D2 & D). rewrite bind_iff in D. destruct D as (out & D3 & D).
        rewrite bind_iff in D. destruct D as (tr & D4 & D). rewrite bind_iff in D. destruct D as (mt & D5 & D). rewrite bind_iff in D. destruct D as (m & D6 & D). injection D as <-. cbn.
        apply KS in D1; [|reflexivity|discriminate|nolt]. apply KR in D2; [|reflexivity|discriminate|nolt]. apply KR in D3; [|reflexivity|discriminate|nolt]. apply KR in D4; [|reflexivity|discriminate|nolt]. apply KS in D5; [|reflexivity|discriminate|nolt].
        apply surrogateModelID_iff in D6; [|exact (string_plain _ _ _ D5)]. repeat (split; [assumption|]). eauto. }
  split.
  - intros H. assert (F : Forall (fun p => kres cs p = Ok tt) constraint_keys).
    { apply constraint_keys_read. destruct H as (_ & R & I & (mf & V1 & _) & (V2 & _) & (ty & V3 & _) & (vt & (V4 & _) & _) & (u & V5 & _) & _).
      split; [|exact I]. apply readable_of. repeat constructor; eauto; apply R; apply in_b; reflexivity. }
    split; [exact F|]. now apply A.
  - intros (F & E). now apply A.
Qed.
