(** A configuration file as an example, with ways to compute what a text describes. *)
From Coq Require Import Ascii String ZArith Bool Arith Reals Lra List Lia.
From Verif Require Import Base Num RealNum StrModel StrProofs PropsStr DriverModel StrSpec DriverSpec DriverText DriverKeys DriverParts.
Import ListNotations.

(** *** computing *)
Lemma section_calc text k c : extractContentBetweenKeys text (lit k) = Ok c -> section text k c.
Proof. intros E. apply C58_extract in E. exact E. Qed.
Lemma text_calc seg k v : existsb (Ascii.eqb lt) (lit k) = false -> getString seg (lit k) = Ok v -> text_value seg k v.
Proof. intros N E. apply string_iff; [now apply nolt_b|exact E]. Qed.
Lemma required_calc seg k v : existsb (Ascii.eqb lt) (lit k) = false -> getString seg (lit k) = Ok v -> is_empty v = false -> required seg k v.
Proof. intros N E V. split; [now apply text_calc|]. now destruct v. Qed.
Lemma readable_calc seg ks : forallb (fun k => (negb (existsb (Ascii.eqb lt) (lit k)) && isOk (getString seg (lit k)))%bool) ks = true -> readable seg ks.
Proof.
  rewrite forallb_forall. intros H k I. specialize (H k I). apply andb_true_iff in H. destruct H as (H1 & H2). destruct (getString seg (lit k)) as [v|e|] eqn:E; try discriminate H2. exists v. apply text_calc; [now apply negb_true_iff|exact E].
Qed.
Lemma int_calc seg k z : existsb (Ascii.eqb lt) (lit k) = false -> getInt seg (lit k) = Ok z -> int_value seg k (if Z.eqb z (-10000000) then None else Some z).
Proof. intros N E. apply int_iff in E; [|now apply nolt_b]. destruct E as (o & V & ->). now rewrite <- (int_value_seen _ _ _ V). Qed.
Lemma number_calc t m e r (x : R) : strtod t = Some (m, e, r) -> x = (IZR m * powerRZ 10 e)%R -> (Rabs x <= ndblmax)%R -> (m = 0%Z \/ (ndblmin <= Rabs x)%R) -> number_of t x.
Proof. intros E -> H1 H2. exists m, e. split; [apply strtod_prefix; eauto|]. auto. Qed.
Lemma number_value_calc seg k t x : existsb (Ascii.eqb lt) (lit k) = false -> getString seg (lit k) = Ok t -> is_empty t = false -> number_of t x -> number_value seg k x.
Proof.
  intros N E V X. right. apply text_calc in E; [|exact N]. destruct E as [(_ & ->)|(c & L & P & D)]; [discriminate V|]. exists c, t. auto.
Qed.
Lemma missing_calc seg k : contains (opening (lit k)) seg = false -> looks_up (lit k) seg Missing.
Proof. intros C. apply contains_absent in C. now constructor. Qed.
Lemma one_of_calc t ws : forallb (fun w => str_eqb (map lower (lit w)) (lit w)) ws = true -> existsb (fun w => str_eqb (map lower t) (lit w)) ws = true -> one_of t ws.
Proof. intros H E. now apply one_of_lower. Qed.
Lemma on_calc t b : checkIfOn t = b -> (b = true <-> switched_on t).
Proof. intros <-. apply on_iff. Qed.
Definition no_tags (l : str) : bool := negb (contains con_open l || contains con_close l).
Lemma neither_calc ls : forallb no_tags ls = true -> Forall neither ls.
Proof. intros H. apply Forall_forall. intros l I. rewrite forallb_forall in H. specialize (H l I). apply negb_true_iff, orb_false_iff in H. destruct H as (H1 & H2). split; now apply contains_absent. Qed.
Lemma skip_many pre ls bs : Forall neither pre -> con_blocks ls bs -> con_blocks (pre ++ ls) bs.
Proof. induction 1; cbn [app]; auto. intros C. apply cb_skip; auto. Qed.
Lemma lines_calc text : exists ls, text_lines text ls /\ Forall2 trimmed ls (map trim_line (lines_of text)).
Proof.
  destruct (text_lines_total text) as (ls & T). exists ls. split; [exact T|]. rewrite <- (text_lines_fun _ _ T). clear T. induction ls as [|l ls IH]; cbn [map]; constructor; auto. destruct (trimmed_total l) as (t & H). now rewrite <- (trimmed_fun _ _ H).
Qed.
Lemma laid_out_calc text ts bs : map trim_line (lines_of text) = ts -> con_blocks ts bs -> laid_out text bs.
Proof. intros <- C. destruct (lines_calc text) as (ls & T & F). exists ls, (map trim_line (lines_of text)). auto. Qed.

(** *** the example *)
Definition text_of (ls : list string) : str := flat_map (fun l => lit l ++ newline) ls.
Definition demo_head : list string :=
  ["<problem>"; "<general_settings>"; "<name>wing</name>"; "<type>Optimization</type>"; "<dimension>2</dimension>"; "<number_of_function_evaluations>5</number_of_function_evaluations>"; "</general_settings>";
   "<optimization_parameters>"; "<parameter>"; "<name>x</name> <type>real</type>"; "<lower_bound>0</lower_bound> <upper_bound>1</upper_bound>"; "</parameter>";
   "<parameter>"; "<name>k</name> <type>discrete</type>"; "<lower_bound>0</lower_bound> <upper_bound> 2.0 </upper_bound> <increment>5e-1</increment>"; "</parameter>"; "</optimization_parameters>";
   "<objective_function>"; "<name>f</name>"; "<design_vector_filename>dv.dat</design_vector_filename>"; "<executable_filename>f.exe</executable_filename>"; "<training_data_filename>f.csv</training_data_filename>";
   "<output_filename>f.out</output_filename>"; "<number_of_training_iterations>700</number_of_training_iterations>"; "</objective_function>"]%string.
Definition demo_g : list string :=
  ["<constraint_function>"; "<name>g</name>"; "<constraint_type>GT</constraint_type> <constraint_value>-1.5</constraint_value>"; "<design_vector_filename>dv.dat</design_vector_filename>";
   "<output_filename>g.out</output_filename> <training_data_filename>g.csv</training_data_filename>"; "<number_of_training_iterations>300</number_of_training_iterations>"]%string.
Definition demo_h : list string := ["<constraint_function>"; "<name>h</name> <constraint_type>lt</constraint_type> <constraint_value>3</constraint_value> <user_defined_function>YES</user_defined_function>"]%string.
Definition demo_lines : list string := demo_head ++ demo_g ++ ["</constraint_function>"]%string ++ demo_h ++ ["</constraint_function>"; "</problem>"]%string.
Definition demo_text : str := text_of demo_lines.
Definition demo_blocks : list str := [text_of demo_g; text_of demo_h].
Definition demo_params : list pspec := [mkPS (lit "x") false 0 1 0; mkPS (lit "k") true 0 2 (1 / 2)].
Definition demo_obj : odef := mkOD (lit "f") (lit "dv.dat") (lit "f.exe") [] (lit "f.out") [] (lit "f.csv") false MOrdinary.
Definition demo_cg : cspec := mkCS (mkOD (lit "g") (lit "dv.dat") [] [] (lit "g.out") [] (lit "g.csv") false MOrdinary) true (-3 / 2) false.
Definition demo_ch : cspec := mkCS (mkOD (lit "h") [] [] [] [] [] [] false MOrdinary) false 3 true.
Definition demo_config : config := mkCF (lit "wing") 2 5 None None demo_params demo_obj (Some 700%Z) [demo_cg; demo_ch].

Lemma demo_laid_out : laid_out demo_text demo_blocks.
Proof.
  apply (laid_out_calc _ (map lit (demo_head ++ demo_g ++ ["</constraint_function>"]%string ++ demo_h ++ ["</constraint_function>"; "</problem>"]%string))); [vm_compute; reflexivity|]. rewrite !map_app.
  apply skip_many; [apply neither_calc; vm_compute; reflexivity|].
  change (con_blocks ((lit "<constraint_function>" :: map lit (tl demo_g) ++ lit "</constraint_function>" :: (lit "<constraint_function>" :: map lit (tl demo_h) ++ lit "</constraint_function>" :: map lit ["</problem>"]%string))) demo_blocks).
  apply (cb_block (lit "<constraint_function>") (map lit (tl demo_g))); [apply contains_has; reflexivity|apply contains_absent; reflexivity|apply neither_calc; vm_compute; reflexivity|apply contains_has; reflexivity|apply contains_absent; reflexivity|].
  apply (cb_block (lit "<constraint_function>") (map lit (tl demo_h))); [apply contains_has; reflexivity|apply contains_absent; reflexivity|apply neither_calc; vm_compute; reflexivity|apply contains_has; reflexivity|apply contains_absent; reflexivity|].
  apply (skip_many (map lit ["</problem>"]%string) []); [apply neither_calc; vm_compute; reflexivity|constructor].
Qed.

Ltac txt := apply text_calc; [reflexivity|vm_compute; reflexivity].
Ltac req := apply required_calc; [reflexivity|vm_compute; reflexivity|reflexivity].
Ltac rdb := apply readable_calc; vm_compute; reflexivity.
Ltac wrd := apply one_of_calc; vm_compute; reflexivity.
Local Open Scope R_scope.
Lemma range_max x : Rabs x <= 1000000 -> Rabs x <= @ndblmax R RNum.
Proof.
  intros H. cbn [ndblmax RNum]. change 1023%Z with (Z.of_nat 1023). change (-52)%Z with (- Z.of_nat 52)%Z. rewrite powerRZ_neg', <- !pow_powerRZ.
  assert (/ 2 ^ 52 <= 1) as A. { rewrite <- Rinv_1. apply Rinv_le_contravar; [lra|]. apply pow_R1_Rle. lra. }
  assert (2 ^ 20 <= 2 ^ 1023) as B by (apply Rle_pow; [lra|lia]). assert (1000000 <= 2 ^ 20) as C by (simpl; lra). nra.
Qed.
Lemma range_min x : / 1000000 <= Rabs x -> @ndblmin R RNum <= Rabs x.
Proof.
  intros H. eapply Rle_trans; [|exact H]. cbn [ndblmin RNum]. change (-1022)%Z with (- Z.of_nat 1022)%Z. rewrite powerRZ_neg', <- pow_powerRZ. apply Rinv_le_contravar; [lra|].
  assert (2 ^ 20 <= 2 ^ 1022) as B by (apply Rle_pow; [lra|lia]). assert (1000000 <= 2 ^ 20) as C by (simpl; lra). lra.
Qed.
Lemma number_simple t m e r x : strtod t = Some (m, e, r) -> x = IZR m * powerRZ 10 e -> (m = 0%Z /\ x = 0) \/ (/ 1000000 <= x <= 1000000) \/ (/ 1000000 <= - x <= 1000000) -> number_of t x.
Proof.
  intros E X H. apply (number_calc t m e r x E X).
  - apply range_max. destruct H as [(_ & ->)|[H|H]]; [rewrite Rabs_R0; lra|rewrite Rabs_right; lra|rewrite Rabs_left; lra].
  - destruct H as [(M & _)|[H|H]]; [now left|right|right]; apply range_min; [rewrite Rabs_right; lra|rewrite Rabs_left; lra].
Qed.
Ltac num := eapply number_simple; [vm_compute; reflexivity|cbn; try change (Pos.to_nat 1) with 1%nat; cbn; lra|first [left; split; [reflexivity|cbn; lra] | right; left; cbn; lra | right; right; cbn; lra]].
Ltac nmv := eapply number_value_calc; [reflexivity|vm_compute; reflexivity|reflexivity|num].

Definition sec (k : string) : str := match extractContentBetweenKeys demo_text (lit k) with Ok c => c | _ => [] end.
Definition demo_pts : list str := match extractContents (sec "optimization_parameters") (lit "parameter") with Ok l => l | _ => [] end.
Lemma demo_parameters : Forall2 describes_parameter demo_pts demo_params.
Proof.
  assert (exists a b, demo_pts = [a; b]) as (a & b & E) by (eexists _, _; vm_compute; reflexivity). rewrite E. vm_compute in E. injection E as <- <-. constructor; [|constructor; [|constructor]].
  - split; [txt|]. split; [discriminate|]. split. { eexists. split; [txt|wrd]. } split; [nmv|]. split; [nmv|]. split; [cbn; lra|]. exists (/ 10 ^ 13)%R. split; [left; split; [apply missing_calc; vm_compute; reflexivity|reflexivity]|reflexivity].
  - split; [txt|]. split; [discriminate|]. split. { eexists. split; [txt|wrd]. } split; [nmv|]. split; [nmv|]. split; [cbn; lra|]. exists (1 / 2)%R. split; [nmv|]. cbn. lra.
Qed.
Lemma demo_objective : describes_objective (sec "objective_function") demo_obj (Some 700%Z).
Proof.
  split; [rdb|]. split; [apply (int_calc _ _ 700%Z); [reflexivity|vm_compute; reflexivity]|]. split; [req|]. split; [req|]. split; [req|]. split; [req|]. split; [req|].
  split. { exists []. split; [txt|]. now left. } split; [reflexivity|]. now split.
Qed.
Lemma demo_constraints : Forall2 describes_constraint demo_blocks [demo_cg; demo_ch].
Proof.
  constructor; [|constructor; [|constructor]].
  - split; [discriminate|]. split; [rdb|]. split. { eexists. apply (int_calc _ _ 300%Z); [reflexivity|vm_compute; reflexivity]. }
    split. { exists []. split; [txt|]. apply on_calc; reflexivity. }
    split; [req|]. split. { eexists. split; [txt|wrd]. } split. { eexists. split; [req|]. num. } split. { exists []. split; [txt|]. apply on_calc; vm_compute; reflexivity. }
    split; [reflexivity|]. split; [reflexivity|]. cbn [cs_user demo_cg]. split; [txt|]. split; [req|]. split; [req|]. split; [req|]. exists []. split; [txt|]. now left.
  - split; [discriminate|]. split; [rdb|]. split. { exists None. apply (int_calc _ _ (-10000000)%Z); [reflexivity|vm_compute; reflexivity]. }
    split. { exists []. split; [txt|]. apply on_calc; vm_compute; reflexivity. }
    split; [req|]. split. { eexists. split; [txt|wrd]. } split. { eexists. split; [req|]. num. } split. { eexists. split; [txt|]. apply on_calc; vm_compute; reflexivity. }
    split; [reflexivity|]. split; [reflexivity|]. cbn. auto.
Qed.
Lemma demo_described : describes demo_text demo_blocks demo_config.
Proof.
  exists (sec "general_settings"), (sec "optimization_parameters"), (sec "objective_function"), demo_pts.
  split; [apply section_calc; vm_compute; reflexivity|]. split; [apply section_calc; vm_compute; reflexivity|]. split; [apply section_calc; vm_compute; reflexivity|].
  split; [rdb|]. split. { eexists. split; [txt|]. apply same_word_lit; vm_compute; reflexivity. } split; [txt|].
  split; [apply (int_calc _ _ 2%Z); [reflexivity|vm_compute; reflexivity]|]. split; [apply (int_calc _ _ 5%Z); [reflexivity|vm_compute; reflexivity]|].
  split; [apply (int_calc _ _ (-10000000)%Z); [reflexivity|vm_compute; reflexivity]|]. split; [apply (int_calc _ _ (-10000000)%Z); [reflexivity|vm_compute; reflexivity]|].
  split; [apply C58_contents; vm_compute; reflexivity|]. split; [exact demo_parameters|]. split; [exact demo_objective|exact demo_constraints].
Qed.
Lemma demo_acceptable : acceptable demo_config.
Proof.
  split; [discriminate|]. split; [discriminate|]. split; [reflexivity|]. split; [repeat constructor; cbn; lra|]. split; [repeat constructor; cbn; intuition discriminate|]. split; [discriminate|].
  intros i k E _. assert (i < length (cf_cons demo_config))%nat as L by (apply nth_error_Some; congruence). cbn in L. lia.
Qed.

(** *** variations: another general section, more lines in the objective function, other constraints *)
Definition demo_with (more tail : list string) : str := text_of (firstn 18 demo_head ++ more ++ skipn 18 demo_head ++ tail).
Definition sec_in (text : str) (k : string) : str := match extractContentBetweenKeys text (lit k) with Ok c => c | _ => [] end.
Definition unclosed_text : str := demo_with [] demo_g.
Definition bare_config : config := mkCF (lit "wing") 2 5 None None demo_params demo_obj (Some 700%Z) [].
Lemma unclosed_described : describes unclosed_text [] bare_config.
Proof.
  exists (sec "general_settings"), (sec "optimization_parameters"), (sec "objective_function"), demo_pts.
  split; [apply section_calc; vm_compute; reflexivity|]. split; [apply section_calc; vm_compute; reflexivity|]. split; [apply section_calc; vm_compute; reflexivity|].
  split; [rdb|]. split. { eexists. split; [txt|]. apply same_word_lit; vm_compute; reflexivity. } split; [txt|].
  split; [apply (int_calc _ _ 2%Z); [reflexivity|vm_compute; reflexivity]|]. split; [apply (int_calc _ _ 5%Z); [reflexivity|vm_compute; reflexivity]|].
  split; [apply (int_calc _ _ (-10000000)%Z); [reflexivity|vm_compute; reflexivity]|]. split; [apply (int_calc _ _ (-10000000)%Z); [reflexivity|vm_compute; reflexivity]|].
  split; [apply C58_contents; vm_compute; reflexivity|]. split; [exact demo_parameters|]. split; [exact demo_objective|constructor].
Qed.
Lemma bare_acceptable : acceptable bare_config.
Proof.
  split; [discriminate|]. split; [discriminate|]. split; [reflexivity|]. split; [repeat constructor; cbn; lra|]. split; [repeat constructor; cbn; intuition discriminate|]. split; [discriminate|].
  intros i k E _. destruct i; discriminate E.
Qed.
(** a surrogate model with derivatives *)
Definition tangent_text : str := demo_with ["<surrogate_model_type>Tangent_Enhanced</surrogate_model_type>"]%string ["</problem>"]%string.
Definition tangent_config : config := mkCF (lit "wing") 2 5 None None demo_params (mkOD (lit "f") (lit "dv.dat") (lit "f.exe") [] (lit "f.out") [] (lit "f.csv") false MTangent) (Some 700%Z) [].
Lemma tangent_described : describes tangent_text [] tangent_config.
Proof.
  exists (sec "general_settings"), (sec "optimization_parameters"), (sec_in tangent_text "objective_function"), demo_pts.
  split; [apply section_calc; vm_compute; reflexivity|]. split; [apply section_calc; vm_compute; reflexivity|]. split; [apply section_calc; vm_compute; reflexivity|].
  split; [rdb|]. split. { eexists. split; [txt|]. apply same_word_lit; vm_compute; reflexivity. } split; [txt|].
  split; [apply (int_calc _ _ 2%Z); [reflexivity|vm_compute; reflexivity]|]. split; [apply (int_calc _ _ 5%Z); [reflexivity|vm_compute; reflexivity]|].
  split; [apply (int_calc _ _ (-10000000)%Z); [reflexivity|vm_compute; reflexivity]|]. split; [apply (int_calc _ _ (-10000000)%Z); [reflexivity|vm_compute; reflexivity]|].
  split; [apply C58_contents; vm_compute; reflexivity|]. split; [exact demo_parameters|]. split; [|constructor].
  split; [rdb|]. split; [apply (int_calc _ _ 700%Z); [reflexivity|vm_compute; reflexivity]|]. split; [req|]. split; [req|]. split; [req|]. split; [req|]. split; [req|].
  split. { eexists. split; [txt|]. right. wrd. } split; [reflexivity|]. now split.
Qed.
Lemma tangent_laid_out : laid_out tangent_text [].
Proof.
  apply (laid_out_calc _ (map trim_line (lines_of tangent_text) ++ [])); [symmetry; apply app_nil_r|]. apply skip_many; [apply neither_calc; vm_compute; reflexivity|constructor].
Qed.
Lemma tangent_acceptable : acceptable tangent_config.
Proof. exact bare_acceptable. Qed.
(** the last element of a constraint on the line of the closing tag *)
Definition last_line_text : str := demo_with [] ["<constraint_function>"; "<name>v</name>"; "<constraint_type>lt</constraint_type> <user_defined_function>YES</user_defined_function>"; "<constraint_value>3</constraint_value> </constraint_function>"]%string.
Definition last_line_block : str := text_of ["<constraint_function>"; "<name>v</name>"; "<constraint_type>lt</constraint_type> <user_defined_function>YES</user_defined_function>"]%string.
Definition last_line_c : cspec := mkCS (mkOD (lit "v") [] [] [] [] [] [] false MOrdinary) false 3 true.
Lemma last_line_section : section last_line_text "constraint_function" (sec_in last_line_text "constraint_function").
Proof. apply section_calc. vm_compute. reflexivity. Qed.
Lemma last_line_described : describes_constraint (sec_in last_line_text "constraint_function") last_line_c.
Proof.
  split; [discriminate|]. split; [rdb|]. split. { exists None. apply (int_calc _ _ (-10000000)%Z); [reflexivity|vm_compute; reflexivity]. }
  split. { exists []. split; [txt|]. apply on_calc; vm_compute; reflexivity. }
  split; [req|]. split. { eexists. split; [txt|wrd]. } split. { eexists. split; [req|]. num. } split. { eexists. split; [txt|]. apply on_calc; vm_compute; reflexivity. }
  split; [reflexivity|]. split; [reflexivity|]. cbn. auto.
Qed.
(** a parameter without a lower bound *)
Definition no_lower_text : str := lit "<name>x</name><type>real</type><upper_bound>5</upper_bound>".
Lemma no_lower_described : describes_parameter no_lower_text (mkPS (lit "x") false (/ 10 ^ 13) 5 0).
Proof.
  split; [txt|]. split; [discriminate|]. split. { eexists. split; [txt|wrd]. } cbn [ps_lb ps_ub ps_inc ps_discrete]. split. { left. split; [apply missing_calc; vm_compute; reflexivity|reflexivity]. } split; [nmv|].
  split. { apply Rle_trans with 1; [|lra]. rewrite <- Rinv_1. apply Rinv_le_contravar; [lra|]. apply pow_R1_Rle. lra. }
  exists (/ 10 ^ 13)%R. split; [left; split; [apply missing_calc; vm_compute; reflexivity|reflexivity]|reflexivity].
Qed.
