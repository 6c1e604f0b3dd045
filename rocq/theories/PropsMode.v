(** C105: the modes of an objective function, designs added to its training data, and the gradient of the best design. *)
From Coq Require Import Ascii String ZArith Bool Arith Reals Lra List Lia.
From Verif Require Import Base StM Num RealNum VecModel MatModel MatLemmas MatSpec VecProofs MatProofs MatProofs2 BoundsModel DesignModel HistModel HistProofs DataModel DataSpec DataProofs DataReal CorrModel KrigModel KrigSpec KrigProg KrigProofs KrigProofs2 KrigProofs3 KrigProofs4 TrainModel
  StrModel StrSpec StrReal DriverModel DriverDemo ExtModel ExtProofs CsvModel CsvSpec CsvProofs StudyModel ModeModel PropsKrig PropsCsv.
Import ListNotations.
Local Open Scope R_scope.

(** the texts accepted as a mode *)
Definition settable (m : str) : Prop := m = lit "primal" \/ m = lit "adjoint" \/ m = lit "tangent".
(** an objective function on which no mode was set yet *)
Definition without_modes (s : objf) : Prop := o_eval s = [] /\ o_add s = [].
(** a single-level function whose training data file is named and whose surrogate model is initialised *)
Definition usable (s : objf) : Prop := o_named s <> [] /\ o_init s = true /\ o_multi s = false.

Lemma validMode_iff m : validMode m = true <-> settable m.
Proof.
  unfold validMode, settable. cbn [existsb]. rewrite !orb_true_iff, !str_eqb_eq. split.
  - intros [H|[H|[H|H]]]; auto. discriminate.
  - intros [H|[H|H]]; auto.
Qed.
Lemma settable_nonempty m : settable m -> is_empty m = false.
Proof. intros [->|[->| ->]]; reflexivity. Qed.
Lemma str_eqb_no (a b : str) : a <> b -> str_eqb a b = false.
Proof. intros H. destruct (str_eqb a b) eqn:E; auto. apply str_eqb_eq in E. contradiction. Qed.
Lemma str_eqb_same (a : str) : str_eqb a a = true.
Proof. now apply str_eqb_eq. Qed.

Theorem C105_set_mode m s :
  (settable m -> setEvaluationMode m s = (mkObj m (o_add s) (o_named s) (o_init s) (o_multi s) (o_sm s) (o_fs s), Ok tt) /\
                 setDataAddMode m s = (mkObj (o_eval s) m (o_named s) (o_init s) (o_multi s) (o_sm s) (o_fs s), Ok tt)) /\
  (~ settable m -> setEvaluationMode m s = (s, Throw InvalidArgument) /\ setDataAddMode m s = (s, Throw InvalidArgument)).
Proof.
  unfold setEvaluationMode, setDataAddMode, sbind, sthrow_if, sret, smod, sthrow. split; intros H.
  - rewrite (settable_nonempty m H), (proj2 (validMode_iff m) H). auto.
  - destruct (is_empty m); auto. destruct (validMode m) eqn:E; auto. apply validMode_iff in E. contradiction.
Qed.
Print Assumptions C105_set_mode.

Section C105.
  Context (fmt : R -> R) (lowfi : str -> design R -> list nat -> SM objf unit) (prog : str -> files -> option (files * Z)) (writable : str -> bool) (shown : R -> str).
  Notation calls := (ocalls fmt lowfi prog writable shown).
  Notation addHow := (addDesignToDataHow fmt).
  Notation add := (addDesignToData fmt lowfi).
  Notation evaluate := (evaluateDesignIn prog writable shown).

  (** what evaluating a design does: the mode becomes "primal" and the function is evaluated as in C88, whatever modes were set *)
  Theorem C105_evaluation dim od fn d s :
    (length (ds_x d) <> dim -> evaluate dim od fn d s = (s, Throw InvalidArgument)) /\
    (length (ds_x d) = dim -> exists fs' r, evaluate dim od fn d s = (mkObj (lit "primal") (o_add s) (o_named s) (o_init s) (o_multi s) (o_sm s) fs', r) /\
       match fn with
       | Some f => fs' = o_fs s /\ r = Ok (f (ds_x d))
       | None => evaluateExternally prog writable shown dim od (ds_x d) (o_fs s) = (fs', r)
       end).
  Proof.
    unfold evaluateDesignIn. split; intros H.
    - unfold sbind at 1, sthrow_if at 1. apply Nat.eqb_neq in H. rewrite H. reflexivity.
    - unfold sbind at 1, sthrow_if at 1. assert (Nat.eqb (length (ds_x d)) dim = true) as B by now apply Nat.eqb_eq. rewrite B. cbn [negb]. unfold sret at 1. unfold sbind at 1.
      rewrite (proj1 (proj1 (C105_set_mode (lit "primal") s) (or_introl eq_refl))). destruct fn as [f|]. { eexists _, _. split; [reflexivity|auto]. }
      unfold evaluateExternally. unfold sbind at 5, sthrow_if at 1. rewrite B. cbn [negb]. unfold sret at 2.
      unfold writeDesignIn. unfold sbind at 1. unfold sbind at 1, sget at 1. unfold sbind at 1, szoom at 1. cbn [o_fs o_eval].
      unfold sbind at 4. destruct (writeDesign writable shown dim (od_dv od) (ds_x d) (o_fs s)) as [f1 [[]|e|]] eqn:W.
      2,3: eexists _, _; split; reflexivity.
      change (str_eqb (lit "primal") (lit "tangent") || str_eqb (lit "primal") (lit "tangentLowFi"))%bool with false. unfold swhen, sret at 1. cbv iota.
      unfold sbind at 1. unfold runIn. unfold sbind at 1. unfold checkPrimal. unfold sbind at 1, sget at 1. unfold oset_fs at 1 2 3. cbn [o_eval o_fs o_add o_named o_init o_multi o_sm]. change (is_empty (lit "primal")) with false.
      change (str_eqb (lit "primal") (lit "primal")) with true. unfold sthrow_if, sret. cbn [negb andb]. unfold sbind at 1. unfold szoom at 1. unfold oset_fs at 1 2 3 4. cbn [o_eval o_fs o_add o_named o_init o_multi o_sm].
      unfold sbind at 2. destruct (runProgram prog (od_exe od) f1) as [f2 [[]|e|]]. 2,3: eexists _, _; split; reflexivity.
      unfold oset_fs. cbn [o_eval o_fs o_add o_named o_init o_multi o_sm]. unfold sbind, szoom. cbn [o_eval o_fs o_add o_named o_init o_multi o_sm].
      destruct (readOutput (od_out od) 1 f2) as [f3 [[|v l]|e|]]; eexists _, _; split; reflexivity.
  Qed.

  (** adding: the state is changed in the surrogate model and its file only *)
  Lemma addSingle_sm how d perm s : fst (addSingle fmt how d perm s) = oset_sm (o_sm (fst (addSingle fmt how d perm s))) s.
  Proof.
    unfold addSingle, sbind, slift. assert (s = oset_sm (o_sm s) s) as Q by (destruct s; reflexivity). destruct (sampleFor how d) as [v|e|]; cbn [fst]; auto. unfold sassert. destruct (Nat.ltb 0 (length v)); cbn [fst]; auto.
    unfold sret, szoom. destruct (addSample fmt v perm (o_sm s)); destruct s; reflexivity.
  Qed.
  Lemma addHow_sm how d perm s : fst (addHow d how perm s) = oset_sm (o_sm (fst (addHow d how perm s))) s /\ (o_multi s = true -> fst (addHow d how perm s) = s).
  Proof.
    assert (s = oset_sm (o_sm s) s) as Q by (destruct s; reflexivity). unfold addDesignToDataHow. unfold sbind at 1 2 3 4 5 6 7 8 9 10 11 12, sget, sthrow_if.
    destruct (is_empty (o_named s)); cbn [fst sthrow]; auto. unfold sret. destruct (negb (o_init s)); cbn [fst sthrow]; auto. destruct (is_empty how); cbn [fst sthrow]; auto.
    destruct (o_multi s). { auto. } split; [apply addSingle_sm|discriminate].
  Qed.
  Lemma add_sm d perm s : o_add s = [] \/ settable (o_add s) -> fst (add d perm s) = oset_sm (o_sm (fst (add d perm s))) s /\ (o_multi s = true -> fst (add d perm s) = s).
  Proof.
    assert (s = oset_sm (o_sm s) s) as Q by (destruct s; reflexivity). intros A. unfold addDesignToData. unfold sbind, sget, sassert.
    destruct (negb (is_empty (o_named s))); cbn [fst sthrow]; auto. unfold sret. destruct (o_init s); cbn [fst sthrow]; auto.
    destruct A as [A|A]. { rewrite A. cbn [is_empty negb fst sthrow]. auto. } rewrite (settable_nonempty _ A). cbn [negb].
    destruct (o_multi s). 2:{ split; [apply addSingle_sm|discriminate]. }
    rewrite (str_eqb_no (o_add s) (lit "primalBoth")), (str_eqb_no (o_add s) (lit "primalHiFiAdjointLowFi")); auto; destruct A as [->|[->| ->]]; discriminate.
  Qed.

  (** whatever is called: a mode is never set, or one of the three; the name of the file, the initialisation and the level stay; the
      surrogate model of a multi-level function and its data are never touched *)
  Theorem C105_modes l s : without_modes s ->
    (o_eval (calls l s) = [] \/ settable (o_eval (calls l s))) /\ (o_add (calls l s) = [] \/ settable (o_add (calls l s))) /\
    o_named (calls l s) = o_named s /\ o_init (calls l s) = o_init s /\ o_multi (calls l s) = o_multi s /\ (o_multi s = true -> o_sm (calls l s) = o_sm s).
  Proof.
    intros (E0 & A0). assert (o_eval s = [] \/ settable (o_eval s)) as E by auto. assert (o_add s = [] \/ settable (o_add s)) as A by auto. clear E0 A0.
    revert s E A. induction l as [|c l IH]; intros s E A. { cbn. auto 8. }
    unfold ocalls. cbn [fold_left]. fold (calls l (fst (ocall_run fmt lowfi prog writable shown c s))).
    assert ((o_eval (fst (ocall_run fmt lowfi prog writable shown c s)) = [] \/ settable (o_eval (fst (ocall_run fmt lowfi prog writable shown c s)))) /\
      (o_add (fst (ocall_run fmt lowfi prog writable shown c s)) = [] \/ settable (o_add (fst (ocall_run fmt lowfi prog writable shown c s)))) /\
      o_named (fst (ocall_run fmt lowfi prog writable shown c s)) = o_named s /\ o_init (fst (ocall_run fmt lowfi prog writable shown c s)) = o_init s /\ o_multi (fst (ocall_run fmt lowfi prog writable shown c s)) = o_multi s /\
      (o_multi s = true -> o_sm (fst (ocall_run fmt lowfi prog writable shown c s)) = o_sm s)) as (E1 & A1 & N1 & I1 & M1 & S1).
    { destruct c as [m|m|dim od fn d|d perm|d how perm]; cbn [ocall_run].
      - destruct (validMode m) eqn:V.
        + apply validMode_iff in V. rewrite (proj1 (proj1 (C105_set_mode m s) V)). cbn. auto 8.
        + rewrite (proj1 (proj2 (C105_set_mode m s) ltac:(intros H; apply validMode_iff in H; congruence))). cbn. auto 8.
      - destruct (validMode m) eqn:V.
        + apply validMode_iff in V. rewrite (proj2 (proj1 (C105_set_mode m s) V)). cbn. auto 8.
        + rewrite (proj2 (proj2 (C105_set_mode m s) ltac:(intros H; apply validMode_iff in H; congruence))). cbn. auto 8.
      - unfold sbind. destruct (Nat.eq_dec (length (ds_x d)) dim) as [H|H].
        + destruct (proj2 (C105_evaluation dim od fn d s) H) as (fs' & r & -> & _). assert (settable (lit "primal")) by (left; auto). destruct r; cbn; auto 8.
        + rewrite (proj1 (C105_evaluation dim od fn d s) H). cbn. auto 8.
      - destruct (add_sm d perm s A) as (Q1 & Q2). split; [rewrite Q1; auto|]. split; [rewrite Q1; auto|]. split; [rewrite Q1; auto|]. split; [rewrite Q1; auto|]. split; [rewrite Q1; auto|]. intros M. rewrite Q2; auto.
      - destruct (addHow_sm how d perm s) as (Q1 & Q2). split; [rewrite Q1; auto|]. split; [rewrite Q1; auto|]. split; [rewrite Q1; auto|]. split; [rewrite Q1; auto|]. split; [rewrite Q1; auto|]. intros M. rewrite Q2; auto. }
    destruct (IH _ E1 A1) as (H1 & H2 & H3 & H4 & H5 & H6). split; auto. split; auto. split; [congruence|]. split; [congruence|]. split; [congruence|]. intros M. rewrite H6; auto. congruence.
  Qed.

  (** the claim "a design added to the data of an initialised function is in its data, or the call fails" is false for a multi-level
      function: after any calls, both ways of adding return normally and nothing is added *)
  Theorem C105_multi_level_refuted l s d perm m how : without_modes s -> o_multi s = true -> o_named s <> [] -> o_init s = true -> settable m -> how <> [] ->
    addHow d how perm (calls l s) = (calls l s, Ok tt) /\
    add d perm (calls (l ++ [CallAddMode m]) s) = (calls (l ++ [CallAddMode m]) s, Ok tt) /\
    o_sm (calls (l ++ [CallAddMode m]) s) = o_sm s.
  Proof.
    intros F M N I V H. destruct (C105_modes l s F) as (_ & _ & N1 & I1 & M1 & _). destruct (C105_modes (l ++ [CallAddMode m]) s F) as (_ & _ & N2 & I2 & M2 & S2).
    split; [|split; [|auto]].
    - unfold addDesignToDataHow, sbind, sget, sthrow_if. rewrite N1, I1, M1, M, I. destruct (o_named s); [congruence|]. destruct how; [congruence|]. reflexivity.
    - assert (o_add (calls (l ++ [CallAddMode m]) s) = m) as A. { unfold ocalls. rewrite fold_left_app. cbn [fold_left ocall_run]. rewrite (proj2 (proj1 (C105_set_mode m _) V)). reflexivity. }
      unfold addDesignToData, sbind, sget, sassert. rewrite N2, I2, M2, M, I, A. destruct (o_named s); [congruence|]. rewrite (settable_nonempty m V). cbn [is_empty negb sret].
      rewrite (str_eqb_no m (lit "primalBoth")), (str_eqb_no m (lit "primalHiFiAdjointLowFi")); auto; destruct V as [->|[->| ->]]; discriminate.
  Qed.

  (** the preconditions *)
  Theorem C105_refused d how perm s :
    (o_named s = [] \/ o_init s = false \/ how = [] -> addHow d how perm s = (s, Throw RuntimeError)) /\
    (o_named s = [] \/ o_init s = false \/ o_add s = [] -> add d perm s = (s, Throw AssertFail)) /\
    (usable s -> how <> [] -> ~ settable how -> how <> lit "adjointWithZeroGradient" -> addHow d how perm s = (s, Throw AssertFail)).
  Proof.
    split; [|split].
    - intros H. unfold addDesignToDataHow, sbind, sget, sthrow_if. destruct (o_named s); [reflexivity|]. destruct (o_init s); [|reflexivity]. destruct how; [reflexivity|]. destruct H as [H|[H|H]]; discriminate.
    - intros H. unfold addDesignToData, sbind, sget, sassert. destruct (o_named s); [reflexivity|]. destruct (o_init s); [|reflexivity]. destruct (o_add s) eqn:E; [reflexivity|]. destruct H as [H|[H|H]]; discriminate.
    - intros (N & I & M) H V G. unfold addDesignToDataHow, sbind, sget, sthrow_if. rewrite I, M. destruct (o_named s); [congruence|]. destruct how as [|c h] eqn:Q; [congruence|]. rewrite <- Q in *. replace (is_empty how) with false by (rewrite Q; reflexivity).
      cbn [is_empty negb sret]. unfold addSingle, sbind, slift, sampleFor.
      rewrite (str_eqb_no how (lit "primal")), (str_eqb_no how (lit "tangent")), (str_eqb_no how (lit "adjoint")), (str_eqb_no how (lit "adjointWithZeroGradient")); auto; intros ->; apply V; unfold settable; auto.
  Qed.

  (** single-level functions: both ways of adding hand over the sample of the mode *)
  Lemma addHow_single d how perm s : usable s -> how <> [] -> addHow d how perm s = addSingle fmt how d perm s.
  Proof.
    intros (N & I & M) H. unfold addDesignToDataHow, sbind at 1 2 3 4, sget, sthrow_if. rewrite I, M. destruct (o_named s); [congruence|]. destruct how; [congruence|]. reflexivity.
  Qed.
  Lemma add_single d perm s : usable s -> o_add s <> [] -> add d perm s = addSingle fmt (o_add s) d perm s.
  Proof.
    intros (N & I & M) H. unfold addDesignToData, sbind at 1 2 3 4, sget, sassert. rewrite I, M. destruct (o_named s); [congruence|]. destruct (o_add s); [congruence|]. reflexivity.
  Qed.
  Lemma addSingle_primal d perm s : length (ds_x d) = ds_dim d -> addSingle fmt (lit "primal") d perm s = szoom o_sm oset_sm (addSample fmt (ds_x d ++ [ds_f d]) perm) s.
  Proof.
    intros H. unfold addSingle, sbind, slift, sampleFor. change (str_eqb (lit "primal") (lit "primal")) with true. unfold sample_obj. rewrite sample_plain by auto. cbn [bind].
    change (str_eqb (lit "primal") (lit "tangent")) with false. change (str_eqb (lit "primal") (lit "adjoint")) with false. change (str_eqb (lit "primal") (lit "adjointWithZeroGradient")) with false. cbn [bind].
    unfold sassert. rewrite app_length. cbn [length]. replace (Nat.ltb 0 (length (ds_x d) + 1)) with true by (symmetry; apply Nat.ltb_lt; lia). reflexivity.
  Qed.

  (** the calls one after the other are the offers of C35 *)
  Definition with_data (w : krig R * mat R) (s : objf) : objf := oset_sm (mkSm (tset_k (fst w) (m_tr (o_sm s))) (snd w)) s.
  Definition data_of (s : objf) : krig R * mat R := (t_k (m_tr (o_sm s)), m_file (o_sm s)).
  Lemma data_with w s : data_of (with_data w s) = w.
  Proof. destruct w. reflexivity. Qed.
  Lemma with_with w w' s : with_data w' (with_data w s) = with_data w' s.
  Proof. destruct s as [? ? ? ? ? [[? ? ? ?] ?] ?]. reflexivity. Qed.
  Lemma with_same s : with_data (data_of s) s = s.
  Proof. destruct s as [? ? ? ? ? [[? ? ? ?] ?] ?]. reflexivity. Qed.
  Lemma primal_step d p s : usable s -> length (ds_x d) = ds_dim d -> addHow d (lit "primal") p s = (let '(w, r) := krig_addSample fmt (ds_x d ++ [ds_f d]) p (data_of s) in (with_data w s, r)) /\
    (o_add s = lit "primal" -> add d p s = addHow d (lit "primal") p s).
  Proof.
    intros U L. rewrite (addHow_single d (lit "primal") p s U) by discriminate. split.
    - rewrite addSingle_primal by auto. unfold szoom, addSample, szoom. unfold data_of. destruct (krig_addSample fmt (ds_x d ++ [ds_f d]) p _) as [[k f] r]. reflexivity.
    - intros Q. rewrite add_single, Q; auto. rewrite Q. discriminate.
  Qed.
  Lemma primal_loop ds : forall s, usable s -> (forall d p, In (d, p) ds -> length (ds_x d) = ds_dim d) ->
    sfor ds (fun q => addHow (fst q) (lit "primal") (snd q)) s =
      (let '(w, r) := sfor (map (fun q => (ds_x (fst q) ++ [ds_f (fst q)], snd q)) ds) (fun q => krig_addSample fmt (fst q) (snd q)) (data_of s) in (with_data w s, r)) /\
    (o_add s = lit "primal" -> sfor ds (fun q => add (fst q) (snd q)) s = sfor ds (fun q => addHow (fst q) (lit "primal") (snd q)) s).
  Proof.
    induction ds as [|(d & p) ds IH]; intros s U HD. { cbn. rewrite with_same. auto. }
    cbn [sfor map fst snd]. destruct (primal_step d p s U (HD d p (or_introl eq_refl))) as (E & A). unfold sbind. rewrite E in *. destruct (krig_addSample fmt (ds_x d ++ [ds_f d]) p (data_of s)) as [w r].
    destruct (IH (with_data w s) U ltac:(intros; apply (HD d0 p0); right; auto)) as (E' & A'). split.
    - destruct r as [[]| |]; auto. rewrite E', data_with. destruct (sfor _ _ w) as [w' r']. rewrite with_with. reflexivity.
    - intros Q. rewrite A by auto. destruct r as [[]| |]; auto.
  Qed.

  (** designs added one after the other in the mode "primal" to a Kriging model just fitted: no call fails; the file gets every sample
      that is not close to a row already there, and for eps > 0 the model is the Kriging model of the final table; nothing else changes *)
  Theorem C105_added lin d b eps file perm hs th ga k ds s : setup lin d b eps file hs th ga -> krig_session lin d b eps 0 file perm hs krig_new = (k, Ok tt) ->
    usable s -> t_k (m_tr (o_sm s)) = k -> m_file (o_sm s) = file -> (forall q p, In (q, p) ds -> ds_dim q = d /\ length (ds_x q) = d) ->
    exists s' k' file', sfor ds (fun q => addHow (fst q) (lit "primal") (snd q)) s = (s', Ok tt) /\ t_k (m_tr (o_sm s')) = k' /\ m_file (o_sm s') = file' /\
      offered fmt (rows file) (map (fun q => ds_x (fst q) ++ [ds_f (fst q)]) ds) (rows file') /\ d_raw (k_data k') = file' /\
      (0 < eps -> exists c w, let pts := points b d (rows file') in let y := output d (rows file') in
         kriging d th ga eps pts (fun i => y i - trend lin d c (nth i pts [])) (k_beta0 k') w (k_s2 k') /\
         forall i, (i < nrows file')%nat -> krig_interpolate k' (nth i pts []) = Ok (y i - eps * w i)) /\
      s' = mkObj (o_eval s) (o_add s) (o_named s) (o_init s) (o_multi s) (o_sm s') (o_fs s) /\
      (o_add s = lit "primal" -> sfor ds (fun q => add (fst q) (snd q)) s = (s', Ok tt)).
  Proof.
    intros S0 K U EK EF HD.
    destruct (C35_sequence_of_samples lin d b eps file perm hs th ga fmt (map (fun q => (ds_x (fst q) ++ [ds_f (fst q)], snd q)) ds) S0) as (k0 & k' & file' & K0 & E & Of & R1 & _ & _ & P).
    { apply Forall_forall. intros q I. apply in_map_iff in I. destruct I as ((q0 & p0) & <- & I). cbn [fst snd]. rewrite app_length, (proj2 (HD q0 p0 I)). cbn. lia. }
    assert (k0 = k) by congruence. subst k0. destruct (primal_loop ds s U) as (E1 & A1). { intros q p I. destruct (HD q p I). congruence. }
    unfold data_of in E1. rewrite EK, EF, E in E1. rewrite map_map in Of. cbn [fst] in Of.
    exists (with_data (k', file') s), k', file'. split; [exact E1|]. split; [reflexivity|]. split; [reflexivity|]. split; [exact Of|]. split; [exact R1|]. split; [exact P|]. split; [reflexivity|].
    intros Q. rewrite A1; auto.
  Qed.

  (** in the other modes the sample holds the derivatives: a Kriging model refuses it and nothing changes *)
  Theorem C105_derivatives_refused d how perm s : usable s -> how = lit "tangent" \/ how = lit "adjoint" \/ how = lit "adjointWithZeroGradient" ->
    (0 < ds_dim d)%nat -> length (ds_x d) = ds_dim d -> d_dim (k_data (t_k (m_tr (o_sm s)))) = ds_dim d ->
    exists e, addHow d how perm s = (s, Throw e) /\ (o_add s = how -> add d perm s = (s, Throw e)) /\
      (e = RuntimeError /\ length (if str_eqb how (lit "tangent") then ds_dir d else ds_grad d) = ds_dim d \/
       e = InvalidArgument /\ length (if str_eqb how (lit "tangent") then ds_dir d else ds_grad d) <> ds_dim d).
  Proof.
    intros U H P L K. assert (how <> []) as NE by (destruct H as [->|[->| ->]]; discriminate).
    assert (exists e, addSingle fmt how d perm s = (s, Throw e) /\ (e = RuntimeError /\ length (if str_eqb how (lit "tangent") then ds_dir d else ds_grad d) = ds_dim d \/
       e = InvalidArgument /\ length (if str_eqb how (lit "tangent") then ds_dir d else ds_grad d) <> ds_dim d)) as (e & E & D).
    2:{ exists e. split; [rewrite addHow_single; auto|]. split; [|exact D]. intros Q. rewrite add_single; rewrite ?Q; auto. }
    assert (forall v, (length v <> ds_dim d + 1)%nat -> length v <> 0%nat -> (run sassert (Nat.ltb 0 (length v)); szoom o_sm oset_sm (addSample fmt v perm)) s = (s, Throw RuntimeError)) as X.
    { intros v Hv Hz. unfold sbind, sassert. replace (Nat.ltb 0 (length v)) with true by (symmetry; apply Nat.ltb_lt; lia). unfold sret, szoom. unfold addSample, szoom. rewrite C35_wrong_size_rejected by congruence.
      destruct s as [? ? ? ? ? [[? ? ? ?] ?] ?]. reflexivity. }
    unfold addSingle. unfold sbind at 1, slift at 1. unfold sampleFor.
    destruct H as [->|[->| ->]]; repeat match goal with |- context [str_eqb ?a ?b] => let v := eval vm_compute in (str_eqb a b) in change (str_eqb a b) with v end; cbn [bind].
    - unfold sample_objT. destruct (Nat.eqb_spec (length (ds_dir d)) (ds_dim d)) as [Q|Q]; cbn [negb bind]. 2:{ exists InvalidArgument. auto. }
      rewrite sample_with2 by auto. cbn [bind]. exists RuntimeError. split; auto. apply X; rewrite !app_length; cbn [length]; lia.
    - unfold sample_objG. destruct (Nat.eqb_spec (length (ds_grad d)) (ds_dim d)) as [Q|Q]; cbn [negb bind]. 2:{ exists InvalidArgument. auto. }
      rewrite sample_with by auto. cbn [bind]. exists RuntimeError. split; auto. apply X; rewrite !app_length; cbn [length]; lia.
    - unfold sample_objG0. destruct (Nat.eqb_spec (length (ds_grad d)) (ds_dim d)) as [Q|Q]; cbn [negb bind]. 2:{ exists InvalidArgument. auto. }
      rewrite sample_with by (auto; apply repeat_length). exists RuntimeError. split; auto. apply X; rewrite !app_length, ?repeat_length; cbn [length]; lia.
  Qed.
End C105.
Print Assumptions C105_evaluation.
Print Assumptions C105_modes.
Print Assumptions C105_multi_level_refuted.
Print Assumptions C105_refused.
Print Assumptions C105_added.
Print Assumptions C105_derivatives_refused.

(** ** the gradient of the best design *)
(** a row whose first entries are the parameters [x], up to 1e-5 *)
Definition near (x r : list R) : Prop := forall j, (j < length x)%nat -> Rabs (nth j r 0 - nth j x 0) <= 1 / 10 ^ 5.
(** a file that holds a table of rows of the same length *)
Definition file_table (fs : files) (name : str) (w : nat) (rs : list (list R)) : Prop :=
  exists t lines, fs name = Some t /\ cut newline_char t lines /\ text_numbers lines rs /\ rs <> [] /\ forall r, In r rs -> length r = w.

Lemma file_table_read fs name w rs : file_table fs name w rs -> exists m, mat_readFromCSV name false fs = (fs, Ok m) /\ rows m = rs /\ ncols m = w /\ nrows m = length rs /\ (0 < nrows m)%nat.
Proof.
  intros (t & lines & E & C & TN & NE & L). assert (exists m, fillMatrix rs = Ok m) as (m & FM).
  { unfold fillMatrix. destruct rs as [|q0 qs']; [congruence|]. replace (forallb _ _) with true; [eauto|]. symmetry. apply forallb_forall. intros q I. apply Nat.eqb_eq. rewrite (L q I), (L q0); [reflexivity|now left]. }
  apply fillMatrix_iff in FM. exists m. split. { apply C93_matrix. split; [reflexivity|]. exists t, lines, rs. tauto. }
  destruct FM as (_ & HR). pose proof HR as (H1 & H2 & H3 & _). split. { apply (has_rows_eq m); auto. apply has_rows_rows. auto. }
  destruct rs as [|q0 qs]; [congruence|]. split. { rewrite <- (H2 q0), (L q0); auto; now left. } split; auto. rewrite H1. cbn. lia.
Qed.

(** the lemma on the search, with the first row found *)
Lemma find_first (m : mat R) (x : list R) tol i : wf m -> length x = ncols m -> (i < nrows m)%nat -> (forall j, (j < length x)%nat -> Rabs (nth j (nth i (rows m) []) 0 - nth j x 0) <= tol) ->
  (forall k, (k < i)%nat -> ~ forall j, (j < length x)%nat -> Rabs (nth j (nth k (rows m) []) 0 - nth j x 0) <= tol) -> mat_findRowIndex m x tol = Ok (Z.of_nat i).
Proof.
  intros W L Hi Hm Hb. unfold mat_findRowIndex. rewrite L, Nat.eqb_refl. cbn [negb].
  assert (forall i, (i < nrows m)%nat -> (row_matches m x tol i = true <-> forall j, (j < ncols m)%nat -> Rabs (nth j (nth i (rows m) []) 0 - nth j x 0) <= tol)) as RM.
  { clear i Hi Hm Hb. intros i Hi. unfold row_matches. rewrite forallb_seq. rewrite nth_rows by auto. assert (forall j, (j < ncols m)%nat -> nth j (mrow m i) 0 = mget m i j) as G.
    { intros j Hj. change (vget (mrow m i) j = mget m i j). unfold mrow. rewrite vget_vbuild; auto. }
    split; intros H j Hj; specialize (H j Hj); rewrite ?G in * by auto; simpl in *; unfold vget in *; simpl in *; destruct (Rltb_spec tol (Rabs (mget m i j - nth j x 0))); simpl in *; auto; try lra; discriminate. }
  rewrite L in *. assert (forall n a, (a <= i < a + n)%nat -> (a + n <= nrows m)%nat -> List.find (row_matches m x tol) (seq a n) = Some i) as F.
  { induction n; intros a Ha Hn; [lia|]. cbn [seq List.find]. destruct (Nat.eq_dec a i) as [->|NE].
    - rewrite (proj2 (RM i Hi) Hm). reflexivity.
    - destruct (row_matches m x tol a) eqn:Q. { exfalso. apply (Hb a). lia. apply RM; auto. lia. } apply IHn; lia. }
  rewrite (F (nrows m) 0%nat) by lia. reflexivity.
Qed.

Lemma thr_no {S A} b e (k : unit -> SM S A) s : b = false -> sbind (sthrow_if b e) k s = k tt s.
Proof. intros ->. reflexivity. Qed.
Lemma thr_yes {S A} b e (k : unit -> SM S A) s : b = true -> sbind (sthrow_if b e) k s = (s, Throw e).
Proof. intros ->. reflexivity. Qed.
Lemma lift_ok {S A B} (r : Res A) a (k : A -> SM S B) s : r = Ok a -> sbind (slift r) k s = k a s.
Proof. intros ->. reflexivity. Qed.
(** the file does not matter before the name and the sizes were checked; after that the row decides *)
Lemma gradient_checked fs name w rs (g : gopt R) d : name <> [] -> (0 < d)%nat -> ds_dim (go_d g) = d -> length (ds_x (go_d g)) = d -> file_table fs name w rs ->
  ((w < d)%nat -> gopt_gradient fs name g = (g, Throw RuntimeError)) /\
  ((d <= w)%nat -> 
    (forall i, (i < length rs)%nat -> near (ds_x (go_d g)) (nth i rs []) -> (forall k, (k < i)%nat -> ~ near (ds_x (go_d g)) (nth k rs [])) ->
      ((w < 2 * d)%nat -> gopt_gradient fs name g = (g, Throw RuntimeError)) /\
      ((2 * d <= w)%nat -> gopt_gradient fs name g = (mkGO (ds_set_grad (skipn (w - d) (nth i rs [])) (go_d g)) (go_box g), Ok tt))) /\
    ((forall r, In r rs -> ~ near (ds_x (go_d g)) r) -> gopt_gradient fs name g = (g, Throw RuntimeError))).
Proof.
  intros N P D X T. pose proof T as (_ & _ & _ & _ & _ & _ & L). destruct (file_table_read _ _ _ _ T) as (m & E & ER & EC & EN & NZ).
  assert (@nlit R RNum 1 (-5) = 1 / 10 ^ 5) as LIT. { simpl. unfold Rlit. simpl. lra. }
  assert (is_empty name = false) as NE by (destruct name; [congruence|reflexivity]). assert (Nat.eqb d 0 = false) as DE by (apply Nat.eqb_neq; lia). assert (Nat.eqb (nrows m) 0 = false) as RE by (apply Nat.eqb_neq; lia).
  assert (gopt_gradient fs name g = (run sthrow_if (Nat.ltb w d) RuntimeError; get sub <-- slift (mat_submat m 0 (nrows m - 1) 0 (d - 1)); get ix <-- slift (mat_findRowIndex sub (ds_x (go_d g)) (nlit 1 (-5)));
    run sthrow_if (Z.eqb ix (-1)) RuntimeError; get r <-- slift (mat_getRow m ix); run sthrow_if (Nat.ltb (length r) (d * 2)) RuntimeError; get t <-- slift (vec_tail r d); in_god (ds_set_grad t)) g) as ->.
  { unfold gopt_gradient. unfold sbind at 1, sget at 1. rewrite D, X. rewrite (thr_no _ _ _ _ NE), (thr_no _ _ _ _ DE), (thr_no _ _ _ _ DE). rewrite (lift_ok _ m) by (rewrite E; reflexivity). rewrite EC, RE. reflexivity. }
  split. { intros H. rewrite thr_yes; auto. apply Nat.ltb_lt. auto. }
  intros H. rewrite thr_no by (apply Nat.ltb_ge; auto).
  destruct (submat_rows m 0 d NZ P ltac:(lia)) as (sub & ES & WS & RS & CS & RR). change (0 + d - 1)%nat with (d - 1)%nat in ES. rewrite (lift_ok _ _ _ _ ES). rewrite LIT.
  assert (forall i, nth i (rows sub) [] = firstn d (nth i rs [])) as NR. { intros i. rewrite RR, ER. destruct (Nat.lt_ge_cases i (length rs)) as [Hi|Hi].
    - rewrite (nth_indep _ [] (firstn d (skipn 0 []))) by (rewrite map_length; auto). rewrite (map_nth (fun r => firstn d (skipn 0 r))). reflexivity.
    - rewrite !nth_overflow by (rewrite ?map_length; auto). destruct d; reflexivity. }
  assert (forall i j, (j < d)%nat -> nth j (nth i (rows sub) []) 0 = nth j (nth i rs []) 0) as NJ. { intros i j Hj. rewrite NR. apply nth_firstn_lt. auto. }
  split.
  - intros i Hi M B. rewrite (lift_ok _ (Z.of_nat i)).
    2:{ apply (find_first sub (ds_x (go_d g)) (1 / 10 ^ 5) i WS); try congruence.
        - intros j Hj. rewrite NJ by congruence. apply M. auto.
        - intros k Hk Q. apply (B k Hk). intros j Hj. rewrite <- NJ by congruence. apply Q. auto. }
    rewrite thr_no by (apply Z.eqb_neq; lia). rewrite (lift_ok _ _ _ _ (getRow_ok m i (Z.of_nat i) ltac:(lia) (or_introl eq_refl))). rewrite ER. assert (length (nth i rs []) = w) as LW by (apply L, nth_In; auto). rewrite LW. split; intros W.
    + rewrite thr_yes; auto. apply Nat.ltb_lt. lia.
    + rewrite thr_no by (apply Nat.ltb_ge; lia). rewrite (lift_ok _ (skipn (w - d) (nth i rs []))). reflexivity. unfold vec_tail. rewrite LW. destruct (Nat.ltb_spec w d); [lia|]. reflexivity.
  - intros M. destruct (find_row sub (ds_x (go_d g)) (1 / 10 ^ 5) WS ltac:(congruence)) as [(i & _ & Hi & Q)|(Q & _)].
    + exfalso. apply (M (nth i rs [])). apply nth_In. congruence. intros j Hj. rewrite <- NJ by congruence. apply Q. auto.
    + rewrite (lift_ok _ _ _ _ Q). reflexivity.
Qed.

(** a table with gradients: a row holds parameters, value and gradient.  The gradient of the best design becomes the one of the first row
    with its parameters; if there is none the call fails and nothing changes *)
Theorem C105_gradient fs name (g : gopt R) d rs : name <> [] -> (0 < d)%nat -> ds_dim (go_d g) = d -> length (ds_x (go_d g)) = d -> file_table fs name (2 * d + 1) rs ->
  (forall i x f gr, nth_error rs i = Some (x ++ [f] ++ gr) -> length x = d -> near (ds_x (go_d g)) x -> (forall k r, (k < i)%nat -> nth_error rs k = Some r -> ~ near (ds_x (go_d g)) r) ->
     gopt_gradient fs name g = (mkGO (ds_set_grad gr (go_d g)) (go_box g), Ok tt)) /\
  ((forall r, In r rs -> ~ near (ds_x (go_d g)) r) -> gopt_gradient fs name g = (g, Throw RuntimeError)).
Proof.
  intros N P D X T. pose proof (gradient_checked fs name (2 * d + 1) rs g d N P D X T) as (_ & H). destruct (H ltac:(lia)) as (H1 & H2). clear H. split; [|exact H2].
  intros i x f gr E L M B. pose proof T as (_ & _ & _ & _ & _ & _ & W). pose proof (nth_error_In _ _ E) as I. apply W in I. assert (i < length rs)%nat as Hi by (apply nth_error_Some; congruence).
  pose proof (nth_error_nth _ _ [] E) as Q. destruct (H1 i Hi) as (_ & H3).
  - rewrite Q. intros j Hj. rewrite app_nth1 by lia. apply M. auto.
  - intros k Hk. apply (B k _ Hk). apply nth_error_nth'. lia.
  - rewrite H3 by lia. rewrite Q. do 4 f_equal. rewrite app_assoc. rewrite skipn_app. rewrite !app_length in *. cbn [length] in *. replace (2 * d + 1 - d - (length x + 1))%nat with 0%nat by lia. rewrite skipn_all2; [reflexivity|]. rewrite app_length. cbn. lia.
Qed.
Print Assumptions C105_gradient.
(** the calls that cannot work are refused and nothing changes *)
Theorem C105_gradient_refused fs name (g : gopt R) :
  (name = [] -> gopt_gradient fs name g = (g, Throw InvalidArgument)) /\
  (name <> [] -> ds_dim (go_d g) = 0%nat \/ ds_x (go_d g) = [] -> gopt_gradient fs name g = (g, Throw LogicError)) /\
  (name <> [] -> (0 < ds_dim (go_d g))%nat -> ds_x (go_d g) <> [] -> fs name = None -> gopt_gradient fs name g = (g, Throw RuntimeError)) /\
  (forall w rs, name <> [] -> (0 < ds_dim (go_d g))%nat -> length (ds_x (go_d g)) = ds_dim (go_d g) -> file_table fs name w rs -> (w < 2 * ds_dim (go_d g))%nat -> gopt_gradient fs name g = (g, Throw RuntimeError)).
Proof.
  split; [|split; [|split]].
  - intros ->. reflexivity.
  - intros N H. destruct name; [congruence|]. unfold gopt_gradient, sbind, sget, sthrow_if. cbn [is_empty]. unfold sret. destruct (Nat.eqb_spec (ds_dim (go_d g)) 0); [reflexivity|]. destruct H as [H|H]; [congruence|]. rewrite H. reflexivity.
  - intros N P X F. destruct name; [congruence|]. unfold gopt_gradient, sbind, sget, sthrow_if. cbn [is_empty]. unfold sret. destruct (Nat.eqb_spec (ds_dim (go_d g)) 0); [lia|]. destruct (ds_x (go_d g)); [congruence|]. cbn [length Nat.eqb].
    unfold slift, mat_readFromCSV, sbind, sget. rewrite F. reflexivity.
  - intros w rs N P X T W. destruct (gradient_checked fs name w rs g _ N P eq_refl X T) as (H1 & H2). destruct (Nat.lt_ge_cases w (ds_dim (go_d g))) as [Q|Q]. auto. destruct (H2 Q) as (H3 & H4).
    destruct (file_table_read _ _ _ _ T) as (m & _ & _ & _ & _). 
    assert (forall l : list (list R), (forall r, In r l -> ~ near (ds_x (go_d g)) r) \/ exists i, (i < length l)%nat /\ near (ds_x (go_d g)) (nth i l []) /\ forall k, (k < i)%nat -> ~ near (ds_x (go_d g)) (nth k l [])) as C.
    { assert (forall r, near (ds_x (go_d g)) r \/ ~ near (ds_x (go_d g)) r) as DEC.
      { intros r. unfold near. generalize (length (ds_x (go_d g))) as n. induction n. { left. intros; lia. } destruct IHn as [A|A]. 2:{ right. intros B. apply A. intros; apply B; lia. }
        destruct (Rle_dec (Rabs (nth n r 0 - nth n (ds_x (go_d g)) 0)) (1 / 10 ^ 5)) as [B|B]. { left. intros j Hj. destruct (Nat.eq_dec j n) as [->|]; auto. apply A. lia. } right. intros C. apply B, C. lia. }
      induction l as [|r l IH]. { left. intros r []. } destruct (DEC r) as [A|A]. { right. exists 0%nat. cbn. split; [lia|]. split; auto. intros; lia. }
      destruct IH as [B|(i & B1 & B2 & B3)]. { left. intros q [<-|I]; auto. } right. exists (S i). cbn. split; [lia|]. split; auto. intros [|k] Hk; auto. apply B3. lia. }
    destruct (C rs) as [M|(i & Hi & M & B)]. auto. apply (H3 i Hi M B). auto.
Qed.
Print Assumptions C105_gradient_refused.

(** ** examples and refuted claims *)
Definition grad_files (t : str) : files := fun n => if str_eqb n (lit "t.csv") then Some t else None.
Definition best_at (x : R) : gopt R := mkGO (ds_set_point [x] [] (DesignModel.mkD 1 0 [] [] [] [] [] [] [] 0 0 0 0 0 [] mat_empty mat_empty mat_empty mat_empty [] [] 0 true)) bnds_new.
(** the claim "the gradient set is the one of a row that holds one" is false: in one dimension a table without gradients passes, and the
    value of the function becomes the gradient *)
Theorem C105_gradient_value_refuted : exists fs, file_table fs (lit "t.csv") (1 + 1) [[2; 7]] /\
  gopt_gradient fs (lit "t.csv") (best_at 2) = (mkGO (ds_set_grad [7] (go_d (best_at 2))) (go_box (best_at 2)), Ok tt).
Proof.
  exists (grad_files (lit "2,7" ++ [newline_char])). assert (file_table (grad_files (lit "2,7" ++ [newline_char])) (lit "t.csv") 2 [[2; 7]]) as T.
  { exists (lit "2,7" ++ [newline_char]), [lit "2,7"]. split; [reflexivity|]. split; [apply cut_pieces; reflexivity|]. split; [|split; [discriminate|intros r [<-|[]]; reflexivity]]. constructor; [|constructor].
    exists [lit "2"; lit "7"]. split; [apply cut_pieces; reflexivity|]. constructor; [|constructor; [|constructor]]; (eapply number_simple; [vm_compute; reflexivity| |right; left; lra]); cbn; lra. }
  split; auto. destruct (gradient_checked _ (lit "t.csv") 2 _ (best_at 2) 1 ltac:(discriminate) ltac:(lia) eq_refl eq_refl T) as (_ & H). destruct (H ltac:(lia)) as (H1 & _). destruct (H1 0%nat ltac:(cbn; lia)) as (_ & H2).
  - intros [|j] Hj; cbn in *; [|lia]. rewrite Rminus_diag_eq, Rabs_R0 by auto. lra.
  - intros; lia.
  - rewrite (H2 ltac:(lia)). reflexivity.
Qed.
Print Assumptions C105_gradient_value_refuted.
(** the claim "the gradient set is the one of the row with the parameters of the best design" is false: an earlier row within 1e-5 is taken *)
Theorem C105_gradient_neighbour_refuted : exists fs, file_table fs (lit "t.csv") (2 * 1 + 1) [[2000001 / 1000000; 7; 5]; [2; 6; 0]] /\
  gopt_gradient fs (lit "t.csv") (best_at 2) = (mkGO (ds_set_grad [5] (go_d (best_at 2))) (go_box (best_at 2)), Ok tt).
Proof.
  pose (tx := lit "2.000001,7,5" ++ newline_char :: lit "2,6,0" ++ [newline_char]). exists (grad_files tx). assert (file_table (grad_files tx) (lit "t.csv") (2 * 1 + 1) [[2000001 / 1000000; 7; 5]; [2; 6; 0]]) as T.
  { exists tx, [lit "2.000001,7,5"; lit "2,6,0"]. split; [reflexivity|]. split; [apply cut_pieces; reflexivity|]. split; [|split; [discriminate|intros r [<-|[<-|[]]]; reflexivity]]. constructor; [|constructor; [|constructor]].
    - exists [lit "2.000001"; lit "7"; lit "5"]. split; [apply cut_pieces; reflexivity|]. apply Forall2_cons; [|apply Forall2_cons; [|apply Forall2_cons; [|apply Forall2_nil]]]; (eapply number_simple; [vm_compute; reflexivity| |right; left; lra]); [change (2000001 / 1000000 = 2000001 * / (10 ^ 6)); lra|cbn; lra|cbn; lra].
    - exists [lit "2"; lit "6"; lit "0"]. split; [apply cut_pieces; reflexivity|]. apply Forall2_cons; [|apply Forall2_cons; [|apply Forall2_cons; [|apply Forall2_nil]]]; (eapply number_simple; [vm_compute; reflexivity| |first [left; split; [reflexivity|lra]|right; left; lra]]); cbn; lra. }
  split; auto. destruct (C105_gradient _ (lit "t.csv") (best_at 2) 1 _ ltac:(discriminate) ltac:(lia) eq_refl eq_refl T) as (H & _). apply (H 0%nat [2000001 / 1000000] 7 [5]); auto.
  - intros [|j] Hj; cbn in *; [|lia]. unfold Rabs. destruct (Rcase_abs _); lra.
  - intros; lia.
Qed.
Print Assumptions C105_gradient_neighbour_refuted.

(** a function with an initialised single-level model: one design is added, a second one close to it is not *)
Definition demo_design (x f : R) : design R := ds_set_f f (ds_set_point [x] [] (DesignModel.mkD 1 0 [] [] [] [] [] [] [] 0 0 0 0 0 [] mat_empty mat_empty mat_empty mat_empty [] [] 0 true)).
Definition demo_objf (k : krig R) (multi : bool) : objf := mkObj [] (lit "primal") (lit "t.csv") true multi (mkSm (tset_k k trainer_new) (mkMat 1 2 [1; 3])) (fun _ => None).
Example C105_added_example : exists k s', krig_session true 1 (mkB 1 [0] [1] true) (1 / 100) 0 (mkMat 1 2 [1; 3]) [] [] krig_new = (k, Ok tt) /\ usable (demo_objf k false) /\
  sfor [(demo_design 0 5, []); (demo_design (1 / 100000) 5, [])] (fun q => addDesignToDataHow (fun t => t) (fst q) (lit "primal") (snd q)) (demo_objf k false) = (s', Ok tt) /\
  rows (m_file (o_sm s')) = [[1; 3]; [0; 5]].
Proof.
  pose proof (one_setup 3) as S0. destruct (C35_sequence_of_samples _ _ _ _ _ [] _ _ _ (fun t => t) [] S0 (Forall_nil _)) as (k & _ & _ & K & _). exists k.
  assert (usable (demo_objf k false)) as U by (split; [discriminate|auto]).
  destruct (C105_added (fun t => t) (fun _ _ _ => sret tt) _ _ _ _ _ _ _ _ _ k [(demo_design 0 5, []); (demo_design (1 / 100000) 5, [])] (demo_objf k false) S0 K U eq_refl eq_refl) as (s' & k' & f' & E & _ & F & Of & _).
  { intros q p [[= <- _]|[[= <- _]|[]]]; auto. }
  exists s'. split; auto. split; auto. split; auto. rewrite F. cbn in Of. inversion Of as [|? ? ? ? C Of1|? ? ? ? C Of1]; subst.
  - exfalso. destruct C as (r & I & C). cbn in I. destruct I as [<-|[]]. specialize (C 0%nat ltac:(cbn; lia)). cbn in C. unfold Rabs in C. destruct (Rcase_abs _) in C; lra.
  - cbn in Of1. inversion Of1 as [|? ? ? ? C1 Of2|? ? ? ? C1 Of2]; subst.
    + inversion Of2; subst. reflexivity.
    + exfalso. apply (C1 [0; 5]). right. left. reflexivity. intros [|[|j]] Hj; cbn in *; try lia; unfold Rabs; destruct (Rcase_abs _); lra.
Qed.
Example C105_example k : without_modes (mkObj [] [] (lit "t.csv") true true (o_sm (demo_objf k true)) (fun _ => None)) /\ settable (lit "adjoint") /\ ~ settable (lit "Primal") /\ ~ settable (lit "primalBoth") /\
  (exists fs, file_table fs (lit "t.csv") (2 * 1 + 1) [[2000001 / 1000000; 7; 5]; [2; 6; 0]]).
Proof.
  split; [split; reflexivity|]. split; [right; left; reflexivity|]. split; [intros [H|[H|H]]; discriminate|]. split; [intros [H|[H|H]]; discriminate|]. destruct C105_gradient_neighbour_refuted as (fs & H & _). eauto.
Qed.
Example C105_derivatives_example k : d_dim (k_data k) = 1%nat -> addDesignToDataHow (fun t => t) (ds_set_grad [4] (demo_design 0 5)) (lit "adjoint") [] (demo_objf k false) = (demo_objf k false, Throw RuntimeError).
Proof.
  intros H. destruct (C105_derivatives_refused (fun t => t) (fun _ _ _ => sret tt) (ds_set_grad [4] (demo_design 0 5)) (lit "adjoint") [] (demo_objf k false)) as (e & E & _ & [(-> & _)|(_ & N)]); auto.
  split; [discriminate|auto]. exfalso. apply N. reflexivity.
Qed.
