(** Further theorems of C98, C99 and C101: the header of the file of a population, runs that continue from a file on an optimiser
    used before, and trainings of constraints that fail. *)
From Coq Require Import Ascii String ZArith Bool Arith Reals List Lia.
From Verif Require Import Base StM Num RealNum VecModel MatModel StrModel StrSpec StrProofs DataProofs ExtModel ExtSpec ExtProofs CsvModel CsvSpec CsvProofs.
From Verif Require Import KrigModel OptModel OptRun TrainModel StudyModel PropsStudy.
From Verif Require Import EaModel EaProofs EaRun EaReal EaFileModel EaFileSpec EaFileProofs EaWarm PropsEaFile NumFloat DriverDemo EaDemo PropsEa.
Import ListNotations.
Local Open Scope nat_scope.
Local Open Scope list_scope.

(** C98: a population is written as a header line with one name per column, and one line per individual *)
Theorem C98_header {T} {NT : Num T} (writable : str -> bool) (scientific : T -> str) name (p : pop T) fs fs' : pop_writeToCSV writable scientific name p fs = (fs', Ok tt) ->
  exists rest, fs' name = Some (joined (lit ",") ([lit "ID"; lit "ObjectiveFunctionValue"; lit "Fitness"; lit "ReproductionProbability"; lit "DeathProbability"] ++
    map (fun i => lit "Gene_" ++ int_text (Z.of_nat i)) (seq 0 (p_dim p))) ++ newline_char :: rest).
Proof.
  unfold pop_writeToCSV, sbind, sthrow_if. intros H. destruct (is_empty name); [discriminate|]. cbn [sret] in H. destruct (Nat.eqb _ 0); [discriminate|]. destruct (negb _); [discriminate|]. cbn [sret] in H. unfold smod in H.
  apply pair_equal_spec in H as [<- _]. set (names := [lit "ID"; _; _; _; _] ++ _).
  assert (forall l, l <> [] -> forall gs, joined (lit ",") (l ++ gs) = (joined (lit ",") l ++ concat (map (fun g => lit "," ++ g) gs))%list) as J.
  { assert (forall gs a, joined (lit ",") (a :: gs) = (a ++ concat (map (fun g => lit "," ++ g) gs))%list) as J1.
    { induction gs as [|g gs IHg]; intros a. cbn. now rewrite app_nil_r. change (joined (lit ",") (a :: g :: gs)) with (a ++ lit "," ++ joined (lit ",") (g :: gs))%list. rewrite IHg. cbn [map concat]. now rewrite <- !app_assoc. }
    intros [|a l] N gs; [congruence|]. cbn [app]. rewrite !J1, map_app, concat_app. now rewrite app_assoc. }
  assert (pop_header (p_dim p) = (joined (lit ",") names ++ newline)%list) as ->.
  { unfold names, pop_header. rewrite J by discriminate. rewrite map_map, <- app_assoc. reflexivity. }
  rewrite <- app_assoc. eexists. rewrite put_same. reflexivity.
Qed.
(** C99: on an optimiser that was used before, a run that continues from a file numbers and counts its own evaluations from 0 and appends
    them to the history *)
Theorem C99_warm_used {T} {NT : Num T} (c : econf T) file fs ws e0 e : ea_optimizeWarm c file fs ws e0 = Ok (Some e) ->
  exists g new, 1 <= g <= c_gens c /\ e_total e = g * c_new c /\ p_inds (e_hist e) = p_inds (e_hist e0) ++ new /\ map i_id new = seq 0 (g * c_new c) /\
    (forall i, In i new -> c_f c (i_genes i) = Ok (i_obj i)) /\ (g = c_gens c \/ c_max c <= g * c_new c) /\ (forall j, 1 <= j < g -> j * c_new c < c_max c).
Proof.
  unfold ea_optimizeWarm. intros H. ok_step H. destruct file as [name|]; [|discriminate]. unfold ea_readWarm, any_to_runtime in H. cbn [e_pop e_gen e_rem e_hist e_total e_init] in H.
  destruct (pop_readFromCSV name fs (e_pop e0)) as [p1 [u|x|]] eqn:RD; [|discriminate|discriminate]. ok_step H. destruct a0 as [e1|]; [|discriminate]. ok_step H. injection H as <-.
  assert (c_gens c <> 0) as Hg. { intros Z. unfold ec_check in E. rewrite Z in E. ok_steps E. } destruct (c_gens c) as [|n] eqn:EG; [lia|].
  set (P := fun (g d : nat) (e : ea T) => e_total e = g * c_new c /\ exists new, p_inds (e_hist e) = p_inds (e_hist e0) ++ new /\ map i_id new = seq 0 (g * c_new c) /\ forall i, In i new -> c_f c (i_genes i) = Ok (i_obj i)).
  destruct (loop_ind c P ws) with (n := n) (k := 0) (g := 0) (e := mkEA p1 (e_gen e0) (e_rem e0) (e_hist e0) 0 true) (e' := e1) as (j & Hj & (A & new & A1 & A2 & A3) & B & D); auto.
  - intros g k e e' (TT & new & N1 & N2 & N3) HB. apply births_spec in HB. destruct HB as (l0 & l & p & gn & h & HC & HF & L1 & L2 & Ep & Eg & Eh & ->). apply addGroup_inds in Eh. split; cbn [e_total e_hist]. lia.
    exists (new ++ l). split. now rewrite Eh, N1, app_assoc. split. { rewrite map_app, N2, L2, TT, <- seq_app. f_equal. lia. }
    intros i I. apply in_app_or in I. destruct I as [I|I]; auto. destruct (forall2_in_r _ _ _ _ HF I) as (j & J1 & J2). apply call_spec in J2. destruct J2 as (J2 & J3 & _). now rewrite J3.
  - intros g d k j e e' Q _ KL. apply kill_spec in KL. destruct KL as (i & rm & p & q & _ & _ & _ & RM & UP & ->). exact Q.
  - split. reflexivity. exists []. rewrite app_nil_r. split; [reflexivity|]. split; [reflexivity|]. intros i [].
  - exists (S j), new. cbn [Nat.add] in *. split; [lia|]. split; [exact A|]. split; [exact A1|]. split; [exact A2|]. split; [exact A3|]. rewrite A in B. split; [destruct B; [left; lia|right; assumption]|].
    intros [|i] Hi; [lia|]. destruct (D i) as (f & [F1 _] & F2); [lia|]. rewrite F1 in F2. exact F2.
Qed.
(** C101: when the trainings of an iteration end with an exception that is not a failed assertion, it is the training of the objective's
    model that threw it: failed trainings of constraints are only logged *)
Theorem C101_constraint_training : forall c dr s s' x, trainSurrogates c dr s = (s', Throw x) -> x <> AssertFail ->
  snd (trainSurrogate (dr_us dr 0) (dr_ws dr 0) (y_obj s)) = Throw x.
Proof.
  intros c dr s s' x H N. unfold trainSurrogates, sbind, in_obj, szoom in H. destruct (trainSurrogate (dr_us dr 0) (dr_ws dr 0) (y_obj s)) as [m' r'] eqn:ET. cbn [snd].
  assert (forall cs i t t', trainCons dr i cs t = (t', Throw x) -> False) as TC.
  { induction cs as [|oc cs IH]; intros i t t' E; cbn [trainCons] in E; [discriminate|]. unfold sbind in E. destruct (oc_user oc); [cbn in E; eauto|].
    unfold in_con, szoom, swallowTrain in E. destruct (trainSurrogate _ _ (nth i (y_con t) _)) as [m1 [[[]|]|y|]]; cbn [fst snd] in E; eauto; try discriminate.
    destruct y; cbn in E; eauto. injection E as _ <-. congruence. }
  destruct r' as [[[]|]|y|]; try discriminate; eauto. { exfalso. eapply TC. exact H. } injection H as _ <-. reflexivity.
Qed.
Print Assumptions C98_header. Print Assumptions C99_warm_used. Print Assumptions C101_constraint_training.
(** a second run on the same optimiser: the history has the evaluations of both, numbered from 0 in each *)
Example C99_used_example : exists e1 e2, ea_optimizeWarm (f64 0 1) (Some restart) (one_file restart two_text) (ws64 (FofZ 0) (FofZ 0)) (ea_new 1) = Ok (Some e1) /\
  ea_optimizeWarm (f64 0 1) (Some restart) (one_file restart two_text) (ws64 (FofZ 0) (FofZ 0)) e1 = Ok (Some e2) /\ e_total e1 = 1 /\ e_total e2 = 1 /\ map i_id (p_inds (e_hist e2)) = [0; 0].
Proof. eexists _, _. split; [vm_compute; reflexivity|]. split; [vm_compute; reflexivity|]. split; [reflexivity|]. split; reflexivity. Qed.
(** training models that were never initialised *)
Example C101_constraint_training_example : exists s', trainSurrogates study_cfg (study_draws (fun _ => Ok 0%R)) (mkSt ost_new (sm_new mat_empty) [sm_new mat_empty; sm_new mat_empty]) = (s', Throw RuntimeError).
Proof. eexists. reflexivity. Qed.
