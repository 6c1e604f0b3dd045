(** The tester used by a program: set up, and one test of a Kriging model. *)
From Coq Require Import Ascii String ZArith Bool Arith Permutation Reals Lra List Lia.
From Verif Require Import Base StM Num RealNum RSpec VecModel MatModel MatLemmas MatSpec VecProofs VecReal MatProofs MatProofs2 LuProofs StrModel StrSpec StrReal ExtModel ExtProofs BoundsModel CorrModel CorrSpec DataModel DataSpec DataProofs DataReal
  KrigModel KrigSpec KrigMath KrigProofs KrigProofs2 KrigProofs3 KrigProg KrigProofs4 KrigProofs5 PropsData PropsStat EaModel TrainModel TrainReal CsvModel CsvSpec CsvProofs PropsCsv RunFileModel RunFileSpec RunFileText TesterModel TesterSpec TesterFrame TesterProofs TesterProofs2 TesterProofs3.
Import ListNotations.
Local Open Scope R_scope.

(** names of data files *)
Lemma skipn_app_exact {A} (a c : list A) : skipn (length (a ++ c) - length c) (a ++ c) = c.
Proof. rewrite app_length. replace (length a + length c - length c)%nat with (length a) by lia. rewrite skipn_app, skipn_all, Nat.sub_diag. reflexivity. Qed.
Lemma filename_iff f : tester_checkFilename f = Ok tt <-> data_file_name f.
Proof.
  unfold tester_checkFilename, data_file_name. change forbidden_chars with (lit "\/:*?""<>|"). change csv_extension with (lit ".csv"). split.
  - destruct (is_empty f); [discriminate|]. destruct (existsb _ f) eqn:E; [discriminate|]. destruct (Nat.ltb (length f) (length (lit ".csv")) || _) eqn:E2; [discriminate|]. intros _. split.
    + intros c I J. assert (existsb (fun c => existsb (Ascii.eqb c) (lit "\/:*?""<>|")) f = true) as Q; [|congruence]. apply existsb_exists. exists c. split; auto. apply existsb_exists. exists c. split; auto. apply Ascii.eqb_refl.
    + apply orb_false_iff in E2. destruct E2 as (_ & E2). apply negb_false_iff in E2. apply str_eqb_eq in E2. exists (firstn (length f - length (lit ".csv")) f). rewrite <- E2 at 2. symmetry. apply firstn_skipn.
  - intros (N & stem & ->). assert (is_empty (stem ++ lit ".csv") = false) as -> by (destruct stem; reflexivity).
    assert (existsb (fun c => existsb (Ascii.eqb c) (lit "\/:*?""<>|")) (stem ++ lit ".csv") = false) as ->.
    { destruct (existsb _ (stem ++ _)) eqn:E; auto. apply existsb_exists in E. destruct E as (c & I & J). apply existsb_exists in J. destruct J as (c' & J & Q). apply Ascii.eqb_eq in Q. subst c'. destruct (N c I J). }
    rewrite skipn_app_exact. replace (Nat.ltb _ _) with false by (symmetry; apply Nat.ltb_ge; rewrite app_length; lia). rewrite (proj2 (str_eqb_eq _ _) eq_refl). reflexivity.
Qed.
Lemma filename_throws f : ~ data_file_name f -> tester_checkFilename f = Throw InvalidArgument.
Proof.
  intros H. rewrite <- filename_iff in H. unfold tester_checkFilename in *. destruct (is_empty f); auto. destruct (existsb _ f); auto. destruct (Nat.ltb _ _ || _); auto. congruence.
Qed.
(** a file with rows is read as the matrix with these rows *)
Lemma mat_of_rows (rs : list (list R)) w : rs <> [] -> (forall r, In r rs -> length r = w) -> exists m, has_rows m rs /\ ncols m = w.
Proof.
  intros NE L. assert (exists m, fillMatrix rs = Ok m) as (m & E).
  { unfold fillMatrix. destruct rs as [|q0 qs]; [congruence|]. replace (forallb _ _) with true; [eauto|]. symmetry. apply forallb_forall. intros q I. apply Nat.eqb_eq. rewrite (L q I), (L q0); [reflexivity|now left]. }
  apply fillMatrix_iff in E. destruct E as (_ & E). exists m. split; auto. destruct E as (_ & E & _). destruct rs as [|q0 qs]; [congruence|]. rewrite <- (E q0), <- (L q0); auto; now left.
Qed.
Lemma csv_read (fs : files) name w rs : csv_rows fs name w rs -> (0 < w)%nat -> exists m, mat_readFromCSV name false fs = (fs, Ok m) /\ rows m = rs /\ table m /\ ncols m = w /\ (0 < nrows m)%nat.
Proof.
  intros (t & lines & E & C & TN & NE & LW) Hw. destruct (mat_of_rows rs w NE LW) as (m & HR & Cm). exists m. split. { apply C93_matrix. split; auto. exists t, lines, rs. auto. }
  assert (rows m = rs) as Er. { apply (has_rows_eq m); auto. apply has_rows_rows. apply HR. }
  split; auto. split. { split. apply HR. lia. } split; auto. destruct HR as (-> & _). destruct rs; [congruence|cbn; lia].
Qed.

(** *** the program *)
Definition test_program (nm : str) (d : nat) (b : bnds R) (ftr fte : str) (m : mtype) (ratio : option R) (n : nat) (var : bool) : list (tcall R) :=
  [CName nm; CDim d; CBox b; CTraining ftr; CTest fte; CModel m; CBind] ++ (match ratio with Some v => [CRatio v] | None => [] end) ++ [CIters n; CFlags false var].
Ltac tstep := unfold tcall_run, on_tester, tester_setName, tester_setDimension, tester_setBox, tester_setTraining, tester_setTest, tester_setFlags, tester_setIters, tester_setModel, tester_bind, tester_setRatio, with_conf, sbind, szoom, sget, smod, slift, sassert, sthrow_if, sret;
  cbn [q_conf q_type q_bound q_ptr q_multi q_state h_dim h_name h_box h_iters h_train h_test h_warm h_var fst snd].
Ltac tfin := cbn [q_conf q_type q_bound q_ptr q_multi q_state h_dim h_name h_box h_iters h_train h_test h_warm h_var fst snd]; reflexivity.
Section Program.
  Context (writable : str -> bool) (fixed : nat -> R -> str).
  Lemma tcalls_cons c l w w' a : tcall_run writable fixed c w = (w', Ok a) -> tcalls_run writable fixed (c :: l) w = tcalls_run writable fixed l w'.
  Proof. intros H. unfold tcalls_run. cbn [fold_left]. rewrite H. reflexivity. Qed.
  Definition kset_ratio (r : option R) (k : krig R) : krig R := match r with Some v => kset_data (set_ratio v (k_data k)) k | None => k end.
  Definition lset_ratio (r : option R) (l : lmodel R) : lmodel R := match r with Some v => mkL (l_dim l) (l_n l) (set_ratio v (l_data l)) (l_w l) (l_reg l) (l_read l) (l_norm l) (l_init l) | None => l end.
  Definition has_ratio (r : option R) : bool := match r with Some _ => true | None => false end.
  Definition kriging_type (lin : bool) : mtype := if lin then UniversalKriging else OrdinaryKriging.
  Lemma program_kriging nm d b ftr fte (lin : bool) ratio n var fs : nm <> [] -> b_set b = true -> data_file_name ftr -> data_file_name fte -> (forall v, ratio = Some v -> 0 <= v <= 1) ->
    tcalls_run writable fixed (test_program nm d b ftr fte (kriging_type lin) ratio n var) (tester_new, fs) =
    (mkTt (mkTC d nm b n ftr fte false var) (Some (kriging_type lin)) true PKriging false
      (mkTS lmodel_new tested_new (mkTr (kset_ratio ratio (if lin then kset_uselin true krig_new else krig_new)) (100 * 100) 1 false (has_ratio ratio) None) tested_new), fs).
  Proof.
    intros Hn Hb F1 F2 Hr. apply filename_iff in F1. apply filename_iff in F2. set (x := (100 * 100)%nat). unfold test_program, tester_new. fold x. cbn [app].
    assert (is_empty nm = false) as He by (destruct nm; [congruence|reflexivity]).
    assert (forall v, ratio = Some v -> ((v <! n0) && (n1 <! v))%bool = false /\ ((v <! n0) || (n1 <! v))%bool = false) as Hv.
    { intros v E. specialize (Hr v E). cbn. destruct (Rltb_spec v 0); [lra|]. destruct (Rltb_spec 1 v); [lra|]. auto. }
    erewrite tcalls_cons; [|tstep; rewrite He; cbn [negb]; tfin]. erewrite tcalls_cons; [|tstep; tfin]. erewrite tcalls_cons; [|tstep; rewrite Hb; cbn [negb]; tfin].
    erewrite tcalls_cons; [|tstep; rewrite F1; tfin]. erewrite tcalls_cons; [|tstep; rewrite F2; tfin]. erewrite tcalls_cons; [|tstep; tfin].
    assert (forall k hv, tcalls_run writable fixed [CIters n; CFlags false var] (mkTt (mkTC d nm b x ftr fte false false) (Some (kriging_type lin)) true PKriging false (mkTS lmodel_new tested_new (mkTr k x 1 false hv None) tested_new), fs) =
      (mkTt (mkTC d nm b n ftr fte false var) (Some (kriging_type lin)) true PKriging false (mkTS lmodel_new tested_new (mkTr k x 1 false hv None) tested_new), fs)) as Tail by reflexivity.
    destruct lin; (erewrite tcalls_cons; [|tstep; cbn [kriging_type]; tfin]); (destruct ratio as [v|]; cbn [app kset_ratio has_ratio]; [|apply Tail]); destruct (Hv v eq_refl) as (V1 & V2).
    all: erewrite tcalls_cons; [apply Tail|]; tstep; rewrite V1; unfold in_state, train_setRatio, in_model, krig_setRatio, in_kdata, data_setRatio, sbind, szoom, sthrow_if; cbn [trainer_new t_k tset_k q_state v_krig]; rewrite V2; reflexivity.
  Qed.
End Program.
