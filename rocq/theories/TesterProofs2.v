(** Loading training and test data into a Kriging model, training it and testing it. *)
From Coq Require Import Ascii String ZArith Bool Arith Permutation Reals Lra List Lia.
From Verif Require Import Base StM Num RealNum RSpec VecModel MatModel MatLemmas MatSpec VecProofs VecReal MatProofs MatProofs2 LuProofs StrModel StrSpec StrReal ExtModel ExtProofs BoundsModel CorrModel CorrSpec DataModel DataSpec DataProofs DataReal
  KrigModel KrigSpec KrigMath KrigProofs KrigProofs2 KrigProofs3 KrigProg KrigProofs4 KrigProofs5 PropsStat EaModel TrainModel TrainReal CsvModel CsvSpec CsvProofs RunFileModel RunFileSpec RunFileText TesterModel TesterSpec TesterFrame TesterProofs.
Import ListNotations.
Local Open Scope R_scope.

Lemma rethrow_inv {S A} e (m : SM S A) s s' a : srethrow e m s = (s', Ok a) -> m s = (s', Ok a).
Proof. unfold srethrow. destruct (m s) as [s1 [x|[]|]]; congruence. Qed.
Lemma readData_inv file perm (k ka : krig R) : krig_readData file perm k = (ka, Ok tt) ->
  data_read file perm (k_data k) = (k_data ka, Ok tt) /\ k_dim ka = k_dim k /\ k_uselin ka = k_uselin k /\ (k_uselin k = true -> data_read file [] (l_data (k_lin k)) = (l_data (k_lin ka), Ok tt)).
Proof.
  unfold krig_readData. intros H. unfold sbind at 1, sget at 1 in H. apply TrainReal.sbind_inv in H. destruct H as (k0 & [] & H0 & H). unfold sthrow_if in H0. destruct (Nat.eqb (k_dim k) 0); [discriminate|]. injection H0 as <-.
  apply TrainReal.sbind_inv in H. destruct H as (k1 & [] & H1 & H). apply rethrow_inv, zoom_inv in H1. destruct H1 as (s1 & H1 & ->).
  apply TrainReal.sbind_inv in H. destruct H as (k2 & [] & H2 & H). injection H as <-. destruct (k_uselin k) eqn:U; cbn [swhen] in H2.
  - apply rethrow_inv, zoom_inv in H2. destruct H2 as (l & H2 & ->). unfold lin_readData in H2. apply TrainReal.sbind_inv in H2. destruct H2 as (l1 & [] & H2 & H3). injection H3 as <-. apply zoom_inv in H2. destruct H2 as (s2 & H2 & ->).
    repeat split; auto.
  - injection H2 as <-. repeat split; auto. discriminate.
Qed.
Lemma normalizeData_inv (k kb : krig R) : krig_normalizeData k = (kb, Ok tt) -> data_normalize zero_tol (k_data k) = (k_data kb, Ok tt).
Proof.
  unfold krig_normalizeData. intros H. unfold sbind at 1, sget at 1 in H. apply TrainReal.sbind_inv in H. destruct H as (k0 & [] & H0 & H). unfold sthrow_if in H0. destruct (negb (k_read k)); [discriminate|]. injection H0 as <-.
  apply TrainReal.sbind_inv in H. destruct H as (k1 & [] & H1 & H). apply zoom_inv in H1. destruct H1 as (s1 & H1 & ->).
  apply TrainReal.sbind_inv in H. destruct H as (k2 & [] & H2 & H). injection H as <-. destruct (k_uselin k); cbn [swhen] in H2.
  - apply zoom_inv in H2. destruct H2 as (l & H2 & ->). exact H1.
  - injection H2 as <-. exact H1.
Qed.
Lemma setBox_same b (k : krig R) d : b_set b = true -> b_dim b = d -> (0 < d)%nat -> k_dim k = d -> d_box (k_data k) = b -> (k_uselin k = true -> d_box (l_data (k_lin k)) = b) -> krig_setBox b k = (k, Ok tt).
Proof.
  intros B1 B2 Hd Hk D1 D2. unfold krig_setBox. unfold sbind at 1, sget at 1. rewrite B1, B2, Hk, Nat.eqb_refl. destruct (Nat.eqb_spec d 0) as [|_]; [lia|]. cbn [negb sthrow_if]. do 3 (unfold sbind at 1, sret at 1).
  assert (set_box b (k_data k) = k_data k) as E1 by (rewrite <- D1; destruct (k_data k); reflexivity).
  rewrite (sbind_ok _ _ _ k tt).
  - unfold in_kdata, szoom, data_setBox, sassert. rewrite B1. unfold sbind, sret, smod. rewrite E1. destruct k; reflexivity.
  - destruct (k_uselin k) eqn:U; [|reflexivity]. cbn [swhen]. unfold in_klin, lin_setBox, in_ldata, szoom, data_setBox, sassert. rewrite B1. unfold sbind, sret, smod.
    assert (set_box b (l_data (k_lin k)) = l_data (k_lin k)) as E2 by (rewrite <- (D2 eq_refl); destruct (l_data (k_lin k)); reflexivity). unfold sret. cbn. rewrite ?E2. unfold lset_data. cbn. rewrite ?E2. destruct k as [? ? ? ? ? ? [] ? ? ? ? ? ? ? ? ? ? ? ?]. cbn in *. reflexivity.
Qed.
Lemma fitted_kt t (k : krig R) d b lin eps tr file c th ga ys : fitted k d b lin eps tr file c th ga ys -> fitted (kt t k) d b lin eps tr file c th ga ys.
Proof. intros [[] [] A3 A4 A5 A6 A7 A8 A9 A10 A11]. constructor; auto. constructor; auto. constructor; auto. intros P1 P2. destruct (A11 P1 P2). constructor; auto. Qed.
Record loaded_test (d : nat) (b : bnds R) (lin : bool) (eps : R) (file tfile : mat R) (perm : list nat) (tr : list (list R)) (s1 : sdata R) (k1 : krig R) (tf : bool) (kz : krig R) (c : nat -> R) (th ga ys : list R) : Prop := {
  lt_run : exists ka t0 kb t1, krig_readData file perm k1 = (ka, Ok tt) /\ in_kdata (data_readTest tfile) ka = (kt t0 ka, Ok tt) /\ krig_setBox b (kt t0 ka) = (kt t0 ka, Ok tt) /\
    krig_normalizeData (kt t0 ka) = (kt t0 kb, Ok tt) /\ in_kdata (data_normTest zero_tol) (kt t0 kb) = (kt t1 kb, Ok tt) /\ krig_initialize (kt t1 kb) = (kz, Ok tt);
  lt_fit : fitted kz d b lin eps tr file c th ga ys; lt_test : test_ready d b tfile tf (test_of (k_data kz)); lt_full : full_able (k_data kz) d b file;
  lt_nv : d_nv (k_data kz) = d_nv s1; lt_ratio : d_ratio (k_data kz) = d_ratio s1;
  lt_val : exists s2, normalized b d s1 s2 /\ d_Xval (k_data kz) = d_Xval s2 /\ d_yval (k_data kz) = d_yval s2 }.
Lemma load_with_test k1 d b lin eps file perm s1 tr tfile : kconf k1 d b lin eps -> box_ok ztol d b -> (0 < d)%nat -> (lin = true -> (d < 100)%nat) -> table file -> (0 < nrows file)%nat -> ncols file = S d ->
  data_read file perm (k_data k1) = (s1, Ok tt) -> dloaded s1 d b tr file -> table tfile -> (0 < nrows tfile)%nat -> ncols tfile = S d \/ ncols tfile = d ->
  exists kz c th ga ys, loaded_test d b lin eps file tfile perm tr s1 k1 (has_values d tfile (f_testf (k_data k1))) kz c th ga ys.
Proof.
  intros KC Hb Hd Hl Ht Hn Hc ER DL Tt Tn Tc. destruct (krig_load_ok k1 d b lin eps file perm s1 tr KC Hb Hd Hl Ht Hn Hc ER DL) as (k2 & c & th & ga & ys & s2 & E & F & D2 & N2 & _ & _).
  unfold krig_load in E. apply TrainReal.sbind_inv in E. destruct E as (ka & [] & Ea & E). apply TrainReal.sbind_inv in E. destruct E as (kb & [] & Eb & Ec).
  destruct (readData_inv _ _ _ _ Ea) as (Ra & Ka & Ua & La). rewrite ER in Ra. assert (k_data ka = s1) as Da by congruence. clear Ra.
  pose proof (normalizeData_inv _ _ Eb) as Nb. destruct KC.
  assert (d_dim (k_data ka) = d) as Dd. { rewrite Da. destruct (dl_tr _ _ _ _ _ DL) as (A & _). auto. }
  assert (test_of (k_data ka) = test_of (k_data k1)) as Tk. { pose proof (blind_keeps (krig_readData file perm) k1 (krig_readData_blind file perm)) as Q. rewrite Ea in Q. exact Q. }
  assert (f_testf (k_data ka) = f_testf (k_data k1)) as Ft by (apply (f_equal (@o_tf R)) in Tk; exact Tk).
  destruct (readTest_ok (k_data ka) d tfile b Dd Hd Tt Tn Tc Hb) as (t0 & t1 & ET & TR & NT'). rewrite Ft in TR.
  assert (d_box (k_data kb) = b) as Bb. { rewrite Da in Nb. destruct (normalize_loaded _ _ _ _ _ DL Hb Hd) as (s2' & E2 & Nn & _). rewrite zero_tol_eq in Nb. rewrite E2 in Nb. assert (k_data kb = s2') as -> by congruence. destruct Nn, DL. congruence. }
  assert (test_of (k_data (kt t1 k2)) = t1) as TT by apply test_of_dt.
  exists (kt t1 k2), c, th, ga, ys. constructor.
  - exists ka, t0, kb, t1. split; auto. split. { unfold in_kdata, szoom. rewrite ET. reflexivity. }
    split. { destruct Hb as (B1 & B2 & _). apply (setBox_same b _ d); auto. cbn. congruence. change (d_box (k_data ka) = b). rewrite Da. destruct DL; auto.
      change (k_uselin (kt t0 ka)) with (k_uselin ka). change (k_lin (kt t0 ka)) with (k_lin ka). intros U. rewrite Ua in U. pose proof (La U) as RL. destruct (kc_lconf (eq_trans (eq_sym kc_lin) U)) as (_ & LC).
      destruct (read_plain_loaded _ d b file [] LC Hd Ht Hn Hc) as (ls & ELs & DLs & _). rewrite ELs in RL. assert (l_data (k_lin ka) = ls) as -> by congruence. destruct DLs; auto. }
    split. { rewrite krig_normalize_blind, Eb. reflexivity. }
    split. { unfold in_kdata, szoom. change (k_data (kt t0 kb)) with (dt t0 (k_data kb)). rewrite NT' by auto. unfold kt. f_equal. }
    rewrite krig_initialize_blind, Ec. reflexivity.
  - apply fitted_kt. exact F.
  - rewrite TT. exact TR.
  - destruct N2, DL. constructor; cbn [kt kset_data k_data]; rewrite D2; cbn; try congruence.
  - cbn [kt kset_data k_data]. rewrite D2. destruct N2. cbn. auto.
  - cbn [kt kset_data k_data]. rewrite D2. destruct N2. cbn. auto.
  - exists s2. split; auto. cbn [kt kset_data k_data]. rewrite D2. cbn. auto.
Qed.
(** a training that completes leaves the test data alone *)
Lemma blind_step {A} (m : SM (krig R) A) k k' (r : Res A) : blind kt m -> m k = (k', r) -> test_of (k_data k') = test_of (k_data k).
Proof. intros B H. pose proof (blind_keeps m k B) as Q. rewrite H in Q. exact Q. Qed.
Lemma in_model_step {A} (m : SM (krig R) A) (t t' : trainer R) (a : A) : blind kt m -> in_model m t = (t', Ok a) -> test_of (k_data (t_k t')) = test_of (k_data (t_k t)).
Proof. intros B H. apply zoom_inv in H. destruct H as (k & H & ->). exact (blind_step _ _ _ _ B H). Qed.
Lemma when_step (b : bool) (m : SM (trainer R) unit) t t' (P : trainer R -> Prop) : swhen b m t = (t', Ok tt) -> P t -> (m t = (t', Ok tt) -> P t') -> P t'.
Proof. destruct b; cbn [swhen]; intros H H1 H2; auto. injection H as <-. auto. Qed.
Lemma search_keeps us ws order (t t' : trainer R) : t_warm t = None -> train_search us ws order t = (t', Ok (Some tt)) -> test_of (k_data (t_k t')) = test_of (k_data (t_k t)).
Proof.
  intros W H. destruct (search_inv _ _ _ _ _ W H) as (_ & _ & cf & best & v & k1 & _ & _ & _ & HK & ->). exact (blind_step _ _ _ _ (in_kcf_blind _) HK).
Qed.
Lemma sget_inv {S A} (f : S -> A) s s' a : sget f s = (s', Ok a) -> s' = s /\ a = f s.
Proof. unfold sget. intros H. injection H as <- <-. auto. Qed.
Lemma train_keeps us ws order (t t' : trainer R) : t_warm t = None -> krig_train us ws order t = (t', Ok (Some tt)) -> test_of (k_data (t_k t')) = test_of (k_data (t_k t)).
Proof.
  intros W H. unfold krig_train in H. apply TrainReal.sbind_inv in H. destruct H as (ta & x & Ha & H). apply sget_inv in Ha. destruct Ha as (-> & ->).
  apply TrainReal.sbind_inv in H. destruct H as (t0 & [] & H0 & H). assert (t0 = t) as -> by (destruct (negb (k_init (t_k t))); [discriminate|]; injection H0 as <-; reflexivity).
  apply TrainReal.sbind_inv in H. destruct H as (t1 & r & H1 & H). destruct r as [[]|]; [|discriminate]. rewrite <- (search_keeps _ _ _ _ _ W H1). clear H1 H0 W t.
  apply TrainReal.sbind_inv in H. destruct H as (ta & x & Ha & H). apply sget_inv in Ha. destruct Ha as (-> & ->).
  apply TrainReal.sbind_inv in H. destruct H as (t3 & [] & H3 & H). apply TrainReal.sbind_inv in H. destruct H as (t4 & [] & H4 & H). assert (t4 = t') as -> by (injection H as <-; reflexivity). clear H.
  rewrite (in_model_step _ _ _ _ krig_update_blind H4). clear H4.
  apply (when_step _ _ _ _ (fun x => test_of (k_data (t_k x)) = test_of (k_data (t_k t1))) H3); auto. apply in_model_step. apply train_revert_blind.
Qed.
Lemma put_same f t (fs : files) : put f t fs f = Some t.
Proof. unfold put. replace (str_eqb f f) with true; auto. symmetry. now apply str_eqb_eq. Qed.
Lemma put_other f g t (fs : files) : g <> f -> put f t fs g = fs g.
Proof. unfold put. intros H. destruct (str_eqb g f) eqn:E; auto. apply str_eqb_eq in E. congruence. Qed.

Section Save.
  Context (writable : str -> bool) (fixed : nat -> R -> str) (F : forall p x, fixed_text_of p x (fixed p x)) (W : writable results_file = true).
  Lemma header_spec (s : sdata R) var : result_columns (d_dim s) (f_testf s) var (header_names s ++ (if var then [lit "Variance"] else [])) /\
    length (header_names s ++ (if var then [lit "Variance"] else [])) = test_columns s var.
  Proof.
    unfold header_names, test_columns. split.
    - exists (map (fun i => lit "x" ++ int_text (Z.of_nat (S i))) (seq 0 (d_dim s))). split. { destruct (f_testf s), var; cbn [app]; rewrite <- ?app_assoc, ?app_nil_r; reflexivity. } split. now rewrite map_length, seq_length.
      intros i Hi. exists (int_text (Z.of_nat (S i))). split. now apply count_text_int. rewrite nth_map_seq by auto. reflexivity.
    - rewrite !app_length, map_length, seq_length. destruct (f_testf s), var; cbn; lia.
  Qed.
  Lemma save_ok (s : sdata R) var g fs : g_header g = [] -> ncols (g_results g) = test_columns s var ->
    exists fs' t, save_test writable fixed s var (g, fs) = ((mkTd (header_names s ++ (if var then [lit "Variance"] else [])) (g_results g) (g_error g) (g_norm g), fs'), Ok tt) /\
      fs' results_file = Some t /\ (forall f, f <> results_file -> fs' f = fs f) /\ table_text (header_names s ++ (if var then [lit "Variance"] else [])) (rows (g_results g)) t.
  Proof.
    intros Hh Hc. destruct (header_spec s var) as (_ & HL). set (hd := header_names s ++ (if var then [lit "Variance"] else [])) in *.
    assert (0 < length hd)%nat as H0. { rewrite HL. unfold test_columns. destruct (f_testf s); lia. }
    eexists _, (tableText fixed 6 hd (g_results g)). split.
    - unfold save_test. unfold sbind at 1, smod at 1. cbn [fst snd]. rewrite Hh. cbn [app]. fold hd. unfold sbind at 1, sget at 1. unfold szoom. cbn [fst snd g_header g_results]. unfold mat_saveAsCSV. rewrite W. cbn [negb sthrow_if].
      unfold sbind at 1, sret at 1. unfold sbind at 1, smod at 1. rewrite HL, <- Hc, Nat.eqb_refl. cbn [negb]. rewrite andb_false_r. cbn [sthrow_if]. unfold sbind, sret, smod. reflexivity.
    - split. apply put_same. split. { intros f Hf. rewrite put_other, put_other; auto. }
      apply table_ok; auto. destruct hd; [cbn in H0; lia|discriminate]. lia.
  Qed.
  (** the table of a test always has as many columns as the names of one test *)
  Lemma table_columns pred dim (s : sdata R) tn var m es : test_table pred dim s tn var = Ok (m, es) -> ncols m = test_columns s var.
  Proof.
    unfold test_table. destruct (negb tn); [discriminate|]. destruct (if f_testf s then _ else _) as [fe|e|]; cbn [bind]; try discriminate.
    intros H. apply (loopR_inv (fun _ (st : mat R * list R) => ncols (fst st) = test_columns s var)) in H; auto.
    intros i [a l] [a' l'] _ Ha Hs. unfold test_step in Hs. cbn [fst snd] in *.
    repeat match type of Hs with bind ?x _ = _ => destruct x as [?|?|] eqn:?; cbn [bind] in Hs; try discriminate end.
    match goal with E : mat_setRow _ _ _ = Ok ?m0 |- _ => unfold mat_setRow in E; destruct (Nat.leb (nrows a) i); [discriminate|]; destruct (negb _); [discriminate|]; injection E as <- end.
    injection Hs as <- _. rewrite <- Ha. cbn [fst]. apply (loop_inv (fun _ mm => ncols mm = ncols a)); auto.
  Qed.
  Lemma save_again (s : sdata R) var g fs w r : g_header g <> [] -> ncols (g_results g) = test_columns s var -> save_test writable fixed s var (g, fs) = (w, r) ->
    r = Throw InvalidArgument /\ g_header (fst w) <> [] /\ snd w results_file = Some [] /\ forall f, f <> results_file -> snd w f = fs f.
  Proof.
    intros Hh Hc. destruct (header_spec s var) as (_ & HL). set (hd := header_names s ++ (if var then [lit "Variance"] else [])) in *.
    unfold save_test. unfold sbind at 1, smod at 1. cbn [fst snd]. fold hd. unfold sbind at 1, sget at 1. unfold szoom. cbn [fst snd g_header g_results]. unfold mat_saveAsCSV. rewrite W. cbn [negb sthrow_if].
    unfold sbind at 1, sret at 1. unfold sbind at 1, smod at 1. rewrite app_length, HL, <- Hc.
    destruct (g_header g) as [|h hs] eqn:E; [congruence|]. destruct (Nat.eqb_spec (length (h :: hs) + ncols (g_results g)) (ncols (g_results g))) as [Q|_]; [cbn in Q; lia|]. cbn [app is_empty negb andb sthrow_if]. unfold sbind, sthrow.
    intros H. injection H as <- <-. cbn [fst snd g_header]. split; auto. split. discriminate. split. apply put_same. intros f Hf. apply put_other; auto.
  Qed.
End Save.
