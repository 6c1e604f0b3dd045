(** The files of the example and the test that completes. *)
From Coq Require Import Ascii String ZArith Bool Arith Permutation Reals Lra Psatz List Lia.
From Verif Require Import Base StM Num RealNum RSpec VecModel MatModel MatLemmas MatSpec VecProofs VecReal MatProofs MatProofs2 LuProofs StrModel StrSpec StrReal ExtModel ExtProofs BoundsModel CorrModel CorrSpec DataModel DataSpec DataProofs DataReal
  KrigModel KrigSpec KrigMath KrigProofs KrigProofs2 KrigProofs3 KrigProg KrigProofs4 KrigProofs5 PropsData PropsStat PropsLin PropsKrig EaModel EaProofs EaRun EaReal EaDemo EaLive TrainModel TrainProofs TrainReal TrainEval TrainMore TrainObj TrainDemo
  CsvModel CsvSpec CsvProofs PropsCsv RunFileModel RunFileSpec RunFileText TesterModel TesterSpec TesterFrame TesterProofs TesterProofs2 TesterProofs3 TesterProofs4 TesterProofs5 TesterDemo.
Import ListNotations.
Local Open Scope R_scope.

Definition demo_us : nat -> nat -> nat -> R := fun _ => live_us demo_u0 demo_u1.
Definition demo_ws : nat -> nat -> genDraw R := fun _ _ => live_gen demo_u1.
Section Run.
  Context (writable : str -> bool) (fixed : nat -> R -> str) (F : forall p x, fixed_text_of p x (fixed p x)) (W : writable results_file = true).
  Lemma demo_completes tfile h fs : h_dim h = 1%nat -> h_box h = demo_box -> h_warm h = false -> (h_iters h <> 0)%nat ->
    mat_readFromCSV (h_train h) false fs = (fs, Ok demo_file) -> mat_readFromCSV (h_test h) false fs = (fs, Ok tfile) -> table tfile -> (0 < nrows tfile)%nat -> ncols tfile = 2%nat \/ ncols tfile = 1%nat ->
    exists w e, test_krig writable fixed h [2; 0; 1]%nat demo_us demo_ws (mkTS lmodel_new tested_new (mkTr (kset_ratio (Some (1 / 2)) krig_new) (100 * 100) 1 false true None) tested_new, fs) = (w, Ok (Some e)).
  Proof.
    intros Hd Hb Hw Hi C1 C2 Tt Tn Tc. set (ratio := Some (1 / 2)). destruct (new_config false 1 demo_box ratio ltac:(lia) box01) as (k1 & E1 & KC & KD). cbv iota in E1.
    assert (table demo_file) as Ht by (split; [reflexivity|cbn; lia]).
    destruct (data_read_split (k_data k1) demo_file [2; 0; 1]%nat 1 1) as (s1 & ER & A1 & A2 & A3 & A4 & A5 & A6 & A7 & A8 & A9 & A10 & A11 & A12 & A13 & A14 & A15 & A16); auto; rewrite ?KD; auto.
    { reflexivity. } { cbn. apply Rltb_true. unfold ratio_value, ratio. lra. }
    { destruct (val_count_R 3 (1 / 2) ltac:(lra)) as (q & Eq & Hq & Hb'). change (val_count 3 (1 / 2) = Some 1%nat). rewrite Eq. f_equal. cbn [INR] in *. assert (INR q < 2) as Q1 by lra. assert (0 < INR q) as Q2 by lra. change 0 with (INR 0) in Q2. apply INR_lt in Q2. change 2 with (INR 2) in Q1. apply INR_lt in Q1. lia. }
    { cbn; lia. } { apply demo_permutation. } { split. reflexivity. cbn; lia. }
    rewrite KD in A4, A5, A6, A7. destruct (A13 ltac:(lia)) as (V1 & V2 & V3 & V4 & V5 & V6). rewrite A10, KD in V1, V2, V3. cbn in V1, V3.
    assert (dloaded s1 1 demo_box [[0; 0]; [1; 1]] demo_file) as DL. { constructor; auto. cbn; lia. }
    destruct (load_with_test k1 1 demo_box false _ demo_file [2; 0; 1]%nat s1 _ tfile KC box01 ltac:(lia) ltac:(discriminate) Ht ltac:(cbn; lia) eq_refl ER DL Tt Tn Tc) as (kz & c & th & ga & ys & LT).
    set (t := mkTr (kset_ratio ratio krig_new) (100 * 100) 1 false true None).
    assert (test_krig writable fixed h [2; 0; 1]%nat demo_us demo_ws (mkTS lmodel_new tested_new t tested_new, fs) = sbind (on_krig (krig_train demo_us demo_ws [0%nat])) (krig_finish writable fixed (h_var h)) (mkTS lmodel_new tested_new (tset_iters (h_iters h) (tset_k kz t)) (marked tested_new), fs)) as ET.
    { eapply test_krig_train with (k1 := k1); eauto; rewrite ?Hd, ?Hb; eauto. }
    rewrite ET. clear ET. destruct LT as [_ Fit TR FA NV _ (s2 & N2 & X2 & Y2)]. destruct N2.
    destruct (demo_trains (1 / 10 ^ 12) ltac:(lra) kz (h_iters h) c th ga ys ltac:(lra) Hi Fit FA) as (t2 & E2).
    { congruence. } { rewrite X2, z_Xval, V1 by lia. unfold unit_row. cbn. repeat f_equal. field. } { rewrite Y2, z_yval, V3. reflexivity. }
    change (tset_iters (h_iters h) (tset_k kz t)) with (mkTr kz (h_iters h) 1 false true None). unfold sbind, on_krig, szoom. cbn [fst snd v_krig v_lin v_lintest v_krigtest].
    change (krig_train demo_us demo_ws [0%nat] (mkTr kz (h_iters h) 1 false true None) = (t2, Ok (Some tt))) in E2. rewrite E2.
    assert (forall j k i, 0 <= demo_us j k i < 1) as Hu. { intros j k i. unfold demo_us. destruct k; cbn; unfold demo_u0, demo_u1; lra. }
    destruct (train_fitted (mkTr kz (h_iters h) 1 false true None) t2 demo_us demo_ws [0%nat] 1 demo_box false _ _ demo_file c th ga ys Hu eq_refl Fit eq_refl) as (best & v & th' & ga' & ys' & _ & RG & _ & _ & Fit' & _); auto. { intros _. split; auto. split. apply box01. split; auto. cbn. auto. }
    assert (test_of (k_data (t_k t2)) = test_of (k_data kz)) as Tk by (apply (train_keeps demo_us demo_ws [0%nat] (mkTr kz (h_iters h) 1 false true None) t2); auto).
    cbn [t_hasval] in Fit'.
    destruct (krig_finish_ok writable fixed F W lmodel_new tested_new t2 (marked tested_new) fs 1 demo_box false demo_file c th' ga' ys' tfile (has_values 1 tfile (f_testf (k_data k1))) (h_var h) Fit' RG ltac:(lia) Ht) as (p & g' & fs' & tx & P1 & P2 & _); auto.
    { cbn; lia. } { rewrite Tk. auto. } { unfold has_values. rewrite KD. cbn [set_ratio set_box set_dim sdata_new f_testf]. rewrite orb_false_r. destruct (Nat.eqb_spec (ncols tfile) 2); auto. right. destruct Tc; [lia|auto]. }
    rewrite P2. eauto.
  Qed.
End Run.

(** the files *)
Definition demo_train_text : str := lit "0,0" ++ newline_char :: lit "1,1" ++ newline_char :: lit "0,0.5" ++ [newline_char].
Definition demo_test_text : str := lit "0.25,0.25" ++ newline_char :: lit "0.5,1" ++ [newline_char].
Definition demo_files : files := put (lit "test.csv") demo_test_text (put (lit "train.csv") demo_train_text (fun _ => None)).
From Verif Require Import DriverDemo.
Ltac number := eapply number_simple; [vm_compute; reflexivity|unfold powerRZ; try change (Pos.to_nat 1) with 1%nat; try change (Pos.to_nat 2) with 2%nat; cbn [pow]; lra|first [left; split; [reflexivity|lra] | right; left; lra]].
Lemma demo_train_rows : csv_rows demo_files (lit "train.csv") 2 [[0; 0]; [1; 1]; [0; 1 / 2]].
Proof.
  exists demo_train_text, [lit "0,0"; lit "1,1"; lit "0,0.5"]. split. { unfold demo_files. rewrite put_other by discriminate. apply put_same. }
  split. { apply cut_pieces; reflexivity. } split; [|split; [discriminate|intros r [<-|[<-|[<-|[]]]]; reflexivity]].
  repeat (apply Forall2_cons); try apply Forall2_nil; [exists [lit "0"; lit "0"]|exists [lit "1"; lit "1"]|exists [lit "0"; lit "0.5"]]; (split; [apply cut_pieces; reflexivity|]); repeat (apply Forall2_cons); try apply Forall2_nil; number.
Qed.
Lemma demo_test_rows : csv_rows demo_files (lit "test.csv") 2 [[1 / 4; 1 / 4]; [1 / 2; 1]].
Proof.
  exists demo_test_text, [lit "0.25,0.25"; lit "0.5,1"]. split. { apply put_same. }
  split. { apply cut_pieces; reflexivity. } split; [|split; [discriminate|intros r [<-|[<-|[]]]; reflexivity]].
  repeat (apply Forall2_cons); try apply Forall2_nil; [exists [lit "0.25"; lit "0.25"]|exists [lit "0.5"; lit "1"]]; (split; [apply cut_pieces; reflexivity|]); repeat (apply Forall2_cons); try apply Forall2_nil; number.
Qed.
Lemma demo_name_train : data_file_name (lit "train.csv").
Proof. apply filename_iff. reflexivity. Qed.
Lemma demo_name_test : data_file_name (lit "test.csv").
Proof. apply filename_iff. reflexivity. Qed.
