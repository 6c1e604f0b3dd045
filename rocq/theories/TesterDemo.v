(** A test of a Kriging model that completes (the non-vacuity witness of PropsTester): training samples (0, 0) and (1, 1), validation
    sample (0, 1/2), nugget 1e-12. *)
From Coq Require Import Ascii String ZArith Bool Arith Permutation Reals Lra Psatz List Lia.
From Verif Require Import Base StM Num RealNum RSpec VecModel MatModel MatLemmas MatSpec VecProofs VecReal MatProofs MatProofs2 LuProofs StrModel StrSpec StrReal ExtModel ExtProofs BoundsModel CorrModel CorrSpec DataModel DataSpec DataProofs DataReal
  KrigModel KrigSpec KrigMath KrigProofs KrigProofs2 KrigProofs3 KrigProg KrigProofs4 KrigProofs5 PropsData PropsStat PropsLin PropsKrig EaModel EaProofs EaRun EaReal EaDemo EaLive TrainModel TrainProofs TrainReal TrainEval TrainMore TrainObj TrainDemo
  CsvModel CsvSpec CsvProofs PropsCsv RunFileModel RunFileSpec RunFileText TesterModel TesterSpec TesterFrame TesterProofs TesterProofs2 TesterProofs3 TesterProofs4 TesterProofs5.
Import ListNotations.
Local Open Scope R_scope.

(** TrainDemo.two_points and demo_objective for every nugget *)
Section Eps.
  Context (eps : R) (He : 0 < eps).
  Lemma two_points_eps k file c th ga ys y1 : fitted k 1 demo_box false eps [[0; 0]; [1; y1]] file c th ga ys -> kparams 1 th ga ->
    let r := kcorr 1 th ga [0] [1] in krig_interpolate k [0] = Ok (y1 / 2 - y1 / 2 * (1 - r) / (1 + eps - r)).
  Proof.
    intros F HP r. pose proof (kregular_eps 1 th ga eps (points demo_box 1 [[0; 0]; [1; y1]]) HP He) as HR.
    assert (points demo_box 1 [[0; 0]; [1; y1]] = [[0]; [1]]) as EP. { unfold points, inputs, unit_row. cbn. repeat f_equal; field. }
    pose proof (fitted_kriging _ _ _ _ _ _ _ _ _ _ _ F HP HR) as [K1 K2 K3]. rewrite EP in *. pose proof (K1 0%nat ltac:(simpl; lia)) as A0. pose proof (K1 1%nat ltac:(simpl; lia)) as A1.
    unfold mv, kmat in A0, A1. cbn [length rsum nth] in A0, A1, K2, K3. rewrite !kcorr_self in A0, A1 by auto. rewrite (kcorr_sym 1 th ga [1] [0]) in A1. fold r in A0, A1. unfold delta in A0, A1. cbn [Nat.eqb] in A0, A1.
    change (output 1 [[0; 0]; [1; y1]] 0) with 0 in *. change (output 1 [[0; 0]; [1; y1]] 1) with y1 in *.
    set (w0 := vget (k_Rysb k) 0) in *. set (w1 := vget (k_Rysb k) 1) in *. set (be := k_beta0 k) in *.
    pose proof (kcorr_range 1 th ga [0] [1] HP) as Hr. fold r in Hr. assert (w1 = - w0) as Ew by lra. rewrite Ew in *.
    assert (be = y1 / 2) as Eb by lra. rewrite Eb in *. assert (w0 = - (y1 / 2) / (1 + eps - r)) as E0. { apply (Rmult_eq_reg_r (1 + eps - r)); [|lra]. replace (- (y1 / 2) / (1 + eps - r) * (1 + eps - r)) with (- (y1 / 2)) by (field; lra). lra. }
    rewrite (fitted_predict _ _ _ _ _ _ _ _ _ _ _ [0] F HP) by (rewrite ?EP; auto). rewrite EP. f_equal. unfold kpredict. cbn [length rsum nth]. rewrite kcorr_self by auto. fold r w0 w1 be. rewrite Ew, Eb, E0. field. lra.
  Qed.
  Lemma demo_objective_eps k c th0 ga0 ys : fitted k 1 demo_box false eps [[0; 0]; [1; 1]] demo_file c th0 ga0 ys -> d_nv (k_data k) = 1%nat ->
    rows (d_Xval (k_data k)) = [[0]] -> d_yval (k_data k) = [1 / 2] -> forall th g, 0 <= th -> 0 < g <= 2 -> train_objective true k [th; g] = Ok (1 / 2 * (1 - exp (- th)) / (1 + eps - exp (- th))).
  Proof.
    intros F NV XV YV th g H1 H2. unfold train_objective. assert (kparams 1 [th] [g]) as KP. { split; auto. split; auto. intros [|j] Hj; simpl; try lia. lra. }
    destruct (candidate _ _ _ _ _ _ _ _ _ _ _ [th] [g] F eq_refl eq_refl) as (k' & _ & F' & D' & _ & _ & EV). change [th; g] with ([th] ++ [g]). rewrite EV by (rewrite NV; lia). cbn [snd].
    rewrite (v_done _ _ _ _ _ _ _ (ft_solved _ _ _ _ _ _ _ _ _ _ _ F' KP (kregular_eps 1 [th] [g] eps _ KP He))).
    unfold krig_validationError. rewrite D', NV, YV. cbn [Nat.ltb Nat.leb]. pose proof (ft_ready _ _ _ _ _ _ _ _ _ _ _ F') as Q'. rewrite (q_norm _ _ _ _ _ _ _ Q'). cbn [negb loopR bind].
    rewrite (getRow_first _ _ _ XV). pose proof (two_points_eps _ _ _ _ _ _ _ F' KP) as PI. cbv zeta in PI. cbn [bind]. rewrite PI, corr_01. cbn [bind]. unfold vec_at. cbn [length Nat.leb vget nth bind]. f_equal.
    assert (exp (- th) <= 1) as HE. { rewrite <- exp_0. destruct (Req_dec th 0) as [->|]. rewrite Ropp_0. lra. left. apply exp_increasing. lra. }
    set (r := exp (- th)) in *. change ((0 + Rabs (1 / 2 - 1 / 2 * (1 - r) / (1 + eps - r) - 1 / 2)) / 1 = 1 / 2 * (1 - r) / (1 + eps - r)).
    assert (0 <= (1 - r) / (1 + eps - r)) as HQ. { apply Rmult_le_pos. lra. left. apply Rinv_0_lt_compat. lra. }
    replace (1 / 2 - 1 / 2 * (1 - r) / (1 + eps - r) - 1 / 2) with (- (1 / 2 * ((1 - r) / (1 + eps - r)))) by (field; lra). rewrite Rabs_Ropp, Rabs_pos_eq by lra. field. lra.
  Qed.
  Lemma demo_trains (k : krig R) iters c th ga ys : eps < 1 -> (iters <> 0)%nat -> fitted k 1 demo_box false eps [[0; 0]; [1; 1]] demo_file c th ga ys -> full_able (k_data k) 1 demo_box demo_file -> d_nv (k_data k) = 1%nat -> rows (d_Xval (k_data k)) = [[0]] -> d_yval (k_data k) = [1 / 2] ->
    exists t', krig_train (fun _ => live_us demo_u0 demo_u1) (fun _ _ => live_gen demo_u1) [0%nat] (mkTr k iters 1 false true None) = (t', Ok (Some tt)).
  Proof.
    intros He1 Hit F FA NV XV YV. pose proof (ft_ready _ _ _ _ _ _ _ _ _ _ _ F) as [].
    pose proof (demo_objective_eps k c th ga ys F NV XV YV) as HO. pose proof exp_10 as HE.
    apply (train_complete (mkTr k iters 1 false true None) (fun _ => live_us demo_u0 demo_u1) (fun _ _ => live_gen demo_u1) [0%nat] _ _ _ _ _ _ _ _ _ _ [0; 1] 0 F); auto.
    - discriminate.
    - intros _. split; auto. split. apply box01. split. split; [reflexivity|simpl; lia]. cbn. auto.
    - cbn [t_iters t_threads]. rewrite Nat.div_1_r. auto.
    - cbn [t_iters t_threads t_hasval]. rewrite Nat.div_1_r. pose proof (thread_live (tset_iters iters (tset_val true (mkTr k iters 1 false true None))) (train_generations 1 iters) iters demo_u0 demo_u1 [0; 1] [10; 3 / 2]
        (1 / 2 * (1 - exp (- (10))) / (1 + eps - exp (- (10)))) 0 []) as TL. cbv zeta in TL.
      apply TL; clear TL; auto.
      + change (k_dim k <> 0%nat). lia.
      + apply generations_pos.
      + change (vec_randomBetween (@train_lower R RNum (k_dim k)) (train_upper (k_dim k)) demo_u0 = Ok [0; 1]). rewrite q_dim. apply demo_genes0.
      + change (vec_randomBetween (@train_lower R RNum (k_dim k)) (train_upper (k_dim k)) demo_u1 = Ok [10; 3 / 2]). rewrite q_dim. apply demo_genes1.
      + unfold inside, train_conf. cbn [c_dim c_lo c_up tset_iters tset_val t_k]. rewrite q_dim. split; auto. intros [|[|j]] Hj; cbn; lra.
      + change (2 = (2 * k_dim k))%nat. lia.
      + change (train_objective true k [0; 1] = Ok 0). rewrite HO by lra. f_equal. rewrite Ropp_0, exp_0. field. lra.
      + change (train_objective true k [10; 3 / 2] = Ok (1 / 2 * (1 - exp (- (10))) / (1 + eps - exp (- (10))))). apply HO; lra.
      + change (- (10)) with (-10). set (r := exp (-10)) in *. assert (1 / 2 * (1 - r) / (1 + eps - r) * (1 + eps - r) = 1 / 2 * (1 - r)) as HQ by (field; lra). split; nra.
  Qed.
End Eps.
