(** A program run that completes (the non-vacuity witness of PropsMain): one parameter, two training samples, one evaluation, nugget 1e-12. *)
From Coq Require Import Ascii String ZArith Bool Arith Permutation Reals Lra Psatz List Lia.
From Verif Require Import Base StM Num RealNum RSpec VecModel MatModel MatLemmas MatSpec VecProofs VecReal MatProofs MatProofs2 BoundsModel CorrModel CorrSpec DataModel DataSpec DataProofs DataReal
  KrigModel KrigSpec KrigMath KrigProofs KrigProofs3 KrigProg KrigProofs4 PropsData KrigProofs5 PropsLin PropsKrig EaModel EaProofs EaRun EaReal EaDemo EaLive PropsEa DetSpec TrainModel TrainProofs TrainReal TrainEval TrainMore TrainObj TrainDemo.
Import ListNotations.
Local Open Scope R_scope.

(** *** a training by likelihood for a small nugget *)
Section Like.
  Context (eps : R) (He : 0 < eps <= 1 / 1000).
  Notation r0 := (exp (-10)).
  Definition small_y : R := sqrt (4 * (1 + eps - r0) / sqrt ((1 + eps) ^ 2 - r0 ^ 2)).
  Lemma exp_10' : 0 < r0 < 1 / 100.
  Proof.
    split; [apply exp_pos|]. pose proof (exp_ineq1_le 2) as E. replace (-10) with (- (2 + 2 + 2 + 2 + 2)) by ring. rewrite exp_Ropp, !exp_plus. set (x := exp 2) in *. assert (9 <= x * x) by nra. assert (81 <= x * x * x * x) by nra.
    assert (100 < x * x * x * x * x) by nra. rewrite <- (Rinv_involutive (1 / 100)) by lra. apply Rinv_lt_contravar; [|lra]. apply Rmult_lt_0_compat; [apply Rinv_0_lt_compat; lra|lra].
  Qed.
  Lemma small_pos : 0 < small_y.
  Proof.
    pose proof exp_10' as E. unfold small_y. apply sqrt_lt_R0. apply Rmult_lt_0_compat. lra. apply Rinv_0_lt_compat. apply sqrt_lt_R0. nra.
  Qed.
  Lemma two_small k file c th ga ys y1 : fitted k 1 demo_box false eps [[0; 0]; [1; y1]] file c th ga ys -> kparams 1 th ga -> k_s2 k = y1 ^ 2 / (4 * (1 + eps - kcorr 1 th ga [0] [1])).
  Proof.
    intros F HP. pose proof (kregular_eps 1 th ga eps (points demo_box 1 [[0; 0]; [1; y1]]) HP ltac:(lra)) as HR.
    assert (points demo_box 1 [[0; 0]; [1; y1]] = [[0]; [1]]) as EP. { unfold points, inputs, unit_row. cbn. repeat f_equal; field. }
    pose proof (fitted_kriging _ _ _ _ _ _ _ _ _ _ _ F HP HR) as [K1 K2 K3]. rewrite EP in *. pose proof (K1 0%nat ltac:(simpl; lia)) as A0. pose proof (K1 1%nat ltac:(simpl; lia)) as A1.
    unfold mv, kmat in A0, A1. cbn [length rsum nth] in A0, A1, K2, K3. rewrite !kcorr_self in A0, A1 by auto. rewrite (kcorr_sym 1 th ga [1] [0]) in A1. set (r := kcorr 1 th ga [0] [1]) in *. unfold delta in A0, A1. cbn [Nat.eqb] in A0, A1.
    change (output 1 [[0; 0]; [1; y1]] 0) with 0 in *. change (output 1 [[0; 0]; [1; y1]] 1) with y1 in *.
    set (w0 := vget (k_Rysb k) 0) in *. set (w1 := vget (k_Rysb k) 1) in *. set (be := k_beta0 k) in *.
    pose proof (kcorr_range 1 th ga [0] [1] HP) as Hr. fold r in Hr. assert (w1 = - w0) as Ew by lra. rewrite Ew in *. cbn [trend] in *.
    assert (be = y1 / 2) as Eb by lra. rewrite Eb in *. assert (w0 = - (y1 / 2) / (1 + eps - r)) as E0. { apply (Rmult_eq_reg_r (1 + eps - r)); [|lra]. replace (- (y1 / 2) / (1 + eps - r) * (1 + eps - r)) with (- (y1 / 2)) by (field; lra). lra. }
    rewrite E0 in K3. cbn [INR] in K3. apply (Rmult_eq_reg_l (1 + 1)); [|lra]. rewrite K3. field. lra.
  Qed.
  Notation f th := (ln (small_y ^ 2 / (4 * (1 + eps - exp (- th)))) + 1 / 2 * ln ((1 + eps) ^ 2 - exp (- th) ^ 2)).
  Lemma small_objective k file c th0 ga0 ys : fitted k 1 demo_box false eps [[0; 0]; [1; small_y]] file c th0 ga0 ys -> forall th g, 0 <= th -> 0 < g <= 2 -> train_objective false k [th; g] = Ok (f th).
  Proof.
    intros F th g H1 H2. assert (kparams 1 [th] [g]) as KP. { split; auto. split; auto. intros [|j] Hj; simpl; try lia. lra. }
    destruct (objective_likelihood _ _ _ _ _ _ _ _ _ _ _ [th] [g] F KP ltac:(lra)) as (_ & be & w & s2 & K & EV). change [th; g] with ([th] ++ [g]). rewrite EV.
    destruct (candidate _ _ _ _ _ _ _ _ _ _ _ [th] [g] F eq_refl eq_refl) as (k' & _ & F' & _). pose proof (two_small _ _ _ _ _ _ _ F' KP) as PS. rewrite corr_01 in PS.
    pose proof (kregular_eps 1 [th] [g] eps (points demo_box 1 [[0; 0]; [1; small_y]]) KP ltac:(lra)) as HR.
    pose proof (fitted_kriging _ _ _ _ _ _ _ _ _ _ _ F' KP HR) as K'. destruct (kriging_unique _ _ _ _ _ HR _ _ _ _ _ _ _ ltac:(cbn; lia) K K') as (_ & _ & ES). rewrite PS in ES. clear K K'.
    assert (points demo_box 1 [[0; 0]; [1; small_y]] = [[0]; [1]]) as EP. { unfold points, inputs, unit_row. cbn. repeat f_equal; field. } rewrite EP. change (length [[0; 0]; [1; small_y]]) with 2%nat.
    assert (exp (- th) <= 1) as HE. { rewrite <- exp_0. destruct (Req_dec th 0) as [->|]. rewrite Ropp_0. lra. left. apply exp_increasing. lra. } pose proof (exp_pos (- th)) as HE0.
    assert (det 2 (kmat 1 [th] [g] eps [[0]; [1]]) = (1 + eps) ^ 2 - exp (- th) ^ 2) as ->.
    { unfold det, kmat, skip. cbn [rsum nth Nat.ltb Nat.leb]. rewrite !kcorr_self by auto. rewrite (kcorr_sym 1 [th] [g] [1] [0]), corr_01. unfold delta. cbn [Nat.eqb]. ring. }
    f_equal. unfold neg_likelihood. pose proof small_pos as HY. assert (0 < s2) as Hs. { rewrite <- ES. apply Rmult_lt_0_compat. nra. apply Rinv_0_lt_compat. lra. }
    destruct (Rlt_dec 0 s2); [|contradiction]. rewrite <- ES. cbn [length INR]. replace ((1 + 1) / 2) with 1 by field. ring.
  Qed.
  Lemma small_values : f 10 = 0 /\ 1 / 10 <= f (ln 2) < 2.
  Proof.
    replace (exp (Ropp (IZR 10))) with r0 by reflexivity. pose proof exp_10' as HE. unfold small_y. set (r := r0) in *. rewrite exp_Ropp, exp_ln by lra. clearbody r. set (h := / 2). assert (h = 1 / 2) as Hh by (unfold h; lra). clearbody h. subst h.
    assert (0 < (1 + eps) ^ 2 - r ^ 2) as H1 by nra. set (q := sqrt ((1 + eps) ^ 2 - r ^ 2)). assert (0 < q) as Hq by (apply sqrt_lt_R0; auto). assert (q * q = (1 + eps) ^ 2 - r ^ 2) as Hqq by (apply sqrt_sqrt; lra). clearbody q.
    assert (0 < 4 * (1 + eps - r) / q) as H2. { apply Rmult_lt_0_compat. lra. apply Rinv_0_lt_compat; auto. }
    rewrite pow2_sqrt by lra. rewrite <- Hqq. rewrite (ln_mult q q) by auto. split.
    - replace (4 * (1 + eps - r) / q / (4 * (1 + eps - r))) with (/ q) by (field; lra). rewrite ln_Rinv by auto. field.
    - set (p := sqrt ((1 + eps) ^ 2 - (1 / 2) ^ 2)). assert (0 < (1 + eps) ^ 2 - (1 / 2) ^ 2) as H3 by nra. assert (p * p = (1 + eps) ^ 2 - (1 / 2) ^ 2) as Hpp by (apply sqrt_sqrt; lra). assert (0 < p) as Hp by (apply sqrt_lt_R0; lra). clearbody p.
      rewrite <- Hpp. rewrite (ln_mult p p) by auto. replace (1 / 2 * (ln p + ln p)) with (ln p) by field.
      set (z := 4 * (1 + eps - r) / q / (4 * (1 + eps - 1 / 2))). assert (z * (q * (1 / 2 + eps)) = 1 + eps - r) as Hz by (unfold z; field; lra).
      assert (8 / 10 < p < 9 / 10) as Bp by (split; nra). assert (q <= 101 / 100) as Bq by nra. assert (9 / 10 < q) as Bq' by nra. assert (45 / 100 < q * (1 / 2 + eps) < 51 / 100) as Bz by (split; nra). clearbody z.
      assert (18 / 10 < z < 25 / 10) as Z1 by (split; nra). rewrite <- ln_mult by lra. split.
      + rewrite <- (ln_exp (1 / 10)). left. apply ln_increasing. apply exp_pos. assert (exp (1 / 10) <= 12 / 10); [|nra]. pose proof (exp_ineq1_le (- (1 / 10))) as I. rewrite exp_Ropp in I. pose proof (exp_pos (1 / 10)) as P0.
        assert (exp (1 / 10) * / exp (1 / 10) = 1) by (apply Rinv_r; lra). nra.
      + rewrite <- (ln_exp 2). apply ln_increasing. apply Rmult_lt_0_compat; lra. pose proof (exp_ineq1_le 2) as I. nra.
  Qed.
  (** the draws: the first candidate is theta = 10, all the others theta = ln 2 *)
  Definition small_u (_ : nat) : R := ln 2 / 20.
  Lemma ln2_bounds : 0 < ln 2 < 1.
  Proof. split. rewrite <- ln_1. apply ln_increasing; lra. rewrite <- (ln_exp 1). apply ln_increasing. lra. pose proof (exp_ineq1 1 ltac:(lra)). lra. Qed.
  Lemma small_genes : vec_randomBetween (@train_lower R RNum 1) (train_upper 1) small_u = Ok [ln 2; 1 + ln 2 / 20].
  Proof. rewrite train_bounds. f_equal. unfold vbuild, unif, small_u. cbn. f_equal. field. f_equal. field. Qed.
  Lemma small_trains (k : krig R) iters file c th ga ys : (iters <> 0)%nat -> fitted k 1 demo_box false eps [[0; 0]; [1; small_y]] file c th ga ys ->
    exists t', krig_train (fun _ => live_us demo_u1 small_u) (fun _ _ => live_gen small_u) [0%nat] (mkTr k iters 1 false false None) = (t', Ok (Some tt)).
  Proof.
    intros Hit F. pose proof (ft_ready _ _ _ _ _ _ _ _ _ _ _ F) as []. pose proof (small_objective k file c th ga ys F) as HO. pose proof small_values as [V1 V2]. pose proof ln2_bounds as LB.
    apply (train_complete (mkTr k iters 1 false false None) (fun _ => live_us demo_u1 small_u) (fun _ _ => live_gen small_u) [0%nat] _ _ _ _ _ _ _ _ _ _ [10; 3 / 2] 0 F); auto.
    - discriminate.
    - discriminate.
    - cbn [t_iters t_threads]. rewrite Nat.div_1_r. auto.
    - cbn [t_iters t_threads t_hasval]. rewrite Nat.div_1_r. pose proof (thread_live (tset_iters iters (mkTr k iters 1 false false None)) (train_generations 1 iters) iters demo_u1 small_u [10; 3 / 2] [ln 2; 1 + ln 2 / 20] (f (ln 2)) 0 []) as TL. cbv zeta in TL.
      apply TL; clear TL; auto.
      + change (k_dim k <> 0%nat). lia.
      + apply generations_pos.
      + change (vec_randomBetween (@train_lower R RNum (k_dim k)) (train_upper (k_dim k)) demo_u1 = Ok [10; 3 / 2]). rewrite q_dim. apply demo_genes1.
      + change (vec_randomBetween (@train_lower R RNum (k_dim k)) (train_upper (k_dim k)) small_u = Ok [ln 2; 1 + ln 2 / 20]). rewrite q_dim. apply small_genes.
      + unfold inside, train_conf. cbn [c_dim c_lo c_up tset_iters tset_val t_k]. rewrite q_dim. split; auto. intros [|[|j]] Hj; cbn in *; try lia; lra.
      + change (2 = (2 * k_dim k))%nat. lia.
      + change (train_objective false k [10; 3 / 2] = Ok 0). rewrite HO by lra. f_equal. exact V1.
      + change (train_objective false k [ln 2; 1 + ln 2 / 20] = Ok (f (ln 2))). apply HO; lra.
  Qed.
End Like.
