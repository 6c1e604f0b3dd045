(** A completed training over the reals (the non-vacuity witness of PropsTrain). *)
From Coq Require Import Reals Lra Psatz List Arith Lia ZArith Bool Permutation.
From Verif Require Import Base StM Num RealNum RSpec VecModel MatModel MatLemmas MatSpec VecProofs VecReal MatProofs MatReal LinSolverModel BoundsModel CorrModel CorrSpec CorrProofs CorrObj
  DataModel DataSpec DataProofs DataReal KrigModel KrigSpec KrigMath KrigProofs KrigProofs3 KrigProg KrigProofs4 PropsData KrigProofs5 PropsLin PropsKrig EaModel EaProofs EaRun EaReal EaDemo EaLive PropsEa DetSpec TrainModel TrainProofs TrainReal TrainEval TrainMore TrainObj.
Import ListNotations.
Local Open Scope R_scope.

(** the training of a fitted model completes when the threads do *)
Lemma train_complete (t : trainer R) us ws order d b lin eps tr file c th ga ys best v : fitted (t_k t) d b lin eps tr file c th ga ys -> t_val t = false -> t_warm t = None -> t_threads t <> 0%nat ->
  (t_hasval t = true -> full_able (k_data (t_k t)) d b file /\ box_ok ztol d b /\ table file /\ (0 < nrows file)%nat /\ ncols file = S d) ->
  let n := (t_iters t / t_threads t)%nat in let t1 := tset_iters n (if t_hasval t then tset_val true t else t) in n <> 0%nat ->
  train_threads (train_conf t1 (train_generations d (t_iters t)) n) us ws order ([], ndblmax) = Ok (Some (best, v)) -> length best = (2 * d)%nat ->
  exists t', krig_train us ws order t = (t', Ok (Some tt)).
Proof.
  intros F Hv W Ht HV n t1 Hn HT HL. pose proof (ft_ready _ _ _ _ _ _ _ _ _ _ _ F) as []. unfold krig_train. unfold sbind at 1, sget at 1. rewrite (ft_init _ _ _ _ _ _ _ _ _ _ _ F). cbn [negb]. unfold sthrow_if at 1. unfold sbind at 1, sret at 1.
  assert (t_k t1 = t_k t) as Ek by (unfold t1; destruct (t_hasval t); reflexivity). assert (t_iters t1 = n) as E1 by (unfold t1; destruct (t_hasval t); reflexivity).
  assert (length (firstn d best) = d) as L1 by (rewrite firstn_length; lia). assert (length (skipn d best) = d) as L2 by (rewrite skipn_length; lia).
  assert (train_search us ws order t = (tset_k (with_hyper (firstn d best) (skipn d best) (t_k t)) t1, Ok (Some tt))) as ES.
  { unfold train_search. unfold sbind at 1, sget at 1. rewrite W. rewrite q_dim. unfold sbind at 1, sthrow_if. destruct (Nat.eqb_spec d 0); [lia|]. unfold sret at 1.
    rewrite (sbind_ok _ _ _ (if t_hasval t then tset_val true t else t) tt) by (destruct (t_hasval t); reflexivity).
    destruct (Nat.eqb_spec (t_threads t) 0); [contradiction|]. rewrite (sbind_ok _ _ _ t1 tt) by (unfold t1; destruct (t_hasval t); reflexivity).
    unfold sbind at 1, sget at 1. rewrite E1, optimizer_ok by (rewrite Ek; auto; apply (ft_init _ _ _ _ _ _ _ _ _ _ _ F)). destruct (Nat.eqb_spec n 0); [contradiction|]. cbn [bind]. rewrite HT.
    unfold sbind at 1, slift at 1. unfold vec_head. rewrite Ek, q_dim. destruct (Nat.ltb_spec (length best) d); [lia|]. unfold sbind at 1, slift at 1. unfold vec_tail. destruct (Nat.ltb_spec (length best) d); [lia|]. unfold sbind at 1, slift at 1.
    unfold sbind at 1, in_model, szoom. rewrite Ek, (setHyper_step _ _ _ _ _ _ _ _ _ _ _ best F HL). reflexivity. }
  rewrite (sbind_ok _ _ _ _ _ ES). unfold sbind at 1, sget at 1. destruct (t_hasval t) eqn:EH.
  - destruct (HV eq_refl) as (FA & Hb & Htb & Hnr & Hc). destruct (revert_with _ _ _ _ _ _ _ _ _ _ _ (firstn d best) (skipn d best) F FA Hb Htb Hnr Hc L1 L2) as (k' & ys' & ER & _).
    set (k1 := with_hyper _ _ _) in *. unfold sbind at 1 in ER. destruct (train_revert k1) as [k2 [[]|e|]] eqn:E2; try discriminate.
    exists (tset_k k' (tset_k k2 (tset_k k1 t1))). unfold swhen. change (t_val (tset_k k1 t1)) with true. cbv iota. unfold sbind at 1, in_model at 1, szoom at 1. change (t_k (tset_k k1 t1)) with k1. rewrite E2.
    unfold sbind at 1, in_model at 1, szoom at 1. change (t_k (tset_k k2 (tset_k k1 t1))) with k2. rewrite ER. reflexivity.
  - destruct (update_with _ _ _ _ _ _ _ _ _ _ _ (firstn d best) (skipn d best) F L1 L2) as (k' & ER & _). set (k1 := with_hyper _ _ _) in *. exists (tset_k k' (tset_k k1 t1)).
    change (t_val (tset_k k1 t1)) with (t_val t). rewrite Hv. unfold swhen. unfold sbind at 1, sret at 1. unfold sbind at 1, in_model at 1, szoom at 1. change (t_k (tset_k k1 t1)) with k1. rewrite ER. reflexivity.
Qed.
(** threads whose optimisers find a point with the value 0 in the first draw *)
Lemma thread_live (t : trainer R) gens iters ua ub ga gb v j order : let c := train_conf t gens iters in k_dim (t_k t) <> 0%nat -> gens <> 0%nat -> iters <> 0%nat ->
  vec_randomBetween (c_lo c) (c_up c) ua = Ok ga -> vec_randomBetween (c_lo c) (c_up c) ub = Ok gb -> inside c gb -> length ga = (2 * k_dim (t_k t))%nat ->
  train_objective (t_val t) (t_k t) ga = Ok 0 -> train_objective (t_val t) (t_k t) gb = Ok v -> 1 / 10 <= v < 2 ->
  train_threads c (fun _ => live_us ua ub) (fun _ _ => live_gen ub) (j :: order) ([], ndblmax) = Ok (Some (ga, 0)).
Proof.
  intros c Hd Hg Hi Ra Rb HI La Fa Fb Hv. destruct (conf_check t gens iters Hd Hg Hi) as [HC HS]. fold c in HC, HS.
  destruct (live_run c ga gb ua ub v) as (e & i & E1 & E2 & E3 & E4); auto.
  - unfold c, train_conf. cbn [c_lo c_dim]. unfold train_lower. rewrite app_length, !repeat_length. lia.
  - unfold c, train_conf. cbn [c_up c_dim]. unfold train_upper. rewrite app_length, !repeat_length. lia.
  - unfold c, train_conf. cbn [c_mutp]. replace (Rlit 1 (-1)) with (1 / 10) by (unfold Rlit; simpl; field). lra.
  - change (c_size c) with (Nat.min (2 * k_dim (t_k t) * 100) (50 * 100)). remember (k_dim (t_k t)) as d. remember (50 * 100)%nat as m. assert (2 <= m)%nat. { rewrite Heqm. lia. } lia.
  - change (c_new c) with (200 * k_dim (t_k t))%nat. lia.
  - change (c_deaths c) with (180 * k_dim (t_k t))%nat. change (c_new c) with (200 * k_dim (t_k t))%nat. lia.
  - change (c_dim c) with (2 * k_dim (t_k t))%nat. lia.
  - assert (train_thread c (live_us ua ub) (fun _ => live_gen ub) = Ok (Some i)) as ET. { unfold train_thread. rewrite E1. cbn [bind]. rewrite E2. reflexivity. }
    cbn [train_threads]. rewrite ET. cbn [bind]. unfold train_better at 1. cbn [snd]. rewrite E4, E3. pose proof dblmax_pos as DP.
    change (@nltb R RNum) with Rltb. rewrite (proj2 (Rltb_true 0 _) DP). clear -ET E3 E4. induction order as [|x order IH]; cbn [train_threads]; auto. rewrite ET. cbn [bind]. unfold train_better at 1. cbn [snd].
    rewrite E4. change (@nltb R RNum) with Rltb. rewrite (proj2 (Rltb_false 0 0)) by lra. exact IH.
Qed.

(** two training samples (0, 0) and (1, 1) and the validation sample (0, 1/2) *)
Definition demo_file : mat R := mkMat 3 2 [0; 1; 0;  0; 1; 1 / 2].
Definition demo_box : bnds R := mkB 1 [0] [1] true.
Lemma demo_setup : setup false 1 demo_box (1 / 10) demo_file [] [1] [9 / 5].
Proof.
  constructor; auto; try lia; try lra; try discriminate. apply box01. split; [reflexivity|simpl; lia]. cbn. lia. split; auto. split; auto. intros [|j] Hj; simpl; try lia. lra.
Qed.
Lemma two_points k file c th ga ys y1 : fitted k 1 demo_box false (1 / 10) [[0; 0]; [1; y1]] file c th ga ys -> kparams 1 th ga ->
  let r := kcorr 1 th ga [0] [1] in
  k_beta0 k = y1 / 2 /\ k_s2 k = y1 ^ 2 / (4 * (1 + 1 / 10 - r)) /\ krig_interpolate k [0] = Ok (y1 / 2 - y1 / 2 * (1 - r) / (1 + 1 / 10 - r)).
Proof.
  intros F HP r. pose proof (kregular_eps 1 th ga (1 / 10) (points demo_box 1 [[0; 0]; [1; y1]]) HP ltac:(lra)) as HR.
  assert (points demo_box 1 [[0; 0]; [1; y1]] = [[0]; [1]]) as EP. { unfold points, inputs, unit_row. cbn. repeat f_equal; field. }
  pose proof (fitted_kriging _ _ _ _ _ _ _ _ _ _ _ F HP HR) as [K1 K2 K3]. rewrite EP in *. pose proof (K1 0%nat ltac:(simpl; lia)) as A0. pose proof (K1 1%nat ltac:(simpl; lia)) as A1.
  unfold mv, kmat in A0, A1. cbn [length rsum nth] in A0, A1, K2, K3. rewrite !kcorr_self in A0, A1 by auto. rewrite (kcorr_sym 1 th ga [1] [0]) in A1. fold r in A0, A1. unfold delta in A0, A1. cbn [Nat.eqb] in A0, A1.
  change (output 1 [[0; 0]; [1; y1]] 0) with 0 in *. change (output 1 [[0; 0]; [1; y1]] 1) with y1 in *.
  set (w0 := vget (k_Rysb k) 0) in *. set (w1 := vget (k_Rysb k) 1) in *. set (be := k_beta0 k) in *.
  pose proof (kcorr_range 1 th ga [0] [1] HP) as Hr. fold r in Hr. assert (w1 = - w0) as Ew by lra. rewrite Ew in *.
  assert (be = y1 / 2) as Eb by lra. rewrite Eb in *. assert (w0 = - (y1 / 2) / (1 + 1 / 10 - r)) as E0. { apply (Rmult_eq_reg_r (1 + 1 / 10 - r)); [|lra]. unfold Rdiv at 2. rewrite Rmult_assoc, Rinv_l by lra. lra. }
  split; auto. split.
  - cbn [INR] in K3. rewrite E0 in K3. replace (k_s2 k) with ((1 + 1) * k_s2 k / 2) by field. rewrite K3. field. lra.
  - rewrite (fitted_predict _ _ _ _ _ _ _ _ _ _ _ [0] F HP) by (rewrite ?EP; auto). rewrite EP. f_equal. unfold kpredict. cbn [length rsum nth]. rewrite kcorr_self by auto. fold r w0 w1 be. rewrite Ew, Eb, E0. field. lra.
Qed.
Lemma corr_01 th g : kcorr 1 [th] [g] [0] [1] = exp (- th).
Proof.
  unfold kcorr, Kexp, co. cbn [rsum nth]. f_equal. replace (Rabs (0 - 1)) with 1 by (rewrite Rabs_left; lra). unfold Rpow. destruct (Req_EM_T 1 0); [lra|]. unfold Rpower. rewrite ln_1, Rmult_0_r, exp_0. ring.
Qed.
Lemma exp_10 : 0 < exp (- 10) < 1 / 2.
Proof. split. apply exp_pos. change (- 10) with (Ropp (IZR 10)). rewrite (exp_Ropp 10). apply Rlt_le_trans with (/ 11). apply Rinv_lt_contravar. apply Rmult_lt_0_compat. lra. apply exp_pos. pose proof (exp_ineq1 10). lra. lra. Qed.

Definition demo_u0 (_ : nat) : R := 0.
Definition demo_u1 (_ : nat) : R := 1 / 2.
Lemma demo_genes0 : vec_randomBetween (@train_lower R RNum 1) (train_upper 1) demo_u0 = Ok [0; 1].
Proof. rewrite train_bounds. f_equal. unfold vbuild, unif, demo_u0. cbn. f_equal. ring. f_equal. ring. Qed.
Lemma demo_genes1 : vec_randomBetween (@train_lower R RNum 1) (train_upper 1) demo_u1 = Ok [10; 3 / 2].
Proof. rewrite train_bounds. f_equal. unfold vbuild, unif, demo_u1. cbn. f_equal. field. f_equal. field. Qed.

Lemma getRow_first (m : mat R) r l : rows m = r :: l -> mat_getRow m (Z.of_nat 0) = Ok r.
Proof.
  unfold rows, mat_getRow. destruct (nrows m) as [|n]; intros H; [discriminate|]. cbn [seq map] in H. injection H as <- _. change (Z.of_nat 0) with 0%Z. destruct (Z.leb_spec (Z.of_nat (S n)) 0); [lia|]. reflexivity.
Qed.
(** the validation error of a candidate *)
Lemma demo_objective k c ys : fitted k 1 demo_box false (1 / 10) [[0; 0]; [1; 1]] demo_file c [1] [9 / 5] ys -> d_nv (k_data k) = 1%nat ->
  rows (d_Xval (k_data k)) = [[0]] -> d_yval (k_data k) = [1 / 2] -> forall th g, 0 <= th -> 0 < g <= 2 -> train_objective true k [th; g] = Ok (1 / 2 * (1 - exp (- th)) / (1 + 1 / 10 - exp (- th))).
Proof.
  intros F NV XV YV th g H1 H2. unfold train_objective. assert (kparams 1 [th] [g]) as KP. { split; auto. split; auto. intros [|j] Hj; simpl; try lia. lra. }
  destruct (candidate _ _ _ _ _ _ _ _ _ _ _ [th] [g] F eq_refl eq_refl) as (k' & _ & F' & D' & _ & _ & EV). change [th; g] with ([th] ++ [g]). rewrite EV by (rewrite NV; lia). cbn [snd].
  rewrite (v_done _ _ _ _ _ _ _ (ft_solved _ _ _ _ _ _ _ _ _ _ _ F' KP (kregular_eps 1 [th] [g] (1 / 10) _ KP ltac:(lra)))).
  unfold krig_validationError. rewrite D', NV, YV. cbn [Nat.ltb Nat.leb]. pose proof (ft_ready _ _ _ _ _ _ _ _ _ _ _ F') as Q'. rewrite (q_norm _ _ _ _ _ _ _ Q'). cbn [negb loopR bind].
  rewrite (getRow_first _ _ _ XV). destruct (two_points _ _ _ _ _ _ _ F' KP) as (_ & _ & PI). cbn [bind]. rewrite PI, corr_01. cbn [bind]. unfold vec_at. cbn [length Nat.leb vget nth bind]. f_equal.
  assert (exp (- th) <= 1) as HE. { rewrite <- exp_0. destruct (Req_dec th 0) as [->|]. rewrite Ropp_0. lra. left. apply exp_increasing. lra. }
  set (r := exp (- th)) in *. change ((0 + Rabs (1 / 2 - 1 / 2 * (1 - r) / (1 + 1 / 10 - r) - 1 / 2)) / 1 = 1 / 2 * (1 - r) / (1 + 1 / 10 - r)).
  assert (0 <= (1 - r) / (1 + 1 / 10 - r)) as HQ. { apply Rmult_le_pos. lra. left. apply Rinv_0_lt_compat. lra. }
  replace (1 / 2 - 1 / 2 * (1 - r) / (1 + 1 / 10 - r) - 1 / 2) with (- (1 / 2 * ((1 - r) / (1 + 1 / 10 - r)))) by (field; lra). rewrite Rabs_Ropp, Rabs_pos_eq by lra. field. lra.
Qed.
Lemma demo_permutation : Permutation [2; 0; 1]%nat (seq 0 (nrows demo_file)).
Proof. change (Permutation [2; 0; 1]%nat [0; 1; 2]%nat). apply (Permutation_cons_append [0; 1]%nat 2%nat). Qed.
Lemma demo_session : exists k c ys, krig_session false 1 demo_box (1 / 10) (1 / 2) demo_file [2; 0; 1]%nat [] krig_new = (k, Ok tt) /\
  fitted k 1 demo_box false (1 / 10) [[0; 0]; [1; 1]] demo_file c [1] [9 / 5] ys /\ full_able (k_data k) 1 demo_box demo_file /\ d_nv (k_data k) = 1%nat /\ rows (d_Xval (k_data k)) = [[0]] /\ d_yval (k_data k) = [1 / 2].
Proof.
  destruct (session_split_full false 1 demo_box (1 / 10) (1 / 2) demo_file [2; 0; 1]%nat [] [1] [9 / 5] demo_setup ltac:(lra) demo_permutation) as (k & c & ys & q & E & Hq & Hqn & F & FA & NV & HV).
  assert (q = 1)%nat as ->. { simpl in Hq. destruct q as [|[|q]]; auto. simpl in Hq; lra. rewrite !S_INR in Hq. pose proof (pos_INR q). lra. }
  exists k, c, ys. split; auto. split; auto. split; auto. split; auto. destruct (HV ltac:(lia)) as [XV YV]. split; auto. rewrite XV. unfold points, inputs, unit_row. cbn. repeat f_equal; field.
Qed.
Theorem training_completes : exists k t', krig_session false 1 demo_box (1 / 10) (1 / 2) demo_file [2; 0; 1]%nat [] krig_new = (k, Ok tt) /\
  krig_train (fun _ => live_us demo_u0 demo_u1) (fun _ _ => live_gen demo_u1) [0%nat] (mkTr k 1 1 false true None) = (t', Ok (Some tt)).
Proof.
  destruct demo_session as (k & c & ys & E & F & FA & NV & XV & YV). exists k. pose proof (ft_ready _ _ _ _ _ _ _ _ _ _ _ F) as [].
  pose proof (demo_objective k c ys F NV XV YV) as HO. pose proof exp_10 as HE.
  destruct (train_complete (mkTr k 1 1 false true None) (fun _ => live_us demo_u0 demo_u1) (fun _ _ => live_gen demo_u1) [0%nat] _ _ _ _ _ _ _ _ _ _ [0; 1] 0 F) as (t' & ET); auto.
  - discriminate.
  - intros _. split; auto. split. apply box01. split. split; [reflexivity|simpl; lia]. cbn. auto.
  - discriminate.
  - cbn [t_iters t_threads t_hasval]. change (1 / 1)%nat with 1%nat. pose proof (thread_live (tset_iters 1 (tset_val true (mkTr k 1 1 false true None))) (train_generations 1 1) 1 demo_u0 demo_u1 [0; 1] [10; 3 / 2]
      (1 / 2 * (1 - exp (- (10))) / (1 + 1 / 10 - exp (- (10)))) 0 []) as TL. cbv zeta in TL.
    apply TL; clear TL.
    + change (k_dim k <> 0%nat). lia.
    + apply generations_pos.
    + discriminate.
    + change (vec_randomBetween (@train_lower R RNum (k_dim k)) (train_upper (k_dim k)) demo_u0 = Ok [0; 1]). rewrite q_dim. apply demo_genes0.
    + change (vec_randomBetween (@train_lower R RNum (k_dim k)) (train_upper (k_dim k)) demo_u1 = Ok [10; 3 / 2]). rewrite q_dim. apply demo_genes1.
    + unfold inside, train_conf. cbn [c_dim c_lo c_up tset_iters tset_val t_k]. rewrite q_dim. split; auto. intros [|[|j]] Hj; cbn; lra.
    + change (2 = (2 * k_dim k))%nat. lia.
    + change (train_objective true k [0; 1] = Ok 0). rewrite HO by lra. f_equal. rewrite Ropp_0, exp_0. field.
    + change (train_objective true k [10; 3 / 2] = Ok (1 / 2 * (1 - exp (- (10))) / (1 + 1 / 10 - exp (- (10))))). apply HO; lra.
    + change (- (10)) with (-10). set (r := exp (-10)) in *. assert (1 / 2 * (1 - r) / (1 + 1 / 10 - r) * (1 + 1 / 10 - r) = 1 / 2 * (1 - r)) as HQ by (field; lra). split; nra.
  - exists t'. auto.
Qed.

(** without validation samples: the training minimises the negative likelihood; the second output makes it 0 at the first point *)
Definition like_y : R := sqrt (4 * (1 + 1 / 10 - exp (-10)) / sqrt ((1 + 1 / 10) ^ 2 - exp (-10) ^ 2)).
Definition like_file : mat R := mkMat 2 2 [0; 1;  0; like_y].
Lemma like_setup : setup false 1 demo_box (1 / 10) like_file [] [1] [9 / 5].
Proof.
  constructor; auto; try lia; try lra; try discriminate. apply box01. split; [reflexivity|simpl; lia]. cbn. lia. split; auto. split; auto. intros [|j] Hj; simpl; try lia. lra.
Qed.
Lemma like_objective k c th0 ga0 ys : fitted k 1 demo_box false (1 / 10) [[0; 0]; [1; like_y]] like_file c th0 ga0 ys -> forall th g, 0 <= th -> 0 < g <= 2 -> 
  train_objective false k [th; g] = Ok (ln (like_y ^ 2 / (4 * (1 + 1 / 10 - exp (- th)))) + 1 / 2 * ln ((1 + 1 / 10) ^ 2 - exp (- th) ^ 2)).
Proof.
  intros F th g H1 H2. assert (kparams 1 [th] [g]) as KP. { split; auto. split; auto. intros [|j] Hj; simpl; try lia. lra. }
  destruct (objective_likelihood _ _ _ _ _ _ _ _ _ _ _ [th] [g] F KP ltac:(lra)) as (_ & be & w & s2 & K & EV). change [th; g] with ([th] ++ [g]). rewrite EV.
  destruct (candidate _ _ _ _ _ _ _ _ _ _ _ [th] [g] F eq_refl eq_refl) as (k' & _ & F' & _). destruct (two_points _ _ _ _ _ _ _ F' KP) as (_ & PS & _). rewrite corr_01 in PS.
  pose proof (kregular_eps 1 [th] [g] (1 / 10) (points demo_box 1 [[0; 0]; [1; like_y]]) KP ltac:(lra)) as HR.
  pose proof (fitted_kriging _ _ _ _ _ _ _ _ _ _ _ F' KP HR) as K'. destruct (kriging_unique _ _ _ _ _ HR _ _ _ _ _ _ _ ltac:(cbn; lia) K K') as (_ & _ & ES). rewrite PS in ES. clear K K'.
  assert (points demo_box 1 [[0; 0]; [1; like_y]] = [[0]; [1]]) as EP. { unfold points, inputs, unit_row. cbn. repeat f_equal; field. } rewrite EP. change (length [[0; 0]; [1; like_y]]) with 2%nat.
  assert (exp (- th) <= 1) as HE. { rewrite <- exp_0. destruct (Req_dec th 0) as [->|]. rewrite Ropp_0. lra. left. apply exp_increasing. lra. } pose proof (exp_pos (- th)) as HE0.
  assert (det 2 (kmat 1 [th] [g] (1 / 10) [[0]; [1]]) = (1 + 1 / 10) ^ 2 - exp (- th) ^ 2) as ->.
  { unfold det, kmat, skip. cbn [rsum nth Nat.ltb Nat.leb]. rewrite !kcorr_self by auto. rewrite (kcorr_sym 1 [th] [g] [1] [0]), corr_01. unfold delta. cbn [Nat.eqb]. ring. }
  f_equal. unfold neg_likelihood. pose proof exp_10 as E10. assert (0 < like_y) as HY.
  { unfold like_y. apply sqrt_lt_R0. apply Rmult_lt_0_compat. lra. apply Rinv_0_lt_compat. apply sqrt_lt_R0. nra. }
  assert (0 < s2) as Hs. { rewrite <- ES. apply Rmult_lt_0_compat. nra. apply Rinv_0_lt_compat. lra. }
  destruct (Rlt_dec 0 s2); [|contradiction]. rewrite <- ES. cbn [length INR]. replace ((1 + 1) / 2) with 1 by field. ring.
Qed.
Lemma like_values : let f th := ln (like_y ^ 2 / (4 * (1 + 1 / 10 - exp (- th)))) + 1 / 2 * ln ((1 + 1 / 10) ^ 2 - exp (- th) ^ 2) in f 10 = 0 /\ 1 / 10 <= f 0 < 2.
Proof.
  cbv zeta beta. replace (exp (Ropp (IZR 10))) with (exp (-10)) by reflexivity. pose proof exp_10 as HE. unfold like_y. set (r := exp (-10)) in *. rewrite Ropp_0, exp_0.
  assert (0 < (1 + 1 / 10) ^ 2 - r ^ 2) as H1 by nra. set (q := sqrt ((1 + 1 / 10) ^ 2 - r ^ 2)). assert (0 < q) as Hq by (apply sqrt_lt_R0; auto). assert (q * q = (1 + 1 / 10) ^ 2 - r ^ 2) as Hqq by (apply sqrt_sqrt; lra).
  assert (0 < 4 * (1 + 1 / 10 - r) / q) as H2. { apply Rmult_lt_0_compat. lra. apply Rinv_0_lt_compat; auto. }
  rewrite pow2_sqrt by lra. rewrite <- Hqq. rewrite (ln_mult q q) by auto. split.
  - replace (4 * (1 + 1 / 10 - r) / q / (4 * (1 + 1 / 10 - r))) with (/ q) by (field; lra). rewrite ln_Rinv by auto. field.
  - replace ((1 + 1 / 10) ^ 2 - 1 ^ 2) with (21 / 100) by field. set (p := sqrt (21 / 100)). assert (p * p = 21 / 100) as Hpp by (apply sqrt_sqrt; lra). assert (0 < p) as Hp by (apply sqrt_lt_R0; lra).
    rewrite <- Hpp. rewrite (ln_mult p p) by auto. replace (1 / 2 * (ln p + ln p)) with (ln p) by field.
    set (z := 4 * (1 + 1 / 10 - r) / q / (4 * (1 + 1 / 10 - 1))). assert (z * q = 10 * (1 + 1 / 10 - r)) as Hz by (unfold z; field; lra). assert (0 < z) as Hz0 by nra.
    rewrite <- ln_mult by auto. assert (45 / 100 < p < 46 / 100) as Bp by (split; nra). assert (q <= 11 / 10) as Bq by nra. assert (9 / 10 < q) as Bq' by nra.
    assert (5 < z) as Z1 by nra. split.
    + rewrite <- (ln_exp (1 / 10)). left. apply ln_increasing. apply exp_pos. assert (exp (1 / 10) <= 2); [|nra]. pose proof (exp_ineq1_le (- (1 / 10))) as I. rewrite exp_Ropp in I. pose proof (exp_pos (1 / 10)) as P0.
      assert (exp (1 / 10) * / exp (1 / 10) = 1) by (apply Rinv_r; lra). nra.
    + rewrite <- (ln_exp 2). apply ln_increasing. apply Rmult_lt_0_compat; auto. pose proof (exp_ineq1_le (1 / 2)) as I. replace 2 with (1 / 2 + 1 / 2 + (1 / 2 + 1 / 2)) by field. rewrite !exp_plus. assert (1 + 1 / 10 - r <= q) as Bq2 by nra. assert (z <= 10) as Z3 by nra. assert (z * p <= 46 / 10) by nra.
      set (x := exp (1 / 2)) in *. assert (9 / 4 <= x * x) by nra. nra.
Qed.
(** a training without validation samples, with two threads *)
Lemma like_trains k iters c th ga ys : fitted k 1 demo_box false (1 / 10) (rows like_file) like_file c th ga ys -> (iters / 2 <> 0)%nat ->
  exists t', krig_train (fun _ => live_us demo_u1 demo_u0) (fun _ _ => live_gen demo_u0) [0; 1]%nat (mkTr k iters 2 false false None) = (t', Ok (Some tt)) /\
    exists k' th' ga' ys', t' = mkTr k' (iters / 2) 2 false false None /\ fitted k' 1 demo_box false (1 / 10) (rows like_file) like_file c th' ga' ys'.
Proof.
  intros F Hi. pose proof F as F0. change (rows like_file) with [[0; 0]; [1; like_y]] in F0. pose proof (ft_ready _ _ _ _ _ _ _ _ _ _ _ F) as [].
  pose proof (like_objective k c th ga ys F0) as HO. pose proof like_values as [V1 V2].
  assert (forall j k i, 0 <= (fun _ : nat => live_us demo_u1 demo_u0) j k i < 1) as HU. { intros j [|k0] i; cbn; unfold demo_u0, demo_u1; lra. }
  destruct (train_complete (mkTr k iters 2 false false None) (fun _ => live_us demo_u1 demo_u0) (fun _ _ => live_gen demo_u0) [0; 1]%nat _ _ _ _ _ _ _ _ _ _ [10; 3 / 2] 0 F) as (t' & ET); auto.
  - discriminate.
  - discriminate.
  - cbn [t_iters t_threads t_hasval]. pose proof (thread_live (tset_iters (iters / 2) (mkTr k iters 2 false false None)) (train_generations 1 iters) (iters / 2) demo_u1 demo_u0 [10; 3 / 2] [0; 1]
      (ln (like_y ^ 2 / (4 * (1 + 1 / 10 - exp (- 0)))) + 1 / 2 * ln ((1 + 1 / 10) ^ 2 - exp (- 0) ^ 2)) 0 [1%nat]) as TL. cbv zeta in TL.
    apply TL; clear TL; auto.
    + change (k_dim k <> 0%nat). lia.
    + apply generations_pos.
    + change (vec_randomBetween (@train_lower R RNum (k_dim k)) (train_upper (k_dim k)) demo_u1 = Ok [10; 3 / 2]). rewrite q_dim. apply demo_genes1.
    + change (vec_randomBetween (@train_lower R RNum (k_dim k)) (train_upper (k_dim k)) demo_u0 = Ok [0; 1]). rewrite q_dim. apply demo_genes0.
    + unfold inside, train_conf. cbn [c_dim c_lo c_up tset_iters tset_val t_k]. rewrite q_dim. split; auto. intros [|[|j]] Hj; cbn; lra.
    + change (2 = (2 * k_dim k))%nat. lia.
    + change (train_objective false k [10; 3 / 2] = Ok 0). rewrite HO by lra. f_equal. exact V1.
    + change (train_objective false k [0; 1] = Ok (ln (like_y ^ 2 / (4 * (1 + 1 / 10 - exp (- 0)))) + 1 / 2 * ln ((1 + 1 / 10) ^ 2 - exp (- 0) ^ 2))). apply HO; lra.
  - exists t'. split; auto.
    destruct (train_fitted (mkTr k iters 2 false false None) t' _ _ _ _ _ _ _ _ _ _ _ _ _ HU eq_refl F eq_refl ltac:(discriminate) ET) as (best & v & th' & ga' & ys' & _ & _ & _ & _ & F' & I1 & I2 & I3 & I4 & I5 & _).
    cbn [t_hasval t_iters t_threads] in *. destruct t' as [k' it tn vl hv w]. cbn in *. subst. exists k', th', ga', ys'. auto.
Qed.
(** a candidate outside the search box whose matrix is not positive definite, and one whose matrix is *)
Lemma failing_candidate k c th ga ys file y1 : fitted k 1 demo_box false (1 / 10) [[0; 0]; [1; y1]] file c th ga ys ->
  exists k', krig_update (with_hyper [-1] [1] k) = (k', Ok tt) /\ mat_cholesky (corr_matrix k') = Ok None /\ cs_done (k_sys k') = false /\
    ((0 < d_nv (k_data k))%nat -> train_evaluate true [-1; 1] k = (k', Ok (- ndblmax))).
Proof.
  intros F. destruct (candidate _ _ _ _ _ _ _ _ _ _ _ [-1] [1] F eq_refl eq_refl) as (k' & U & _ & _ & HM & _ & EV). exists k'. split; auto.
  assert (mat_cholesky (corr_matrix k') = Ok None) as HC.
  { apply (cholesky2_fails _ (1 + 1 / 10) (exp 1)); [|lra|pose proof (exp_ineq1 1); lra]. destruct HM as (W & M1 & M2 & M3). cbn [length] in *. split; auto. split; auto. split; auto.
    assert (upts demo_box 1 [[0; 0]; [1; y1]] = [[0]; [1]]) as EP. { unfold upts, inputs, unit_row. cbn. repeat f_equal; field. } rewrite EP in M3.
    intros i j Hi Hj. rewrite M3 by auto. unfold cmat, delta. destruct (Nat.eqb_spec i j). ring. rewrite Rmult_0_r, Rplus_0_r.
    assert (Rabs (nth 0 (nth i [[0]; [1]] []) 0 - nth 0 (nth j [[0]; [1]] []) 0) = 1) as HA.
    { destruct i as [|[|i]]; destruct j as [|[|j]]; cbn; try lia. rewrite Rabs_left; lra. rewrite Rabs_pos_eq; lra. }
    rewrite exp_corr_eq. cbn [rsum]. change (nth 0 [-1] 0) with (-1). change (nth 0 [1] 0) with 1. rewrite HA. unfold Rpow. destruct (Req_EM_T 1 0); [lra|]. unfold Rpower. rewrite ln_1, Rmult_0_r, exp_0. f_equal. ring. }
  split; auto. destruct (update_factor _ _ U) as [[D _]|[_ [L HL]]]; [|congruence]. split; auto. intros Hn. specialize (EV Hn). rewrite D in EV. exact EV.
Qed.
