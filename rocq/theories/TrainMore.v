(** Exceptions, order of the threads, budget, warm start. *)
From Coq Require Import Reals Lra List Arith Lia ZArith Bool Permutation.
From Verif Require Import Base StM Num RealNum RSpec VecModel MatModel MatLemmas MatSpec VecProofs VecReal MatProofs MatProofs2 MatProofs3 MatReal LinSolverModel BoundsModel CorrModel CorrProofs CorrSpec CorrObj
  DataModel DataSpec DataProofs DataReal KrigModel KrigSpec KrigMath KrigProofs KrigProofs2 KrigProofs3 KrigProg KrigProofs4 PropsData KrigProofs5 EaModel EaProofs EaRun EaReal EaDemo PropsEa TrainModel TrainProofs TrainReal TrainEval.
Import ListNotations.
Local Open Scope R_scope.

(** *** order *)
Lemma threads_of_list {T} {NT : Num T} (c : econf T) us ws order l : Forall2 (fun j i => train_thread c (us j) (ws j) = Ok (Some i)) order l ->
  forall g, train_threads c us ws order g = Ok (Some (fold_left train_better l g)).
Proof. induction 1; intros g; cbn [train_threads fold_left]; auto. rewrite H. cbn [bind]. auto. Qed.
Lemma forall2_permutation {A B} (P : A -> B -> Prop) a a' : Permutation a a' -> forall b, Forall2 P a b -> exists b', Forall2 P a' b' /\ Permutation b b'.
Proof.
  induction 1; intros b H'.
  - inversion H'; subst. exists []. auto.
  - inversion H'; subst. destruct (IHPermutation _ H4) as (b' & B1 & B2). exists (y :: b'). auto.
  - inversion H'; subst. inversion H3; subst. exists (y1 :: y0 :: l'0). split; auto. apply perm_swap.
  - destruct (IHPermutation1 _ H') as (b1 & B1 & B2). destruct (IHPermutation2 _ B1) as (b2 & B3 & B4). exists b2. split; auto. eapply perm_trans; eauto.
Qed.
Lemma better_order (l l' : list (ind R)) g : Permutation l l' -> snd (fold_left train_better l g) = snd (fold_left train_better l' g).
Proof.
  intros HP. destruct (better_fold l g) as (A1 & A2 & A3), (better_fold l' g) as (B1 & B2 & B3). apply Rle_antisym.
  - destruct B3 as [->|(i & I1 & I2 & _)]; auto. rewrite I2. apply A2. apply (Permutation_in _ (Permutation_sym HP)); auto.
  - destruct A3 as [->|(i & I1 & I2 & _)]; auto. rewrite I2. apply B2. apply (Permutation_in _ HP); auto.
Qed.
Lemma threads_order (c : econf R) us ws order order' best v : Permutation order order' -> train_threads c us ws order ([], ndblmax) = Ok (Some (best, v)) ->
  exists best', train_threads c us ws order' ([], ndblmax) = Ok (Some (best', v)).
Proof.
  intros HP HT. destruct (threads_list _ _ _ _ _ _ HT) as (l & L1 & L2). destruct (forall2_permutation _ _ _ HP _ L1) as (l' & L3 & L4).
  rewrite (threads_of_list _ _ _ _ _ L3). pose proof (better_order _ _ ([], @ndblmax R RNum) L4) as E. rewrite <- L2 in E. cbn [snd] in E. destruct (fold_left train_better l' ([], ndblmax)) as [b' v']. exists b'. cbn [snd] in E. subst. auto.
Qed.

(** *** exceptions *)
Lemma vec_gt_bounds d : vec_gt (train_upper d) (train_lower d) = Ok true.
Proof.
  unfold vec_gt, train_upper, train_lower. rewrite !app_length, !repeat_length, Nat.eqb_refl. f_equal. apply forallb_forall. intros i Hi. apply in_seq in Hi. unfold vget.
  assert (forall (x y : R), nth i (repeat x d ++ repeat y d) n0 = if Nat.ltb i d then x else y) as N.
  { intros x y. destruct (Nat.ltb_spec i d).
    - rewrite app_nth1 by (rewrite repeat_length; auto). rewrite (nth_indep _ n0 x) by (rewrite repeat_length; auto). apply nth_repeat.
    - rewrite app_nth2 by (rewrite repeat_length; auto). rewrite repeat_length. rewrite (nth_indep _ n0 y) by (rewrite repeat_length; lia). apply nth_repeat. }
  rewrite !N. change (@nofZ R RNum 20) with 20. change (@nofZ R RNum 2) with 2. change (@n0 R RNum) with 0. change (@n1 R RNum) with 1. change (@nleb R RNum) with Rleb.
  destruct (Nat.ltb i d). destruct (Rleb_spec 20 0); auto; lra. destruct (Rleb_spec 2 1); auto; lra.
Qed.
Definition train_conf (t : trainer R) (gens iters : nat) : econf R :=
  let d := k_dim (t_k t) in mkEC (2 * d) (train_lower d) (train_upper d) true (Rlit 1 (-1)) (Nat.min (2 * d * 100) (50 * 100)) (200 * d) (180 * d) gens iters (train_objective (t_val t) (t_k t)).
Lemma optimizer_ok (t : trainer R) gens iters : k_read (t_k t) = true -> k_norm (t_k t) = true -> k_init (t_k t) = true ->
  train_optimizer t gens iters = if Nat.eqb iters 0 then Throw InvalidArgument else Ok (train_conf t gens iters).
Proof.
  intros H1 H2 H3. unfold train_optimizer. rewrite H1, H2, H3. cbn [negb]. set (d := k_dim (t_k t)). unfold ec_setBounds. cbn [c_dim].
  assert (length (@train_lower R RNum d) = (2 * d)%nat) as L1 by (unfold train_lower; rewrite app_length, !repeat_length; lia).
  assert (length (@train_upper R RNum d) = (2 * d)%nat) as L2 by (unfold train_upper; rewrite app_length, !repeat_length; lia).
  rewrite L1, L2, Nat.eqb_refl. cbn [negb]. rewrite vec_gt_bounds. cbn [bind negb]. unfold ec_setMutation.
  assert (((@nlit R RNum 1 (-1) <=! n0) || (n1 <=! @nlit R RNum 1 (-1)))%bool = false) as ->.
  { change (@nlit R RNum 1 (-1)) with (Rlit 1 (-1)). replace (Rlit 1 (-1)) with (1 / 10) by (unfold Rlit; simpl; field). change (@nleb R RNum) with Rleb. change (@n0 R RNum) with 0. change (@n1 R RNum) with 1.
    destruct (Rleb_spec (1 / 10) 0); [lra|]. destruct (Rleb_spec 1 (1 / 10)); [lra|]. auto. }
  cbn [bind]. unfold ec_setMax. destruct (Nat.eqb iters 0); reflexivity.
Qed.
Definition trainable (t : trainer R) : Prop := k_read (t_k t) = true /\ k_norm (t_k t) = true /\ k_init (t_k t) = true /\ k_dim (t_k t) <> 0%nat /\ t_threads t <> 0%nat /\ t_warm t = None.
Lemma search_start (t : trainer R) us ws order : trainable t ->
  let t1 := tset_iters (t_iters t / t_threads t) (if t_hasval t then tset_val true t else t) in
  let n := (t_iters t / t_threads t)%nat in
  forall e, (if Nat.eqb n 0 then Throw InvalidArgument else train_threads (train_conf t1 (train_generations (k_dim (t_k t)) (t_iters t)) n) us ws order ([], ndblmax)) = Throw e ->
  snd (krig_train us ws order t) = Throw e.
Proof.
  intros (H1 & H2 & H3 & H4 & H5 & H6) t1 n e HE. unfold krig_train. unfold sbind at 1, sget at 1. rewrite H3. cbn [negb]. unfold sthrow_if at 1. unfold sbind at 1, sret at 1.
  unfold sbind at 1. unfold train_search. unfold sbind at 1, sget at 1. rewrite H6. unfold sbind at 1, sthrow_if. destruct (Nat.eqb_spec (k_dim (t_k t)) 0); [contradiction|]. unfold sret at 1.
  rewrite (sbind_ok _ _ _ (if t_hasval t then tset_val true t else t) tt) by (destruct (t_hasval t); reflexivity).
  destruct (Nat.eqb_spec (t_threads t) 0); [contradiction|]. rewrite (sbind_ok _ _ _ t1 tt) by (unfold t1; destruct (t_hasval t); reflexivity).
  unfold sbind at 1, sget at 1. assert (t_iters t1 = n) as E1 by (unfold t1; destruct (t_hasval t); reflexivity). assert (t_k t1 = t_k t) as Ek by (unfold t1; destruct (t_hasval t); reflexivity).
  rewrite E1, optimizer_ok by (rewrite Ek; auto). unfold sbind at 1, slift at 1. destruct (Nat.eqb n 0). injection HE as <-. reflexivity. cbn [bind]. rewrite HE. reflexivity.
Qed.
Lemma exhausted (t : trainer R) us ws order : trainable t -> (t_iters t < t_threads t)%nat -> snd (krig_train us ws order t) = Throw InvalidArgument.
Proof. intros HT HL. apply search_start; auto. rewrite Nat.div_small by auto. reflexivity. Qed.

Lemma randomBetween_ok (lo up : list R) u : length lo = length up -> (forall i, (i < length lo)%nat -> nth i lo 0 <= nth i up 0) ->
  vec_randomBetween lo up u = Ok (vbuild (length lo) (fun i => unif (vget lo i) (vget up i) (u i))).
Proof.
  intros HL HB. unfold vec_randomBetween. rewrite HL, Nat.eqb_refl. cbn [negb]. rewrite <- HL.
  assert (existsb (fun i => vget lo i >! vget up i) (seq 0 (length lo)) = false) as ->; auto.
  destruct (existsb _ _) eqn:E; auto. apply existsb_exists in E. destruct E as (i & I1 & I2). apply in_seq in I1. change (Rltb (nth i up 0) (nth i lo 0) = true) in I2. apply Rltb_true in I2. specialize (HB i ltac:(lia)). lra.
Qed.

(** *** the matrix of a candidate *)
Ltac sstep H := apply sbind_inv in H; let k := fresh "k" in let a := fresh "a" in let H1 := fresh "H" in destruct H as (k & a & H1 & H).
Lemma update_matrix {T} {NT : Num T} {NF : NumFun T} (k k' : krig T) : krig_update k = (k', Ok tt) -> exists c, ecf_computeMatrix (k_cf k) = (c, Ok tt) /\ corr_matrix k' = cb_R (ec_b c).
Proof.
  intros H. unfold krig_update in H. sstep H. injection H0 as <- <-.
  do 5 (sstep H; apply throw_if_inv in H0; destruct H0 as [_ ->]).
  sstep H. unfold in_kcf in H0. apply zoom_inv in H0. destruct H0 as (c & H0 & ->). match type of H0 with _ = (_, Ok ?u) => destruct u end. exists c. split; auto.
  sstep H. injection H1 as <- <-. sstep H. unfold in_ksys in H1. apply zoom_inv in H1. destruct H1 as (s & H1 & ->).
  assert (forall k2 : krig T, k_cf k2 = c -> corr_matrix k2 = cb_R (ec_b c)) as FIN by (intros k2 E; unfold corr_matrix; rewrite E; auto).
  sstep H. injection H2 as <- <-. unfold krig_resize in H. sstep H. sstep H2. injection H3 as <- <-. sstep H2. apply throw_if_inv in H3. destruct H3 as [_ ->]. injection H2 as <- <-.
  sstep H. injection H2 as <- <-. unfold swhen in H. destruct (chol_isDone _).
  - do 7 (sstep H; unfold slift in H2; injection H2 as <- _). injection H as <-. apply FIN; reflexivity.
  - injection H as <-. apply FIN; reflexivity.
Qed.
Lemma candidate k d b lin eps tr file c th0 ga0 ys th ga : fitted k d b lin eps tr file c th0 ga0 ys -> length th = d -> length ga = d ->
  exists k', krig_update (with_hyper th ga k) = (k', Ok tt) /\ fitted k' d b lin eps tr file c th ga ys /\ k_data k' = k_data k /\
    is_mat (corr_matrix k') (length tr) (length tr) (cmat d th ga eps (upts b d tr)) /\
    (train_evaluate false (th ++ ga) k = (get l <-- krig_likelihood (th ++ ga); sret (nopp n1 *! l)) k) /\
    ((0 < d_nv (k_data k))%nat -> train_evaluate true (th ++ ga) k = (k', if cs_done (k_sys k') then krig_validationError k' else Ok (- ndblmax))).
Proof.
  intros F L1 L2. destruct (update_with _ _ _ _ _ _ _ _ _ _ _ th ga F L1 L2) as (k' & E & F' & D). exists k'. split; auto. split; auto. split; auto.
  pose proof (ft_ready _ _ _ _ _ _ _ _ _ _ _ F) as Q. destruct Q. assert (length (upts b d tr) = length tr) as LU by apply points_length.
  split; [|split].
  - destruct (update_matrix _ _ E) as (c' & EC & ->). destruct (exp_compute_ok _ _ EC) as (_ & _ & _ & _ & _ & _ & HM). cbn [with_hyper kset_cf k_cf ec_b ec_theta ec_gamma] in HM.
    rewrite q_r, q_c, q_eps, LU in HM. destruct HM as (W & H1 & H2 & H3). split; auto. split; auto. split; auto. intros i j Hi Hj. rewrite H3 by auto. unfold cmat. rewrite <- q_rows.
    rewrite !nth_rows by (rewrite q_r; lia). auto.
  - reflexivity.
  - intros Hv. unfold train_evaluate, krig_validationErrorFor. unfold sbind at 1, sget at 1. rewrite q_read, q_norm. cbn [negb]. unfold sthrow_if at 1 2. do 2 (unfold sbind at 1, sret at 1).
    rewrite q_n. destruct (Nat.eqb_spec (length (upts b d tr)) 0); [lia|]. unfold sthrow_if at 1. unfold sbind at 1, sret at 1. destruct (Nat.eqb_spec (d_nv (k_data k)) 0); [lia|]. unfold sthrow_if at 1. unfold sbind at 1, sret at 1.
    rewrite (sbind_ok _ _ _ _ _ (setHyper_step _ _ _ _ _ _ _ _ _ _ _ (th ++ ga) F ltac:(rewrite app_length; lia))).
    rewrite firstn_app, L1, Nat.sub_diag, firstn_O, app_nil_r, firstn_all2 by lia. rewrite skipn_app, L1, Nat.sub_diag, skipn_all2 by lia. cbn [app skipn].
    rewrite (sbind_ok _ _ _ _ _ E). unfold sbind at 1, sget at 1. unfold chol_isDone. destruct (cs_done (k_sys k')); cbn [negb].
    unfold slift. reflexivity. unfold sret. do 2 f_equal. change (0 - @ndblmax R RNum = - @ndblmax R RNum). ring.
Qed.
Lemma cholesky2_fails (A : mat R) a e : is_mat A 2 2 (fun i j => if Nat.eqb i j then a else e) -> 0 < a -> a < e -> mat_cholesky A = Ok None.
Proof.
  intros (W & H1 & H2 & H3) Ha He. unfold mat_cholesky. rewrite H1, H2, Nat.eqb_refl. cbn [negb].
  pose proof (H3 0 0 ltac:(lia) ltac:(lia))%nat as A00. pose proof (H3 1 0 ltac:(lia) ltac:(lia))%nat as A10. pose proof (H3 1 1 ltac:(lia) ltac:(lia))%nat as A11. cbn [Nat.eqb] in *.
  unfold chol_loop, chol_row. cbn [loop Nat.add]. unfold chol_entry. cbn [Nat.eqb nsum]. rewrite A00, A10, A11.
  change (@nltb R RNum) with Rltb. change (@nsub R RNum) with Rminus. change (@nadd R RNum) with Rplus. change (@nmul R RNum) with Rmult. change (@ndiv R RNum) with Rdiv. change (@nsqrt R RNum) with sqrt. change (@n0 R RNum) with 0. change (@n1 R RNum) with 1.
  destruct (Rltb_spec (a - 0) 0); [lra|].
  cbn -[Rltb sqrt Rdiv Rmult Rplus Rminus]. rewrite ?Rminus_0_r.
  match goal with |- context[Rltb ?x 0] => destruct (Rltb_spec x 0) as [HH|_] end. lra.
  change (mget (mset (mat_zero 2 2) 0 0 (sqrt a)) 0 0) with (sqrt a).
  change (mget (mset (mset (mat_zero 2 2) 0 0 (sqrt a)) 1 0 (1 / sqrt a * e)) 1 0) with (1 / sqrt a * e).
  match goal with |- context[Rltb ?x 0] => destruct (Rltb_spec x 0) as [|C] end. reflexivity.
  exfalso. revert C. set (r := sqrt a). assert (0 < r) as Hr by (apply sqrt_lt_R0; auto). assert (r * r = a) as Hrr by (apply sqrt_sqrt; lra).
  intros C. assert (1 / r * e * (1 / r * e) = e * e / a) as E by (rewrite <- Hrr; field; lra).
  assert (a < e * e / a). { apply (Rmult_lt_reg_r a); auto. unfold Rdiv. rewrite Rmult_assoc, Rinv_l, Rmult_1_r by lra. nra. }
  rewrite ?Rplus_0_l in C. lra.
Qed.

(** *** objective functions that throw *)
Lemma loopR_throw {S} n f (s : S) e : f 0%nat s = Throw e -> (0 < n)%nat -> loopR n f s = Throw e.
Proof. intros H Hn. induction n. lia. cbn [loopR]. destruct n. cbn [loopR bind]. auto. rewrite IHn by lia. auto. Qed.
Lemma train_bounds d u : vec_randomBetween (train_lower d) (train_upper d) u = Ok (vbuild (2 * d) (fun i => unif (vget (@train_lower R RNum d) i) (vget (train_upper d) i) (u i))).
Proof.
  assert (length (@train_lower R RNum d) = (2 * d)%nat) as L1 by (unfold train_lower; rewrite app_length, !repeat_length; lia).
  assert (length (@train_upper R RNum d) = (2 * d)%nat) as L2 by (unfold train_upper; rewrite app_length, !repeat_length; lia).
  rewrite randomBetween_ok. rewrite L1. auto. lia. intros i Hi. pose proof (vec_gt_bounds d) as G. unfold vec_gt in G. rewrite L1, L2, Nat.eqb_refl in G. injection G as G. rewrite forallb_forall in G.
  specialize (G i ltac:(apply in_seq; lia)). apply negb_true_iff in G. change (Rleb (nth i (train_upper d) 0) (nth i (train_lower d) 0) = false) in G. destruct (Rleb_spec (nth i (train_upper d) 0) (nth i (train_lower d) 0)); [discriminate|]. lra.
Qed.
Lemma conf_check (t : trainer R) gens iters : k_dim (t_k t) <> 0%nat -> gens <> 0%nat -> iters <> 0%nat -> ec_check (train_conf t gens iters) = Ok tt /\ c_size (train_conf t gens iters) <> 0%nat.
Proof.
  intros Hd Hg Hi. unfold ec_check, train_conf. cbn [c_dim c_bset c_size c_new c_deaths c_gens c_max negb]. set (d := k_dim (t_k t)) in *.
  remember (2 * d * 100)%nat as a eqn:Ea. remember (50 * 100)%nat as b eqn:Eb. remember (200 * d)%nat as n1 eqn:E1. remember (180 * d)%nat as n2 eqn:E2. remember (2 * d)%nat as n3 eqn:E3.
  assert (b <> 0)%nat as Hb by (rewrite Eb; discriminate). clear Eb. assert (n2 < n1)%nat by lia.
  assert (Nat.min a b <> 0)%nat as Hm by lia. split; auto.
  destruct (Nat.eqb_spec n1 0); [lia|]. destruct (Nat.eqb_spec (Nat.min a b) 0); [lia|]. destruct (Nat.eqb_spec n3 0); [lia|]. destruct (Nat.eqb_spec gens 0); [lia|]. destruct (Nat.eqb_spec iters 0); [lia|].
  destruct (Nat.leb_spec (Nat.min a b + n1) n2); [lia|]. auto.
Qed.
Lemma thread_throws (t : trainer R) gens iters us ws e : k_dim (t_k t) <> 0%nat -> gens <> 0%nat -> iters <> 0%nat -> (forall h, length h = (2 * k_dim (t_k t))%nat -> train_objective (t_val t) (t_k t) h = Throw e) ->
  train_thread (train_conf t gens iters) us ws = Throw e.
Proof.
  intros Hd Hg Hi HO. unfold train_thread, ea_optimize. destruct (conf_check t gens iters Hd Hg Hi) as [-> Hs]. cbn [bind]. unfold ea_initialize.
  destruct (Nat.eqb_spec (c_size (train_conf t gens iters)) 0); [contradiction|]. change (c_bset (train_conf t gens iters)) with true. cbn [negb].
  rewrite (loopR_throw (c_size (train_conf t gens iters)) _ _ e); [reflexivity| |lia].
  unfold ea_random. change (c_bset (train_conf t gens iters)) with true. cbn [negb]. change (c_lo (train_conf t gens iters)) with (@train_lower R RNum (k_dim (t_k t))). change (c_up (train_conf t gens iters)) with (@train_upper R RNum (k_dim (t_k t))).
  change (c_dim (train_conf t gens iters)) with (2 * k_dim (t_k t))%nat. rewrite train_bounds. cbn [bind]. set (g := vbuild _ _). assert (length g = (2 * k_dim (t_k t))%nat) as Lg by (unfold g, vbuild; rewrite map_length, seq_length; auto).
  unfold ind_initGenes. change (i_dim (ind_new (2 * k_dim (t_k t)))) with (2 * k_dim (t_k t))%nat. rewrite Lg, Nat.eqb_refl. cbn [negb bind]. unfold ea_call. change (c_dim (train_conf t gens iters)) with (2 * k_dim (t_k t))%nat.
  change (i_genes (iset_id _ (iset_genes g _))) with g. rewrite Lg, Nat.eqb_refl. destruct (Nat.eqb_spec (2 * k_dim (t_k t)) 0); [lia|]. cbn [negb]. change (c_f (train_conf t gens iters)) with (train_objective (t_val t) (t_k t)). rewrite HO by auto. reflexivity.
Qed.
Lemma generations_pos d n : train_generations d n <> 0%nat.
Proof. unfold train_generations. remember (n / (200 * d))%nat as x. destruct (Nat.eqb_spec x 0); auto. Qed.
(** training by the validation error of a model without validation samples *)
Lemma no_validation (t : trainer R) us ws j order : trainable t -> k_n (t_k t) <> 0%nat -> t_hasval t = true -> d_nv (k_data (t_k t)) = 0%nat -> snd (krig_train us ws (j :: order) t) = Throw InvalidArgument.
Proof.
  intros HT Hn HV Hq. apply search_start; auto. destruct HT as (H1 & H2 & H3 & H4 & H5 & H6). destruct (Nat.eqb_spec (t_iters t / t_threads t) 0) as [|Hi]; auto.
  cbn [train_threads]. rewrite (thread_throws _ _ _ _ _ InvalidArgument); auto.
  - rewrite HV. exact H4.
  - apply generations_pos.
  - rewrite HV. intros h _. cbn [t_val tset_val tset_iters t_k]. unfold train_objective, train_evaluate, krig_validationErrorFor. unfold sbind at 1, sget at 1. rewrite H1, H2, Hq. cbn [negb]. unfold sthrow_if. cbn [sbind sret].
    destruct (Nat.eqb_spec (k_n (t_k t)) 0); [contradiction|]. reflexivity.
Qed.

(** *** warm start *)
Lemma warm_start (t : trainer R) us ws order d b lin eps tr file c th0 ga0 ys th ga : fitted (t_k t) d b lin eps tr file c th0 ga0 ys -> t_warm t = Some (th ++ ga) -> length th = d -> length ga = d -> t_val t = false ->
  exists t', krig_train us ws order t = (t', Ok (Some tt)) /\ fitted (t_k t') d b lin eps tr file c th ga ys /\ t_iters t' = t_iters t.
Proof.
  intros F W L1 L2 HV. destruct (update_with _ _ _ _ _ _ _ _ _ _ _ th ga F L1 L2) as (k' & E & F' & D). exists (tset_k k' (tset_k (with_hyper th ga (t_k t)) t)). split; [|split]; auto.
  pose proof (ft_ready _ _ _ _ _ _ _ _ _ _ _ F) as []. unfold krig_train. unfold sbind at 1, sget at 1. rewrite (ft_init _ _ _ _ _ _ _ _ _ _ _ F). cbn [negb]. unfold sthrow_if at 1. unfold sbind at 1, sret at 1.
  rewrite (sbind_ok _ _ _ (tset_k (with_hyper th ga (t_k t)) t) (Some tt)).
  - unfold sbind at 1, sget at 1. change (t_val (tset_k (with_hyper th ga (t_k t)) t)) with (t_val t). rewrite HV. cbn [swhen]. unfold sbind at 1, sret at 1. unfold sbind at 1, in_model, szoom at 1. change (t_k (tset_k (with_hyper th ga (t_k t)) t)) with (with_hyper th ga (t_k t)). rewrite E. reflexivity.
  - unfold train_search. unfold sbind at 1, sget at 1. rewrite W. unfold sbind at 1, in_model, szoom at 1. unfold krig_loadHyper. unfold sbind at 1, sget at 1. rewrite q_dim. destruct (Nat.eqb_spec d 0); [lia|]. unfold sthrow_if at 1. unfold sbind at 1, sret at 1.
    rewrite q_nhyp, app_length, L1, L2. replace (d + d)%nat with (2 * d)%nat by lia. rewrite Nat.eqb_refl. cbn [swhen]. rewrite (ft_ddim _ _ _ _ _ _ _ _ _ _ _ F).
    assert (vec_head (th ++ ga) d = Ok th) as ->. { unfold vec_head. rewrite app_length. destruct (Nat.ltb_spec (length th + length ga) d); [lia|]. rewrite firstn_app, L1, Nat.sub_diag, firstn_O, app_nil_r, firstn_all2 by lia. auto. }
    assert (vec_tail (th ++ ga) d = Ok ga) as ->. { unfold vec_tail. rewrite app_length. destruct (Nat.ltb_spec (length th + length ga) d); [lia|]. f_equal. replace (length th + length ga - d)%nat with d by lia. rewrite skipn_app, L1, Nat.sub_diag, skipn_all2 by lia. auto. }
    unfold sbind at 1, slift at 1. unfold sbind at 1, slift at 1.
    assert (ecf_setTheta (k_cf (t_k t)) th = (mkE (ec_b (k_cf (t_k t))) th (ec_gamma (k_cf (t_k t))), Ok tt)) as E1.
    { unfold ecf_setTheta. rewrite L1, q_cd, Nat.eqb_refl. destruct (Nat.eqb_spec d 0); [lia|]. reflexivity. }
    assert (ecf_setGamma (mkE (ec_b (k_cf (t_k t))) th (ec_gamma (k_cf (t_k t)))) ga = (mkE (ec_b (k_cf (t_k t))) th ga, Ok tt)) as E2.
    { unfold ecf_setGamma. cbn [ec_b]. rewrite L2, q_cd, Nat.eqb_refl. destruct (Nat.eqb_spec d 0); [lia|]. reflexivity. }
    unfold sbind at 1, in_kcf, szoom at 1. rewrite E1. unfold szoom. change (k_cf (kset_cf ?c ?k)) with c. rewrite E2. reflexivity.
Qed.
Lemma fitted_hyper k d b lin eps tr file c th ga ys : fitted k d b lin eps tr file c th ga ys -> krig_getHyper k = Ok (th ++ ga).
Proof.
  intros F. pose proof (ft_ready _ _ _ _ _ _ _ _ _ _ _ F) as []. unfold krig_getHyper, ecf_getHyper. rewrite q_th, q_ga, q_cd, q_lth, q_lga, Nat.ltb_irrefl. destruct (Nat.eqb_spec d 0); [lia|]. cbn [orb]. f_equal.
  apply (list_ext _ _ 0). unfold vbuild. rewrite map_length, seq_length, app_length. lia. intros i Hi. unfold vbuild in *. rewrite map_length, seq_length in Hi. rewrite nth_map_seq by auto. cbn [Nat.add]. destruct (Nat.ltb_spec i d).
  rewrite app_nth1 by lia. reflexivity. rewrite app_nth2 by lia. rewrite q_lth. reflexivity.
Qed.
