(** C107: whole runs of the optimiser in doubles. *)
From Coq Require Import ZArith Bool Arith SpecFloat Reals Lra List Lia.
From Verif Require Import Base StM Num NumFloat FloatSpec FloatFlocq FloatOpt FloatDesign VecModel MatModel MatSpec OptModel OptRun PropsOpt PropsRounding FloatRun.
Import ListNotations.
Local Open Scope R_scope.

(** From a new optimiser to the last iteration: wherever the run stops, and whatever the simulations and the surrogates answered,
    every point at which the objective was evaluated has its coordinates in the box, up to 2^-50 of the larger bound.
    Assumed: a box and training designs that are not near overflow, random numbers in [0,1), positive steps of the discrete parameters. *)
Theorem C107_run_in_box : forall (c : cfg F) (es : nat -> env F) fuel s' r,
  (1 <= Z.of_nat (c_dim c) <= 2 ^ 53)%Z -> float_box (c_dim c) (c_lb c) (c_ub c) -> increments (c_dim c) (c_disc c) ->
  (forall row j, In row (rows (c_data c)) -> (j < c_dim c)%nat -> moderate (pow2 1021) (ent row j)) ->
  (forall k i j, draw (e_u1 (es k) i j) /\ draw (e_u2 (es k) i j)) ->
  (forall k f sg, never_wins (e_acq (es k) f sg) /\ forall v, double (e_ei (es k) f sg v)) ->
  whole_run fuel c es = Some (s', r) ->
  forall x, In x (s_pts s') -> almost_inside (pow2 (-50)) (c_dim c) (c_lb c) (c_ub c) x.
Proof.
  intros c es fuel s' r Hd Hb Hi Hdat Hu Ha H.
  assert (forall k, calm (es k)) as He. { intros k. split. intros; apply Hu. split. intros; apply Hu. split. intros; apply Ha. intros; apply Ha. }
  unfold whole_run in H. pose proof (setup_pts c ost_new) as S0. destruct (optSetup c ost_new) as [s0 r0] eqn:E0. cbn [fst] in S0. change (s_pts (@ost_new F FNum)) with (@nil (vec F)) in S0.
  destruct r0 as [u|?|]; try (injection H as <- <-; intros x Hx; rewrite S0 in Hx; destruct Hx).
  unfold ego in H. pose proof (start_pts c (Ok tt) s0) as S1. destruct (startRun c (Ok tt) s0) as [s1 r1] eqn:E1. cbn [fst] in S1. rewrite S0 in S1.
  destruct r1 as [u1|?|]; try (injection H as <- <-; intros x Hx; rewrite S1 in Hx; destruct Hx).
  pose proof (startRun_J c Hd Hb (Ok tt) Hdat s0 s1 u1 (optSetup_P0 c _ _ E0) E1) as HJ.
  destruct (loop_inside c Hd Hb Hi es He fuel 0 s1 s' r HJ H) as (new & N1 & N2). rewrite N1, S1. exact N2.
Qed.
(** after a run that ends well the size of the trust region is a positive double of at most 1, and so are its limits *)
Theorem C107_trust_region : forall (c : cfg F) (es : nat -> env F) fuel s',
  (1 <= Z.of_nat (c_dim c) <= 2 ^ 53)%Z -> float_box (c_dim c) (c_lb c) (c_ub c) -> increments (c_dim c) (c_disc c) ->
  (forall row j, In row (rows (c_data c)) -> (j < c_dim c)%nat -> moderate (pow2 1021) (ent row j)) ->
  (forall k i j, draw (e_u1 (es k) i j) /\ draw (e_u2 (es k) i j)) ->
  (forall k f sg, never_wins (e_acq (es k) f sg) /\ forall v, double (e_ei (es k) f sg v)) ->
  whole_run fuel c es = Some (s', Ok tt) ->
  forall l, l = s_trLen s' \/ l = s_trMax s' \/ l = s_trMin s' -> double l /\ finite l /\ 0 < val l <= 1.
Proof.
  intros c es fuel s' Hd Hb Hi Hdat Hu Ha H.
  assert (forall k, calm (es k)) as He. { intros k. split. intros; apply Hu. split. intros; apply Hu. split. intros; apply Ha. intros; apply Ha. }
  unfold whole_run in H. destruct (optSetup c ost_new) as [s0 [u| |]] eqn:E0; try discriminate.
  unfold ego in H. destruct (startRun c (Ok tt) s0) as [s1 [u1| |]] eqn:E1; try discriminate.
  pose proof (startRun_J c Hd Hb (Ok tt) Hdat s0 s1 u1 (optSetup_P0 c _ _ E0) E1) as HJ.
  destruct (loop_J c Hd Hb Hi es He fuel 0 s1 s' HJ H) as (((A & B & C) & _) & _). intros l [-> | [-> | ->]]; assumption.
Qed.
(** the designs the run leaves in its history: of the training data, or as the theorem on the evaluated points says *)
Theorem C107_history : forall (c : cfg F) (es : nat -> env F) fuel s',
  (1 <= Z.of_nat (c_dim c) <= 2 ^ 53)%Z -> float_box (c_dim c) (c_lb c) (c_ub c) -> increments (c_dim c) (c_disc c) ->
  (forall row j, In row (rows (c_data c)) -> (j < c_dim c)%nat -> moderate (pow2 1021) (ent row j)) ->
  (forall k i j, draw (e_u1 (es k) i j) /\ draw (e_u2 (es k) i j)) ->
  (forall k f sg, never_wins (e_acq (es k) f sg) /\ forall v, double (e_ei (es k) f sg v)) ->
  whole_run fuel c es = Some (s', Ok tt) ->
  forall row j, In row (rows (HistModel.h_data (s_hist s'))) -> (j < c_dim c)%nat -> moderate (pow2 1021) (ent row j).
Proof.
  intros c es fuel s' Hd Hb Hi Hdat Hu Ha H.
  assert (forall k, calm (es k)) as He. { intros k. split. intros; apply Hu. split. intros; apply Hu. split. intros; apply Ha. intros; apply Ha. }
  unfold whole_run in H. destruct (optSetup c ost_new) as [s0 [u| |]] eqn:E0; try discriminate.
  unfold ego in H. destruct (startRun c (Ok tt) s0) as [s1 [u1| |]] eqn:E1; try discriminate.
  pose proof (startRun_J c Hd Hb (Ok tt) Hdat s0 s1 u1 (optSetup_P0 c _ _ E0) E1) as HJ.
  destruct (loop_J c Hd Hb Hi es He fuel 0 s1 s' HJ H) as (_ & _ & R & _). exact R.
Qed.
Print Assumptions C107_run_in_box. Print Assumptions C107_trust_region. Print Assumptions C107_history.
(** a run with two parameters, one of them discrete, meets the hypotheses and evaluates a point *)
Example C107_example : (1 <= Z.of_nat (c_dim demo_cfg) <= 2 ^ 53)%Z /\ float_box (c_dim demo_cfg) (c_lb demo_cfg) (c_ub demo_cfg) /\ increments (c_dim demo_cfg) (c_disc demo_cfg) /\
  (forall row j, In row (rows (c_data demo_cfg)) -> (j < c_dim demo_cfg)%nat -> moderate (pow2 1021) (ent row j)) /\
  (forall i j, draw (e_u1 demo_env i j) /\ draw (e_u2 demo_env i j)) /\
  (forall f sg, never_wins (e_acq demo_env f sg) /\ forall v, double (e_ei demo_env f sg v)) /\
  exists s' x, whole_run 1 demo_cfg (fun _ => demo_env) = Some (s', Ok tt) /\ s_pts s' = [x].
Proof.
  destruct C106_example as (A & B & C & D & E & G & I & _). split; [exact A|]. split; [exact B|]. split; [exact C|]. split.
  { intros row j [<-|[]] Hj. destruct j as [|[|j]]; [| |cbn in Hj; lia]; (apply moderate_ok; [lia|vm_compute; reflexivity]). }
  split. { intros i j; split; [apply D|apply E]. } split. { intros f sg. split; [apply G|apply I]. }
  eexists. eexists. split. vm_compute. reflexivity. vm_compute. reflexivity.
Qed.
