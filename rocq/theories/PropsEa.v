(** Properties C50-C55 of properties.jsonl: the evolutionary optimiser. *)
From Coq Require Import Reals Lra Psatz List Arith Lia ZArith Bool Permutation Sorted SpecFloat.
From Verif Require Import Base Num RealNum NumFloat RSpec VecModel MatModel MatLemmas PropsStat PropsLin EaModel EaProofs EaRun EaReal EaDemo.
Import ListNotations.
Local Open Scope R_scope.

(** ** Vocabulary of the statements *)
(** all individuals an optimiser object holds: the population, the children, the removed ones and the history *)
Definition everyone {T} (e : ea T) : list (ind T) := p_inds (e_pop e) ++ p_inds (e_gen e) ++ p_inds (e_rem e) ++ p_inds (e_hist e).
(** identifier, genes and objective value of each individual *)
Definition seen {T} (p : pop T) : list (nat * (vec T * T)) := map (fun i => (i_id i, (i_genes i, i_obj i))) (p_inds p).

(** ** C50 *)
Lemma demo_us_ok k j : 0 <= demo_us k j < 1.
Proof. unfold demo_us. destruct k; lra. Qed.
Lemma everyone_in_history c g d (e : ea R) i : book c g d e -> In i (everyone e) -> exists j, In j (p_inds (e_hist e)) /\ core j = core i.
Proof.
  intros B Hi. unfold everyone in Hi. apply in_app_or in Hi. destruct Hi as [Hi|Hi]; [eapply pop_in_hist; eauto|].
  apply in_app_or in Hi. destruct Hi as [Hi|Hi]; [|apply in_app_or in Hi; destruct Hi as [Hi|Hi]; [|eauto]].
  - rewrite (bk_gen _ _ _ _ B) in Hi. exists i. split; auto. rewrite <- (firstn_skipn (c_size c) (p_inds (e_hist e))). apply in_or_app; auto.
  - apply (bk_remin _ _ _ _ B) in Hi. unfold cores in Hi. apply in_map_iff in Hi. destruct Hi as (j & J1 & J2). eauto.
Qed.
(** every individual of a completed run has as many genes as the problem has dimensions, all inside the box, and carries the objective
    value of exactly these genes *)
Theorem C50_genes_in_box : forall (c : econf R) us ws dim e, (forall k j, 0 <= us k j < 1) -> ea_optimize c us ws (ea_new dim) = Ok (Some e) ->
  forall i, In i (everyone e) ->
    length (i_genes i) = c_dim c /\ (forall k, (k < c_dim c)%nat -> nth k (c_lo c) 0 <= nth k (i_genes i) 0 <= nth k (c_up c) 0) /\
    c_f c (i_genes i) = Ok (i_obj i).
Proof.
  intros c us ws dim e Hu H i Hi. destruct (book_run c us ws dim e H) as (g & _ & B & _).
  destruct (everyone_in_history _ _ _ _ _ B Hi) as (j & J1 & J2). pose proof (run_sound c us ws dim e Hu H j J1) as [[S1 S2] S3].
  injection J2 as _ J3 J4. cbn in S1, S2, S3. rewrite J3 in *. rewrite J4 in *. auto.
Qed.
Print Assumptions C50_genes_in_box.
(** the reported solution is one of them *)
Theorem C50_solution : forall (c : econf R) us ws dim e, (forall k j, 0 <= us k j < 1) -> ea_optimize c us ws (ea_new dim) = Ok (Some e) ->
  exists i, ea_solution e = Ok i /\ In i (p_inds (e_pop e)) /\
    (forall k, (k < c_dim c)%nat -> nth k (c_lo c) 0 <= nth k (i_genes i) 0 <= nth k (c_up c) 0) /\ c_f c (i_genes i) = Ok (i_obj i).
Proof.
  intros c us ws dim e Hu H. destruct (run_solution _ _ _ _ _ H) as [i Hi]. exists i. split; auto.
  unfold ea_solution, pop_best in Hi. apply get_spec in Hi. destruct Hi as (a & b & E & _). assert (In i (p_inds (e_pop e))) as Hin by (rewrite E; apply in_or_app; cbn; auto).
  split; auto. apply (C50_genes_in_box c us ws dim e Hu H i). unfold everyone. apply in_or_app; auto.
Qed.
Print Assumptions C50_solution.
(** one child: whatever the parents and the random numbers *)
Theorem C50_child : forall (c : econf R) mo fa z u m g, length (i_genes mo) = c_dim c -> ea_crossOver c mo fa z u m = Ok g ->
  length g = c_dim c /\ forall k, (k < c_dim c)%nat -> nth k (c_lo c) 0 <= nth k g 0 <= nth k (c_up c) 0.
Proof. intros c mo fa z u m g. apply crossOver_inside. Qed.
Print Assumptions C50_child.
Example C50_example : exists e, ea_optimize demo demo_us demo_ws (ea_new 1) = Ok (Some e) /\ length (p_inds (e_hist e)) = 3%nat /\
  forall i, In i (everyone e) -> 0 <= nth 0 (i_genes i) 0 <= 2 /\ i_obj i = nth 0 (i_genes i) 0.
Proof.
  destruct demo_run as (e & H & _ & K). exists e. split; auto. split. apply (f_equal (@length _)) in K. unfold cores in K. rewrite map_length in K. auto.
  intros i Hi. destruct (C50_genes_in_box demo demo_us demo_ws 1 e demo_us_ok H i Hi) as (_ & B & E). split.
  apply (B 0%nat). cbn; lia. cbn in E. congruence.
Qed.

(** ** C51 *)
(** the fitness of each individual after the update *)
Theorem C51_fitness : forall (p q : pop R), pop_update p = Ok q -> p_min p < p_max p -> (forall i, In i (p_inds p) -> p_min p <= i_obj i <= p_max p) ->
  seen q = seen p /\
  (forall i, In i (p_inds q) -> 1 / 100 <= i_fit i <= 1) /\
  (forall i, In i (p_inds q) -> i_obj i = p_min p -> i_fit i = 1) /\
  (forall i, In i (p_inds q) -> i_obj i = p_max p -> i_fit i = 1 / 100) /\
  (forall i j, In i (p_inds q) -> In j (p_inds q) -> i_obj i < i_obj j -> i_fit j < i_fit i).
Proof.
  intros p q H Hlt Hb. pose proof (update_rated _ _ H) as HR. destruct (update_core _ _ H) as [HC _]. split; [exact HC|].
  assert (forall i, In i (p_inds q) -> p_min p <= i_obj i <= p_max p) as Hq.
  { intros i Hi. apply cores_in in Hi. rewrite HC in Hi. unfold cores in Hi. apply in_map_iff in Hi. destruct Hi as (j & J1 & J2). injection J1 as _ _ <-. auto. }
  split; [|split; [|split]].
  - intros i Hi. destruct (rt_fit _ _ HR i Hi) as [-> _]. apply quad_range; auto.
  - intros i Hi E. destruct (rt_fit _ _ HR i Hi) as [-> _]. rewrite E. apply quad_best. lra.
  - intros i Hi E. destruct (rt_fit _ _ HR i Hi) as [-> _]. rewrite E. apply quad_worst.
  - intros i j Hi Hj Hij. destruct (rt_fit _ _ HR i Hi) as [-> _]. destruct (rt_fit _ _ HR j Hj) as [-> _]. apply quad_decr; auto. specialize (Hq j Hj). lra.
Qed.
Print Assumptions C51_fitness.
(** the update fails when all objective values coincide, so an initial population on a flat part of the objective stops the run *)
Lemma fit_singular m : singular 3 (mget (fit_matrix m m)).
Proof.
  exists (fun k => match k with 0%nat => 1 | 1%nat => - 2 * m | 2%nat => m * m | _ => 0 end). split. exists 0%nat. split; [lia|lra].
  intros [|[|[|i]]] Hi; try lia; unfold mv; cbn; ring.
Qed.
Theorem C51_equal_values_rejected : forall (p : pop R), p_inds p <> [] -> p_min p = p_max p -> pop_update p = Throw RuntimeError.
Proof.
  intros p Hn E. unfold pop_update, pop_fitness. destruct (Nat.eqb_spec (length (p_inds p)) 0); auto.
  destruct (all_zero (p_inds p)); auto. unfold pop_coefficients. rewrite E.
  destruct (C22_invert_throws (fit_matrix (p_max p) (p_max p))) as (_ & _ & K); try reflexivity. cbn; lia.
  destruct K as [_ ->]. apply fit_singular. reflexivity.
Qed.
Print Assumptions C51_equal_values_rejected.
(** so does a population whose values are all below 1e-14 in absolute value *)
Theorem C51_tiny_values_rejected : forall (p : pop R), (forall i, In i (p_inds p) -> Rabs (i_obj i) < 1 / 10 ^ 14) -> pop_update p = Throw RuntimeError.
Proof.
  intros p H. unfold pop_update, pop_fitness. destruct (Nat.eqb_spec (length (p_inds p)) 0); auto.
  assert (all_zero (p_inds p) = true) as ->; auto. unfold all_zero. apply forallb_forall. intros i Hi. cbn. apply Rltb_true.
  replace (Rlit 1 (-14)) with (1 / 10 ^ 14) by (unfold Rlit; simpl; field). auto.
Qed.
Print Assumptions C51_tiny_values_rejected.
(** min < max is not enough: the values 100000 and 100001 are rejected as well, the fitness equations count as singular *)
Definition two (x y : F) : pop F := mkP [mkI 1 1 [x] x n0 n0 n0; mkI 2 1 [y] y n0 n0 n0] x y 1 2 1.
Theorem C51_distinct_values_rejected_refuted : exists p : pop F,
  pop_addGroup (pop_new 1) (p_inds p) = Ok p /\ (p_min p <! p_max p) = true /\ pop_update p = Throw RuntimeError.
Proof. exists (two (FofZ 100000) (FofZ 100001)). split; [|split]; vm_compute; reflexivity. Qed.
Print Assumptions C51_distinct_values_rejected_refuted.
Example C51_example : exists q, pop_update demo_p1 = Ok q /\ map i_fit (p_inds q) = [1; 1 / 100].
Proof.
  destruct (update_demo demo_p1) as (q & Q1 & _ & Q3 & _).
  - reflexivity.
  - cbn. lra.
  - cbn. lia.
  - eexists. split. right. left. reflexivity. reflexivity.
  - intros i [<-|[<-|[]]]; cbn; lra.
  - exists q. split; auto. destruct (C51_fitness _ _ Q1) as (_ & _ & B & W & _). cbn; lra. intros i [<-|[<-|[]]]; cbn; lra.
    destruct (cores_2 _ _ _ Q3) as (a & b & E & A & D). injection A as _ _ A. injection D as _ _ D. rewrite E in *. cbn [map].
    rewrite (B a), (W b); cbn; auto.
Qed.

(** ** C52 *)
Theorem C52_probabilities : forall (p q : pop R), pop_update p = Ok q ->
  (2 <= length (p_inds q))%nat /\
  (forall i, In i (p_inds q) -> 0 < i_rep i < 1 /\ i_rep i = i_fit i / total (map i_fit (p_inds q))) /\ total (map i_rep (p_inds q)) = 1 /\
  (forall i, In i (p_inds q) -> 0 <= i_death i <= 1) /\ total (map i_death (p_inds q)) = 1.
Proof.
  intros p q H. pose proof (update_rated _ _ H) as HR. assert (p_inds q <> []) as Hn.
  { pose proof (update_nonempty _ _ H) as Hn. destruct (update_core _ _ H) as [HC _]. apply cores_len in HC. destruct (p_inds q), (p_inds p); cbn in HC; congruence. }
  destruct (rated_sums _ _ HR Hn) as [S1 S2]. split. eapply rated_two; eauto. split; [|split; [|split]]; auto.
  - intros i Hi. destruct (rt_rep _ _ HR i Hi). auto.
  - intros i Hi. destruct (rt_death _ _ HR) as (d & _ & D). apply D; auto.
Qed.
Print Assumptions C52_probabilities.
(** individuals above the 0.9 quantile of the fitness values cannot die, the others die with a probability inversely proportional to the fitness *)
Theorem C52_death : forall (p q : pop R), pop_update p = Ok q -> exists s, vec_quantile (map i_fit (p_inds q)) (9 / 10) = Ok s /\
  (forall i, In i (p_inds q) -> s < i_fit i -> i_death i = 0) /\
  (forall i, In i (p_inds q) -> i_fit i <= s -> 0 < i_death i) /\
  (forall i j, In i (p_inds q) -> In j (p_inds q) -> i_fit i <= s -> i_fit j <= s -> i_death i * i_fit i = i_death j * i_fit j).
Proof.
  intros p q H. pose proof (update_rated _ _ H) as HR. destruct (C52_probabilities _ _ H) as (_ & _ & _ & HD & HS).
  destruct (rt_death _ _ HR) as (s & Q & D). exists s. split; auto.
  assert (total (map (wt s) (map i_fit (p_inds q))) <> 0) as Hne.
  { intros Z. rewrite (map_ext_in i_death (fun _ => 0)) in HS. 
    - clear -HS. assert (forall l : list (ind R), total (map (fun _ => 0) l) = 0) as K. { induction l; cbn; auto. unfold total in *. lra. } rewrite K in HS. lra.
    - intros i Hi. destruct (D i Hi) as [-> _]. rewrite Z. unfold Rdiv. rewrite Rinv_0. ring. }
  set (tw := total (map (wt s) (map i_fit (p_inds q)))) in *.
  assert (forall i, In i (p_inds q) -> i_fit i <= s -> i_death i = 1 / i_fit i / tw) as HE.
  { intros i Hi Hs. destruct (D i Hi) as [E _]. rewrite E. unfold wt. rewrite (proj2 (Rltb_false _ _)); auto. }
  assert (forall i, In i (p_inds q) -> 0 < i_fit i) as HF by (intros i Hi; apply (rt_fit _ _ HR i Hi)).
  split; [|split].
  - intros i Hi Hs. destruct (D i Hi) as [-> _]. unfold wt at 1. rewrite (proj2 (Rltb_true _ _) Hs). unfold Rdiv. ring.
  - intros i Hi Hs. pose proof (HD i Hi) as [K _]. rewrite (HE i Hi Hs) in *. pose proof (HF i Hi). destruct K as [K|K]; auto. exfalso.
    assert (1 / i_fit i / tw <> 0); [|congruence]. unfold Rdiv. repeat apply Rmult_integral_contrapositive_currified; try lra; apply Rinv_neq_0_compat; auto; lra.
  - intros i j Hi Hj Si Sj. pose proof (HF i Hi). pose proof (HF j Hj). rewrite (HE i), (HE j) by auto. field. repeat split; auto; lra.
Qed.
Print Assumptions C52_death.
(** the wheel: for every random number in [0,1) exactly one individual is selected, the one into whose part of [0,1) it falls *)
Definition falls_on (f : ind R -> R) (l : list (ind R)) (r : R) (a : list (ind R)) (i : ind R) (b : list (ind R)) : Prop :=
  l = a ++ i :: b /\ total (map f a) <= r < total (map f a) + f i.
Lemma wheel (f : ind R -> R) l r : (forall i, In i l -> 0 <= f i) -> total (map f l) = 1 -> 0 <= r < 1 ->
  exists i a b, roulette f l r 0 = Ok i /\ falls_on f l r a i b /\ forall a' i' b', falls_on f l r a' i' b' -> a' = a /\ i' = i /\ b' = b.
Proof.
  intros Hf HT Hr. destruct (roulette_total f l r 0) as [i Hi]. lra. lra. pose proof (roulette_spec _ _ _ _ _ Hi ltac:(lra)) as (a & b & E & K).
  exists i, a, b. rewrite Rplus_0_l in K. split; auto. split; [split; auto|].
  intros a' i' b' [E' K']. destruct (split_unique f a' b' a b i' i r 0) as (U1 & U2 & U3); auto; try lra. intros x Hx. apply Hf. rewrite E'. auto. congruence.
Qed.
Theorem C52_selection : forall (p q : pop R) r, pop_update p = Ok q -> 0 <= r < 1 ->
  (exists i a b, pop_pickRep q r = Ok i /\ falls_on i_rep (p_inds q) r a i b /\ forall a' i' b', falls_on i_rep (p_inds q) r a' i' b' -> a' = a /\ i' = i /\ b' = b) /\
  (exists i a b, pop_pickDeath q r = Ok i /\ falls_on i_death (p_inds q) r a i b /\ forall a' i' b', falls_on i_death (p_inds q) r a' i' b' -> a' = a /\ i' = i /\ b' = b).
Proof.
  intros p q r H Hr. destruct (C52_probabilities _ _ H) as (_ & P1 & P2 & P3 & P4). split; apply wheel; auto.
  - intros i Hi. apply Rlt_le, (P1 i Hi).
  - intros i Hi. apply (P3 i Hi).
Qed.
Print Assumptions C52_selection.
(** not so in binary64: the rounded probabilities may add up to less than the largest number below 1, for which the selection throws *)
Definition three (x y z : F) : list (ind F) := [mkI 1 1 [x] x n0 n0 n0; mkI 2 1 [y] y n0 n0 n0; mkI 3 1 [z] z n0 n0 n0].
Definition almost_one : F := S754_finite false 9007199254740991 (-53).
Theorem C52_binary64_selection_refuted : exists p q : pop F, pop_addGroup (pop_new 1) (p_inds p) = Ok p /\ pop_update p = Ok q /\
  (almost_one <! n1) = true /\ pop_pickRep q almost_one = Throw RuntimeError.
Proof.
  eexists (match pop_addGroup (pop_new 1) (three (FofZ 0) (FofZ 1) (Flit 75 (-2))) with Ok p => p | _ => pop_new 1 end), _.
  split; [vm_compute; reflexivity|]. split; [vm_compute; reflexivity|]. split; vm_compute; reflexivity.
Qed.
Print Assumptions C52_binary64_selection_refuted.
Example C52_example : exists q a, pop_update demo_p1 = Ok q /\ pop_pickRep q 0 = Ok a /\ i_id a = 1%nat /\ i_rep a = 100 / 101.
Proof.
  destruct C51_example as (q & Q & E). destruct (C52_probabilities _ _ Q) as (_ & P1 & _).
  destruct (update_core _ _ Q) as [HC _]. destruct (cores_2 _ _ _ HC) as (a & b & EI & A & D). injection A as A _ _.
  rewrite EI in *. cbn [map] in E. injection E as E1 E2. exists q, a. split; auto.
  destruct (P1 a) as [_ Ra]. cbn; auto. cbn in Ra. rewrite E1, E2 in Ra. assert (i_rep a = 100 / 101) as Ra' by lra. split; auto.
  unfold pop_pickRep. rewrite EI. cbn [roulette nadd nltb n0 RNum]. rewrite Ra'. rewrite (proj2 (Rltb_true 0 (0 + 100 / 101))) by lra. reflexivity.
Qed.

(** ** C53 *)
(** the identifiers given out by a run of g generations: 1..N for the initial individuals, then from N on for the children, so that the
    first child and the last initial individual share the identifier N *)
Theorem C53_identifiers : forall (T : Type) (NT : Num T) (c : econf T) us ws dim e, ea_optimize c us ws (ea_new dim) = Ok (Some e) ->
  exists g, (1 <= g)%nat /\ map i_id (p_inds (e_hist e)) = seq 1 (c_size c) ++ seq (c_size c) (g * c_new c) /\
    (1 <= c_size c)%nat /\ (1 <= c_new c)%nat /\
    (exists last first, nth_error (p_inds (e_hist e)) (c_size c - 1) = Some last /\ nth_error (p_inds (e_hist e)) (c_size c) = Some first /\ i_id last = i_id first).
Proof.
  intros T NT c us ws dim e H. destruct (book_run c us ws dim e H) as (g & Hg & B & _). exists g. split; [lia|]. pose proof (bk_ids _ _ _ _ B) as HI. split; auto.
  apply run_checked in H. unfold ec_check in H. ok_steps H. apply Nat.eqb_neq in E0, E1. split; [lia|]. split; [lia|].
  assert (length (p_inds (e_hist e)) = c_size c + g * c_new c)%nat as L. { apply (f_equal (@length _)) in HI. rewrite map_length, app_length, !seq_length in HI. auto. }
  assert (1 <= g * c_new c)%nat as Hp by nia.
  destruct (nth_error (p_inds (e_hist e)) (c_size c - 1)) as [x|] eqn:X; [|apply nth_error_None in X; lia].
  destruct (nth_error (p_inds (e_hist e)) (c_size c)) as [y|] eqn:Y; [|apply nth_error_None in Y; lia].
  exists x, y. split; auto. split; auto. apply (map_nth_error i_id) in X, Y. rewrite HI in X, Y.
  rewrite nth_error_app1 in X by (rewrite seq_length; lia). rewrite nth_error_app2 in Y by (rewrite seq_length; lia). rewrite seq_length, Nat.sub_diag in Y.
  apply nth_error_nth with (d := 0%nat) in X, Y. rewrite seq_nth in X, Y by lia. lia.
Qed.
Print Assumptions C53_identifiers.
(** removal by identifier removes the first individual with it, and exactly the individual with it when identifiers are distinct *)
Theorem C53_removal : forall (T : Type) (NT : Num T) (p : pop T) a x b, p_inds p = a ++ x :: b -> (forall y, In y a -> i_id y <> i_id x) ->
  exists q, pop_removeById p (i_id x) = Ok q /\ p_inds q = a ++ b.
Proof.
  intros T NT p a x b E Ha. destruct (pop_removeById p (i_id x)) as [q|ex|] eqn:R.
  - exists q. split; auto. apply removed_inds in R. destruct R as (a' & y & b' & E' & Y & Ha' & ->). rewrite E in E'.
    assert (a = a' /\ x = y /\ b = b') as (-> & -> & ->); auto.
    clear E. revert a' Ha' E'. induction a as [|u a IH]; intros [|v a'] Ha' E'; cbn in E'; injection E'; auto.
    + intros _ Q. subst v. exfalso. apply (Ha' x); cbn; auto.
    + intros _ Q. subst u. exfalso. apply (Ha y); cbn; auto.
    + intros Q <-. destruct (IH ltac:(intros; apply Ha; cbn; auto) a') as (-> & -> & ->); auto. intros z Hz. apply Ha'. cbn; auto.
  - exfalso. unfold pop_removeById, pop_order in R. destruct (find_id _ _ _) as [k|] eqn:F.
    + apply find_id_spec in F. destruct F as (a' & y & b' & E' & Y & Ha' & ->). unfold pop_remove in R. rewrite Nat.add_0_l, E', nth_error_mid in R. destruct (_ || _)%bool; discriminate.
    + apply (find_id_none _ _ _ F x). rewrite E. apply in_or_app; cbn; auto. auto.
  - exfalso. unfold pop_removeById, pop_order in R. destruct (find_id _ _ _) as [k|] eqn:F; [|discriminate].
    unfold pop_remove in R. destruct (nth_error _ _); discriminate.
Qed.
Print Assumptions C53_removal.
Theorem C53_removal_of_unknown : forall (T : Type) (NT : Num T) (p : pop T) id, (forall y, In y (p_inds p) -> i_id y <> id) -> pop_removeById p id = Throw OutOfRange.
Proof. intros T NT p id. apply removeById_unknown. Qed.
Print Assumptions C53_removal_of_unknown.
(** the best individual ever generated survives and is reported, unless it carries the identifier N that two individuals share *)
Theorem C53_best_is_reported : forall (c : econf R) us ws dim e v, (forall k j, 0 <= g_deaths (ws k) j) -> ea_optimize c us ws (ea_new dim) = Ok (Some e) ->
  (forall i, In i (p_inds (e_hist e)) -> v <= i_obj i < ndblmax) -> (exists i, In i (p_inds (e_hist e)) /\ i_obj i = v) ->
  (forall i, In i (p_inds (e_hist e)) -> i_id i = c_size c -> v < i_obj i) ->
  exists i, ea_solution e = Ok i /\ i_obj i = v /\ exists j, In j (p_inds (e_hist e)) /\ i_id j = i_id i /\ i_genes j = i_genes i /\ i_obj j = v.
Proof.
  intros c us ws dim e v Hd H Hb Ha Hn. destruct (elite_solution c v us ws dim e Hd H) as (i & I1 & I2 & j & J1 & J2).
  - intros i Hi. destruct (Hb i Hi). split; auto.
  - exact Ha.
  - exists i. split; auto. split; auto. exists j. injection J2 as J2 J3 J4. rewrite J4. auto.
Qed.
Print Assumptions C53_best_is_reported.
Example C53_example : exists e, ea_optimize demo demo_us demo_ws (ea_new 1) = Ok (Some e) /\ map i_id (p_inds (e_hist e)) = [1; 2; 2]%nat /\
  exists i, ea_solution e = Ok i /\ i_obj i = 0.
Proof.
  destruct demo_run as (e & H & _ & K). exists e. split; auto. split. rewrite (cores_ids (e_hist e)), K. reflexivity.
  assert (forall i, In i (p_inds (e_hist e)) -> (i_id i, i_obj i) = (1%nat, 0) \/ (i_id i, i_obj i) = (2%nat, 1) \/ (i_id i, i_obj i) = (2%nat, 1 / 2)) as HI.
  { intros i Hi. apply cores_in in Hi. rewrite K in Hi. destruct Hi as [E|[E|[E|[]]]]; injection E as -> _ ->; auto. }
  destruct (C53_best_is_reported demo demo_us demo_ws 1 e 0) as (i & I1 & I2 & _); eauto.
  - intros; cbn; lra.
  - pose proof DM_big as D. change DM with (@ndblmax R RNum) in D. intros i Hi. destruct (HI i Hi) as [E|[E|E]]; injection E as _ ->; lra.
  - assert (In (1%nat, ([0], 0)) (cores (e_hist e))) as H1 by (rewrite K; cbn; auto). unfold cores in H1. apply in_map_iff in H1. destruct H1 as (i & E & Hi). injection E as _ _ E. eauto.
  - intros i Hi E. destruct (HI i Hi) as [Q|[Q|Q]]; injection Q as Q1 Q2; rewrite Q2; cbn in E; try lra. congruence.
Qed.
(** the exception is real.  Binary64 runs of f(x) = x on [0,2] with two initial individuals, one birth and d deaths per generation *)
Definition f64 (d g : nat) : econf F := mkEC 1 [FofZ 0] [FofZ 2] true (Flit 1 (-1)) 2 1 d g 100 (fun v => match v with x :: _ => Ok x | [] => Throw OutOfRange end).
(** every child mutates to 2u *)
Definition ws64 (u death : F) (k : nat) : genDraw F := mkG (fun _ => mkCh (FofZ 0) [Flit 1 (-2); Flit 5 (-1); Flit 999 (-3)] (fun _ => FofZ 0) (fun _ => u) (fun _ => Flit 5 (-2))) (fun _ => death).
Definition us64 (a b : F) (k j : nat) : F := match k with O => a | _ => b end.
(** the best individual is the first child (value 0), but the solution reported is the last initial individual, the worst one *)
Theorem C53_best_child_refuted : exists e s, ea_optimize (f64 0 1) (us64 (Flit 5 (-1)) (Flit 75 (-2))) (ws64 (FofZ 0) (FofZ 0)) (ea_new 1) = Ok (Some e) /\ ea_solution e = Ok s /\
  i_obj s = Flit 15 (-1) /\ map i_obj (p_inds (e_hist e)) = [FofZ 1; Flit 15 (-1); FofZ 0].
Proof. eexists _, _. split; [vm_compute; reflexivity|]. split; [vm_compute; reflexivity|]. split; vm_compute; reflexivity. Qed.
Print Assumptions C53_best_child_refuted.
(** the child is chosen to die, but the last initial individual, the best one, is removed in its place *)
Theorem C53_best_removed_refuted : exists e s x, ea_optimize (f64 1 1) (us64 (Flit 75 (-2)) (Flit 25 (-2))) (ws64 (Flit 9 (-1)) (Flit 9 (-1))) (ea_new 1) = Ok (Some e) /\ ea_solution e = Ok s /\
  map i_obj (p_inds (e_hist e)) = [Flit 15 (-1); Flit 5 (-1); Flit 18 (-1)] /\
  p_inds (e_rem e) = [x] /\ i_obj x = Flit 18 (-1) /\ map i_obj (p_inds (e_pop e)) = [Flit 15 (-1); Flit 18 (-1)] /\ i_obj s = Flit 15 (-1).
Proof. eexists _, _, _. split; [vm_compute; reflexivity|]. split; [vm_compute; reflexivity|]. split; [vm_compute; reflexivity|]. split; [vm_compute; reflexivity|]. split; [vm_compute; reflexivity|]. split; vm_compute; reflexivity. Qed.
Print Assumptions C53_best_removed_refuted.
(** in a population whose individuals all share one identifier no second parent is ever found *)
Theorem C53_parent_search_stuck : forall (T : Type) (NT : Num T) (p : pop T) id, (forall i, In i (p_inds p) -> i_id i = id) ->
  forall r rs, (forall mf, pop_parents p r rs <> Ok (Some mf)) /\
    ((2 <= length (p_inds p))%nat -> (forall x, In x (r :: rs) -> exists i, pop_pickRep p x = Ok i) -> pop_parents p r rs = Ok None).
Proof.
  intros T NT p id Hp. assert (forall rs f, pop_father p id rs <> Ok (Some f)) as HF.
  { induction rs as [|r rs IH]; cbn; intros f H; [discriminate|]. destruct (pop_pickRep p r) as [i| |] eqn:E; cbn in H; try discriminate.
    apply roulette_in in E. rewrite (Hp i E), Nat.eqb_refl in H. eapply IH; eauto. }
  assert (forall rs, (forall x, In x rs -> exists i, pop_pickRep p x = Ok i) -> pop_father p id rs = Ok None) as HN.
  { induction rs as [|r rs IH]; cbn; intros H; auto. destruct (H r) as [i Hi]; auto. rewrite Hi. cbn. pose proof (roulette_in _ _ _ _ _ Hi) as K.
    rewrite (Hp i K), Nat.eqb_refl. auto. }
  intros r rs. unfold pop_parents. split.
  - intros mf. destruct (Nat.ltb _ _); [discriminate|]. destruct (pop_pickRep p r) as [i| |] eqn:E; cbn; try discriminate.
    rewrite (Hp i (roulette_in _ _ _ _ _ E)). destruct (pop_father p id rs) as [[f|]| |] eqn:G; cbn; try discriminate. exfalso. eapply HF; eauto.
  - intros H2 H. destruct (Nat.ltb_spec (length (p_inds p)) 2); [lia|]. destruct (H r) as [i Hi]; [cbn; auto|]. rewrite Hi. cbn.
    rewrite (Hp i (roulette_in _ _ _ _ _ Hi)), HN; auto. intros x Hx. apply H. cbn; auto.
Qed.
Print Assumptions C53_parent_search_stuck.
(** such a population is reached: the settings are accepted and the first generation completes, but whatever is drawn afterwards, the run does not *)
Definition unOk {A} (d : A) (r : Res A) : A := match r with Ok a => a | _ => d end.
Definition stuck_c := f64 1 2.
Definition stuck_us := us64 (Flit 75 (-2)) (Flit 25 (-2)).
Definition stuck_w := ws64 (Flit 5 (-1)) (FofZ 0) 0.
Definition stuck_e0 : ea F := Eval vm_compute in unOk (ea_new 1) (ea_initialize stuck_c stuck_us (ea_new 1)).
Definition stuck_e1 : ea F := Eval vm_compute in match ea_generation stuck_c stuck_w stuck_e0 with Ok (Some e) => e | _ => ea_new 1 end.
Lemma stuck_0 : ea_initialize stuck_c stuck_us (ea_new 1) = Ok stuck_e0.
Proof. vm_compute. reflexivity. Qed.
Lemma stuck_1 : ea_generation stuck_c stuck_w stuck_e0 = Ok (Some stuck_e1).
Proof. vm_compute. reflexivity. Qed.
Lemma stuck_ids : map i_id (p_inds (e_pop stuck_e1)) = [2; 2]%nat /\ (c_max stuck_c <=? e_total stuck_e1)%nat = false.
Proof. split; vm_compute; reflexivity. Qed.
Lemma generation_stuck (T : Type) (NT : Num T) (c : econf T) w e id : (1 <= c_new c)%nat -> (forall i, In i (p_inds (e_pop e)) -> i_id i = id) -> forall x, ea_generation c w e <> Ok (Some x).
Proof.
  intros Hn Hi x Hx. unfold ea_generation in Hx. destruct (ea_births c (g_births w) e) as [[b|]| |] eqn:EB; cbn in Hx; try discriminate.
  apply births_spec in EB. destruct EB as (l0 & l & p & g & h & HC & _). apply children_spec in HC. destruct HC as (L & _ & HC).
  destruct l0 as [|x0 l0]; [cbn in L; lia|]. destruct (HC x0) as (k & HK); [cbn; auto|]. unfold ea_child in HK.
  destruct (pop_parents (e_pop e) (ch_mother (g_births w k)) (ch_father (g_births w k))) as [[mf|]| |] eqn:EP; try discriminate.
  exact (proj1 (C53_parent_search_stuck T _ (e_pop e) id Hi _ _) mf EP).
Qed.
Theorem C53_endless_run_refuted : exists (c : econf F) us w e0 e1, ec_check c = Ok tt /\ (2 <= c_gens c)%nat /\
  ea_initialize c us (ea_new 1) = Ok e0 /\ ea_generation c w e0 = Ok (Some e1) /\ (c_max c <=? e_total e1)%nat = false /\
  map i_id (p_inds (e_pop e1)) = [2; 2]%nat /\
  forall ws, ws 0%nat = w -> forall e, ea_optimize c us ws (ea_new 1) <> Ok (Some e).
Proof.
  exists stuck_c, stuck_us, stuck_w, stuck_e0, stuck_e1. destruct stuck_ids as [Hi Hm]. pose proof stuck_0 as E0. pose proof stuck_1 as E1.
  assert (ec_check stuck_c = Ok tt) as EC by reflexivity. assert (c_gens stuck_c = 2%nat) as EG by reflexivity. assert (1 <= c_new stuck_c)%nat as EN by (cbn; lia).
  generalize dependent stuck_e1. generalize dependent stuck_e0. generalize dependent stuck_w. generalize dependent stuck_us. generalize dependent stuck_c.
  intros c EC EG EN us w e0 E0 e1 Hi Hm E1.
  split; auto. split; [lia|]. split; auto. split; auto. split; auto. split; auto.
  intros ws Hw e H. unfold ea_optimize in H. rewrite EC, EG in H. cbn [bind e_pop e_gen e_rem e_hist e_init ea_new] in H. fold (ea_new (T:=F) 1) in H.
  rewrite E0 in H. cbn [bind ea_loop] in H. rewrite Hw, E1 in H. cbn [bind] in H. rewrite Hm in H.
  assert (forall x, ea_generation c (ws 1%nat) e1 <> Ok (Some x)) as HG.
  { apply (generation_stuck F _ c _ e1 2 EN). intros i Hin. apply (in_map i_id) in Hin. rewrite Hi in Hin. destruct Hin as [<-|[<-|[]]]; auto. }
  destruct (ea_generation c (ws 1%nat) e1) as [[x|]| |] eqn:EX; cbn [bind] in H; try discriminate. apply (HG x); auto.
Qed.
Print Assumptions C53_endless_run_refuted.

(** ** C54 *)
Inductive pop_op (T : Type) := OAdd (i : ind T) | ORemove (id : nat) | ORecompute.
Arguments OAdd {T}. Arguments ORemove {T}. Arguments ORecompute {T}.
Definition pop_do {T} `{Num T} (p : pop T) (o : pop_op T) : Res (pop T) :=
  match o with OAdd i => pop_add p i | ORemove id => pop_removeById p id | ORecompute => Ok (pop_recompute p) end.
Fixpoint pop_run {T} `{Num T} (ops : list (pop_op T)) (p : pop T) : Res (pop T) :=
  match ops with [] => Ok p | o :: ops => match pop_do p o with Ok p => pop_run ops p | r => r end end.
Section C54.
  Context {T : Type} {NT : Num T} {LT : OrdLaws T}.
  Lemma run_keeps (ops : list (pop_op T)) : (forall i, In (OAdd i) ops -> (i_obj i <! ndblmax) = true) -> forall p q,
    finite p -> min_ok p -> max_ok p -> pop_run ops p = Ok q -> min_ok q /\ max_ok q.
  Proof.
    induction ops as [|o ops IH]; intros Hf p q F M X H; cbn in H. injection H as <-; auto.
    destruct (pop_do p o) as [p1| |] eqn:E; try discriminate. assert (forall i, In (OAdd i) ops -> (i_obj i <! ndblmax) = true) as Hf' by (intros; apply Hf; cbn; auto).
    apply (IH Hf' p1 q); auto; destruct o as [i|id|]; cbn in E.
    - apply add_inds in E. intros j Hj. rewrite E in Hj. apply in_app_or in Hj. destruct Hj as [Hj|[<-|[]]]; auto. apply Hf; cbn; auto.
    - apply removed_inds in E. destruct E as (a & x & b & E1 & _ & _ & E2). intros j Hj. apply F. rewrite E1. rewrite E2 in Hj. apply in_app_or in Hj. apply in_or_app; cbn; tauto.
    - injection E as <-. intros j Hj. rewrite recompute_inds in Hj. auto.
    - eapply add_min_ok; eauto. apply Hf; cbn; auto.
    - destruct (list_eq_dec Nat.eq_dec (map i_id (p_inds p1)) []) as [Z|Z].
      + apply map_eq_nil in Z. pose proof E as E'. apply removed_inds in E'. destruct E' as (a & x & b & A1 & A2 & A3 & A4). rewrite Z in A4. symmetry in A4. apply app_eq_nil in A4. destruct A4 as [-> ->].
        apply removeById_spec in E. destruct E as (a & y & b & B1 & B2 & B3 & E).
        destruct M as (_ & _ & M3). destruct M3 as (w & W1 & W2 & W3); [rewrite A1; discriminate|]. rewrite A1 in W1. destruct W1 as [<-|[]].
        assert (id = p_idmin p) as Q by congruence. rewrite Q, Nat.eqb_refl, orb_true_r in E. subst p1. apply recompute_min_ok.
        intros j Hj. cbn in Hj. rewrite recompute_inds in Z. cbn in Z. rewrite Z in Hj. destruct Hj.
      + eapply removeById_min_ok; eauto. intros Q. apply Z. rewrite Q. reflexivity.
    - injection E as <-. apply recompute_min_ok; auto.
    - eapply add_max_ok; eauto.
    - eapply removeById_max_ok; eauto.
    - injection E as <-. apply recompute_max_ok.
  Qed.
End C54.
(** after any sequence of additions, removals and recomputations the tracked minimum is the smallest objective value and names an individual
    with it; the tracked maximum is not below any value, and is attained by the individual it names or still is the start value DBL_MIN *)
Theorem C54_extremes : forall (T : Type) (NT : Num T) (LT : OrdLaws T) dim (ops : list (pop_op T)) p,
  (forall i, In (OAdd i) ops -> (i_obj i <! ndblmax) = true) -> pop_run ops (pop_new dim) = Ok p -> p_inds p <> [] ->
  (exists i, In i (p_inds p) /\ i_id i = p_idmin p /\ i_obj i = p_min p) /\ (forall j, In j (p_inds p) -> (i_obj j <! p_min p) = false) /\
  (p_max p = ndblmin \/ exists i, In i (p_inds p) /\ i_id i = p_idmax p /\ i_obj i = p_max p) /\ (forall j, In j (p_inds p) -> (p_max p <! i_obj j) = false).
Proof.
  intros T NT LT dim ops p Hf H Hn. destruct (run_keeps ops Hf (pop_new dim) p) as [(M1 & _ & M3) (X1 & X2 & _)]; auto. intros i []. apply new_min. apply new_max.
Qed.
Print Assumptions C54_extremes.
(** the same at the end of every completed run *)
Theorem C54_extremes_of_run : forall (T : Type) (NT : Num T) (LT : OrdLaws T) (c : econf T) us ws dim e, ea_optimize c us ws (ea_new dim) = Ok (Some e) ->
  (forall i, In i (p_inds (e_hist e)) -> (i_obj i <! ndblmax) = true) -> p_inds (e_pop e) <> [] ->
  (exists i, In i (p_inds (e_pop e)) /\ i_id i = p_idmin (e_pop e) /\ i_obj i = p_min (e_pop e)) /\
  (forall j, In j (p_inds (e_pop e)) -> (i_obj j <! p_min (e_pop e)) = false) /\ (forall j, In j (p_inds (e_pop e)) -> (p_max (e_pop e) <! i_obj j) = false).
Proof.
  intros T NT LT c us ws dim e H Hf Hn. destruct (inv_run c us ws dim e H) as (g & _ & K). destruct (K Hf) as [(M1 & _ & M3) (X1 & _)]. auto.
Qed.
Print Assumptions C54_extremes_of_run.
(** when no objective value is above DBL_MIN = 2.2e-308 the maximum is never found: it stays DBL_MIN and getTheWorstIndividual fails *)
Theorem C54_no_positive_value_refuted : forall (T : Type) (NT : Num T) (LT : OrdLaws T) dim (l : list (ind T)) p,
  pop_addGroup (pop_new dim) l = Ok p -> (forall i, In i l -> (ndblmin <! i_obj i) = false /\ i_id i <> 0%nat) ->
  p_max p = ndblmin /\ pop_worst p = Throw AssertFail /\ p_max (pop_recompute p) = ndblmin /\ pop_worst (pop_recompute p) = Throw AssertFail.
Proof.
  intros T NT LT dim l p H Hl.
  assert (p_inds p = l) as EI by (apply addGroup_inds in H; auto).
  assert (forall J id q, (ndblmin <! J) = false -> p_max q = ndblmin -> p_idmax q = 0%nat -> p_max (pop_minmax J id q) = ndblmin /\ p_idmax (pop_minmax J id q) = 0%nat) as KM.
  { intros J id q HJ Q1 Q2. unfold pop_minmax. rewrite Q1, HJ. destruct (J <! p_min q); auto. }
  assert (p_max p = ndblmin /\ p_idmax p = 0%nat) as [P1 P2].
  { refine (addGroup_ind (fun q => p_max q = ndblmin /\ p_idmax q = 0%nat) l (pop_new dim) p _ _ H). auto.
    intros q i q' [Q1 Q2] Hi HA. apply add_eq in HA. subst q'. apply KM; auto. apply Hl; auto. }
  assert (p_max (pop_recompute p) = ndblmin /\ p_idmax (pop_recompute p) = 0%nat) as [R1 R2].
  { unfold pop_recompute. rewrite EI, P2.
    assert (forall m q, (forall i, In i m -> (ndblmin <! i_obj i) = false) -> p_max q = ndblmin -> p_idmax q = 0%nat ->
      let r := fold_left (fun q i => pop_minmax (i_obj i) (i_id i) q) m q in p_max r = ndblmin /\ p_idmax r = 0%nat) as KF.
    { induction m as [|x m IH]; cbn; intros q Hm Q1 Q2; auto. destruct (KM (i_obj x) (i_id x) q) as [? ?]; auto. }
    apply KF; auto. intros i Hi. apply Hl; auto. }
  assert (forall q, p_inds q = l -> p_idmax q = 0%nat -> pop_worst q = Throw AssertFail) as KW.
  { intros q Q1 Q2. unfold pop_worst, pop_get, pop_order. rewrite Q1, Q2. destruct (find_id l 0 0) eqn:E; auto.
    apply find_id_spec in E. destruct E as (a & x & b & -> & X & _). exfalso. apply (Hl x); auto. apply in_or_app; cbn; auto. }
  split; auto. split; auto. split; auto. apply KW; auto. rewrite recompute_inds. auto.
Qed.
Print Assumptions C54_no_positive_value_refuted.
Definition neg2 : list (ind R) := [mkI 1 1 [-1] (-1) 0 0 0; mkI 2 1 [-2] (-2) 0 0 0].
Example C54_no_positive_value_example : exists p, pop_addGroup (pop_new 1) neg2 = Ok p /\ p_max p = ndblmin /\ pop_worst p = Throw AssertFail.
Proof.
  assert (exists p, pop_addGroup (pop_new 1) neg2 = Ok p) as [p Hp].
  { unfold neg2. cbn [pop_addGroup]. unfold pop_add at 1. cbn [i_dim p_dim pop_new Nat.eqb negb bind].
    unfold pop_add at 1. rewrite (proj2 (Nat.eqb_eq _ _)). cbn [negb bind]. eauto.
    unfold pop_minmax. destruct (_ <! _); destruct (_ <! _); reflexivity. }
  exists p. split; auto. destruct (C54_no_positive_value_refuted R _ _ 1 neg2 p Hp) as (A & B & _); auto.
  pose proof Dm_small as D. change Dm with (@ndblmin R RNum) in D. intros i [<-|[<-|[]]]; cbn [i_obj i_id nltb RNum]; split; try lia; apply Rltb_false; cbn [ndblmin RNum] in *; lra.
Qed.
Example C54_example : exists p : pop F, pop_run [OAdd (mkI 1 1 [FofZ 3] (FofZ 3) n0 n0 n0); OAdd (mkI 2 1 [FofZ 1] (FofZ 1) n0 n0 n0); OAdd (mkI 3 1 [FofZ 2] (FofZ 2) n0 n0 n0); ORemove 2] (pop_new 1) = Ok p /\
  p_min p = FofZ 2 /\ p_idmin p = 3%nat /\ p_max p = FofZ 3.
Proof. eexists. split; [vm_compute; reflexivity|]. split; [|split]; vm_compute; reflexivity. Qed.
Example C54_example_run : exists e : ea F, ea_optimize (f64 1 1) (us64 (Flit 75 (-2)) (Flit 25 (-2))) (ws64 (Flit 5 (-1)) (FofZ 0)) (ea_new 1) = Ok (Some e) /\ length (p_inds (e_pop e)) = 2%nat /\
  forallb (fun i => i_obj i <! ndblmax) (p_inds (e_hist e)) = true.
Proof. eexists. split; [vm_compute; reflexivity|]. split; vm_compute; reflexivity. Qed.
(** a second run on the same object starts with the extremes of the first: the tracked minimum is below every member *)
Theorem C54_second_run_refuted : exists (e e2 : ea F), ea_optimize (f64 1 1) (us64 (Flit 75 (-2)) (Flit 25 (-2))) (ws64 (Flit 5 (-1)) (FofZ 0)) (ea_new 1) = Ok (Some e) /\
  ea_initialize (f64 1 1) (us64 (Flit 6 (-1)) (Flit 7 (-1))) e = Ok e2 /\ forallb (fun i => p_min (e_pop e2) <! i_obj i) (p_inds (e_pop e2)) = true.
Proof. eexists _, _. split; [vm_compute; reflexivity|]. split; vm_compute; reflexivity. Qed.
Print Assumptions C54_second_run_refuted.

(** ** C55 *)
(** a completed run makes g generations: at most the maximum number, and exactly that unless the number of evaluations reaches its maximum;
    the sizes of the population, of the children, the removed individuals and the history follow *)
Theorem C55_sizes : forall (T : Type) (NT : Num T) (c : econf T) us ws dim e, ea_optimize c us ws (ea_new dim) = Ok (Some e) ->
  exists g, (1 <= g <= c_gens c)%nat /\
    (length (p_inds (e_pop e)) + g * c_deaths c = c_size c + g * c_new c)%nat /\
    length (p_inds (e_gen e)) = (g * c_new c)%nat /\ length (p_inds (e_rem e)) = (g * c_deaths c)%nat /\
    length (p_inds (e_hist e)) = (c_size c + g * c_new c)%nat /\ e_total e = (c_size c + g * c_new c)%nat /\
    (g = c_gens c \/ c_max c <= c_size c + g * c_new c)%nat /\ (forall j, 1 <= j < g -> c_size c + j * c_new c < c_max c)%nat.
Proof.
  intros T NT c us ws dim e H. destruct (book_run c us ws dim e H) as (g & Hg & B & S & L). exists g. split; auto. split. apply (bk_pop _ _ _ _ B).
  assert (length (p_inds (e_hist e)) = c_size c + g * c_new c)%nat as LH. { pose proof (bk_ids _ _ _ _ B) as HI. apply (f_equal (@length _)) in HI. rewrite map_length, app_length, !seq_length in HI. auto. }
  split. rewrite (bk_gen _ _ _ _ B), skipn_length. lia. split. apply (bk_rem _ _ _ _ B). split; auto. split. apply (bk_total _ _ _ _ B). auto.
Qed.
Print Assumptions C55_sizes.
Example C55_example : exists e : ea F, ea_optimize (f64 0 3) (us64 (Flit 75 (-2)) (Flit 25 (-2))) (ws64 (Flit 5 (-1)) (FofZ 0)) (ea_new 1) = Ok (Some e) /\
  length (p_inds (e_pop e)) = 5%nat /\ e_total e = 5%nat.
Proof. eexists. split; [vm_compute; reflexivity|]. split; vm_compute; reflexivity. Qed.
