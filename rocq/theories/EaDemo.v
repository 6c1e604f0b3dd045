(** A completed run of the evolutionary optimiser over the reals (the non-vacuity witness of PropsEa). *)
From Coq Require Import Reals Lra Psatz List Arith Lia ZArith Bool Permutation Sorted.
From Verif Require Import Base Num RealNum RSpec VecModel MatModel MatLemmas VecProofs VecReal VecProofs2 MatReal PropsStat PropsLin PropsVec EaModel EaProofs EaRun EaReal.
Import ListNotations.
Local Open Scope R_scope.

Lemma map_fst_combine {A B} (l : list A) (w : list B) : length w = length l -> map fst (combine l w) = l.
Proof. revert w. induction l; destruct w; cbn; intros H; try discriminate; auto. f_equal. apply IHl. lia. Qed.
Lemma update_dims (p q : pop R) : pop_update p = Ok q -> p_dim q = p_dim p /\ map i_dim (p_inds q) = map i_dim (p_inds p).
Proof.
  unfold pop_update. intros H. ok_steps H. apply fitness_spec in E0. destruct E0 as (c & l & _ & -> & F1).
  apply reproduction_spec in E1. destruct E1 as (l1 & -> & F2). apply death_spec in H. destruct H as (d & l2 & _ & -> & F3). cbn zeta in F3.
  cbn [p_dim pset_inds p_inds] in *. split; auto.
  transitivity (map i_dim (map fst (combine l1 (death_weights (map i_fit l1) d)))).
  - rewrite map_map. eapply forall2_map_eq; [|exact F3]. intros x y Hb. unfold ind_setDeath in Hb. ok_steps Hb. injection Hb as <-. reflexivity.
  - rewrite map_fst_combine by (rewrite death_weights_len, map_length; auto).
    transitivity (map i_dim l); (eapply forall2_map_eq; [|eassumption]); intros x y Hb.
    + unfold ind_setRep in Hb. ok_steps Hb. injection Hb as <-. reflexivity.
    + destruct Hb as [-> _]. reflexivity.
Qed.

Lemma update_demo (p : pop R) : p_min p = 0 -> 1 / 10 <= p_max p < 2 -> (2 <= length (p_inds p))%nat -> (exists i, In i (p_inds p) /\ i_obj i = p_max p) ->
  (forall i, In i (p_inds p) -> 0 <= i_obj i <= p_max p) -> exists q, pop_update p = Ok q /\ rated p q /\ cores q = cores p /\ extremes q = extremes p /\ p_dim q = p_dim p /\ map i_dim (p_inds q) = map i_dim (p_inds p).
Proof.
  intros H0 H1 H2 (i & I1 & I2) HB. destruct (update_ok p) as [q Hq]; auto.
  - unfold all_zero. destruct (forallb _ _) eqn:E; auto. exfalso. rewrite forallb_forall in E. specialize (E i I1). cbn in E. apply Rltb_true in E.
    rewrite I2, Rabs_pos_eq in E by lra. assert (Rlit 1 (-14) < 1 / 10); [|lra]. unfold Rlit; simpl. lra.
  - lra.
  - rewrite H0. auto.
  - apply coefficients_ok; auto.
  - exists q. split; auto. split. apply update_rated; auto. destruct (update_core _ _ Hq) as [? ?]. destruct (update_dims _ _ Hq) as [? ?]. auto.
Qed.

(** f(x) = x on [0, 2], two initial individuals, one birth and one death per generation, one generation *)
Definition demo : econf R := mkEC 1 [0] [2] true (1 / 10) 2 1 1 1 100 (fun v => Ok (nth 0 v 0)).
Definition demo_us (k j : nat) : R := match k with O => 0 | _ => 1 / 2 end.
Definition demo_ws (k : nat) : genDraw R := mkG (fun _ => mkCh 0 [199 / 200] (fun _ => 0) (fun _ => 0) (fun _ => 1)) (fun _ => 0).

Ltac rcmp := repeat match goal with
  | |- context [Rltb ?a ?b] => destruct (Rltb_spec a b); try lra
  | |- context [Rleb ?a ?b] => destruct (Rleb_spec a b); try lra
  | |- context [Reqb ?a ?b] => destruct (Reqb_spec a b); try lra end.
Definition DM : R := @ndblmax R RNum.
Definition Dm : R := @ndblmin R RNum.
Lemma DM_big : 2 < DM.
Proof.
  unfold DM; cbn [ndblmax RNum]. assert (powerRZ 2 (-52) <= 1 / 2) as H1. { simpl. lra. }
  assert (2 ^ 1 <= powerRZ 2 1023) as H2. { change (powerRZ 2 1023) with (2 ^ Pos.to_nat 1023). apply Rle_pow. lra. lia. } nra.
Qed.
Lemma Dm_small : 0 < Dm < 1 / 10.
Proof.
  unfold Dm; cbn [ndblmin RNum]. split. apply powerRZ_lt; lra.
  change (powerRZ 2 (-1022)) with (/ 2 ^ Pos.to_nat 1022).
  assert (2 ^ 4 <= 2 ^ Pos.to_nat 1022) as H. { apply Rle_pow. lra. lia. }
  assert (/ 2 ^ Pos.to_nat 1022 <= / 2 ^ 4) as K. { apply Rinv_le_contravar; auto. simpl; lra. } simpl (2 ^ 4) in K. lra.
Qed.
Opaque DM Dm.
Lemma demo_1 : ea_random demo 0 (demo_us 0) = Ok (mkI 1 1 [0] 0 0 0 0).
Proof.
  unfold ea_random, vec_randomBetween. cbn -[Rltb]. rcmp. cbn -[Rltb]. unfold unif. cbn. replace (0 * (2 - 0) + 0) with 0 by lra. reflexivity.
Qed.
Lemma demo_2 : ea_random demo 1 (demo_us 1) = Ok (mkI 2 1 [1] 1 0 0 0).
Proof.
  unfold ea_random, vec_randomBetween. cbn -[Rltb]. rcmp. cbn -[Rltb]. unfold unif. cbn. replace (1 / 2 * (2 - 0) + 0) with 1 by lra. reflexivity.
Qed.
Definition demo_l := [mkI 1 1 [0] 0 0 0 0; mkI 2 1 [1] 1 0 0 0].
Definition demo_p1 := mkP demo_l 0 1 1 2 1.
Lemma minmax_hi J id l mn mx i j d : mx < J -> mn <= J -> pop_minmax J id (mkP l mn mx i j d) = mkP l mn J i id d.
Proof.
  intros. unfold pop_minmax. cbn [nltb RNum p_inds p_min p_max p_idmin p_idmax p_dim].
  destruct (Rltb_spec mx J); cbn [p_inds p_min p_max p_idmin p_idmax p_dim]; destruct (Rltb_spec J mn); cbn [p_inds p_min p_max p_idmin p_idmax p_dim]; try reflexivity; lra.
Qed.
Lemma minmax_lo J id l mn mx i j d : J <= mx -> J < mn -> pop_minmax J id (mkP l mn mx i j d) = mkP l J mx id j d.
Proof.
  intros. unfold pop_minmax. cbn [nltb RNum p_inds p_min p_max p_idmin p_idmax p_dim].
  destruct (Rltb_spec mx J); cbn [p_inds p_min p_max p_idmin p_idmax p_dim]; destruct (Rltb_spec J mn); cbn [p_inds p_min p_max p_idmin p_idmax p_dim]; try reflexivity; lra.
Qed.
Lemma minmax_none J id l mn mx i j d : J <= mx -> mn <= J -> pop_minmax J id (mkP l mn mx i j d) = mkP l mn mx i j d.
Proof.
  intros. unfold pop_minmax. cbn [nltb RNum p_inds p_min p_max p_idmin p_idmax p_dim].
  destruct (Rltb_spec mx J); cbn [p_inds p_min p_max p_idmin p_idmax p_dim]; destruct (Rltb_spec J mn); cbn [p_inds p_min p_max p_idmin p_idmax p_dim]; try reflexivity; lra.
Qed.
Lemma add_eq' l mn mx a b d (i : ind R) : i_dim i = d -> pop_add (mkP l mn mx a b d) i = Ok (pop_minmax (i_obj i) (i_id i) (mkP (l ++ [i]) mn mx a b d)).
Proof. intros H. unfold pop_add. cbn [p_dim]. rewrite H, Nat.eqb_refl. reflexivity. Qed.
Lemma demo_add : pop_addGroup (pop_new 1) demo_l = Ok demo_p1.
Proof.
  pose proof DM_big. pose proof Dm_small. unfold demo_l, demo_p1. cbn [pop_addGroup]. unfold pop_new.
  change (@ndblmax R RNum) with DM. change (@ndblmin R RNum) with Dm. rewrite add_eq' by reflexivity. cbn [i_obj i_id]. rewrite minmax_lo by lra. cbn [bind].
  rewrite add_eq' by reflexivity. cbn [i_obj i_id]. rewrite minmax_hi by lra. reflexivity.
Qed.
Lemma cores_2 (p : pop R) x y : cores p = [x; y] -> exists a b, p_inds p = [a; b] /\ core a = x /\ core b = y.
Proof.
  unfold cores. destruct (p_inds p) as [|a [|b [|? ?]]]; cbn; intros H; try discriminate. injection H as <- <-. eauto.
Qed.
Lemma cores_3 (p : pop R) x y z : cores p = [x; y; z] -> exists a b d, p_inds p = [a; b; d] /\ core a = x /\ core b = y /\ core d = z.
Proof.
  unfold cores. destruct (p_inds p) as [|a [|b [|? [|? ?]]]]; cbn; intros H; try discriminate. injection H as <- <- <-. eauto 10.
Qed.
Lemma demo_init : exists e, ea_initialize demo demo_us (ea_new 1) = Ok e /\ rated demo_p1 (e_pop e) /\ cores (e_pop e) = [(1%nat, ([0], 0)); (2%nat, ([1], 1))] /\
  extremes (e_pop e) = (0, 1, 1%nat, 2%nat) /\ (p_dim (e_pop e) = 1%nat /\ map i_dim (p_inds (e_pop e)) = [1%nat; 1%nat]) /\ e = mkEA (e_pop e) (pop_new 1) (pop_new 1) demo_p1 2 true.
Proof.
  destruct (update_demo demo_p1) as (q & Q1 & Q2 & Q3 & Q4 & Q5 & Q6).
  - reflexivity.
  - cbn. lra.
  - cbn. lia.
  - eexists. split. right. left. reflexivity. reflexivity.
  - intros i [<-|[<-|[]]]; cbn; lra.
  - exists (mkEA q (pop_new 1) (pop_new 1) demo_p1 2 true). cbn [e_pop]. split; [|auto 12].
    unfold ea_initialize. cbn [c_size demo Nat.eqb c_bset negb e_total ea_new e_pop e_hist]. cbn [loopR bind fst].
    rewrite demo_1. cbn [bind fst snd app]. rewrite demo_2. cbn [bind fst snd app]. change (pset_inds [] (pop_new 1)) with (pop_new (T:=R) 1). fold demo_l. rewrite demo_add. cbn [bind]. rewrite Q1. cbn [bind].
    assert (pop_hasRepeated q = false) as ->; [|reflexivity].
    destruct (cores_2 _ _ _ Q3) as (a & b & E & A & B). unfold pop_hasRepeated. rewrite E. injection A as A _ _. injection B as B _ _. cbn. rewrite A, B. reflexivity.
Qed.
Definition demo_c := mkI 2 1 [1 / 2] (1 / 2) 0 0 0.
Lemma demo_child (p : pop R) a b : p_inds p = [a; b] -> core a = (1%nat, ([0], 0)) -> core b = (2%nat, ([1], 1)) -> i_rep a = 100 / 101 -> i_rep b = 1 / 101 ->
  ea_child demo p 2 (g_births (demo_ws 0) 0) = Ok (Some (mkI 2 1 [1 / 2] 0 0 0 0)).
Proof.
  intros E A B Ra Rb. injection A as A1 A2 A3. injection B as B1 B2 B3. unfold ea_child, pop_parents, pop_pickRep. rewrite E. cbn [length Nat.ltb Nat.leb].
  unfold demo_ws, g_births, ch_mother, ch_father, ch_z, ch_u, ch_m. cbn [roulette]. cbn [nltb nadd n0 RNum]. rewrite Ra, Rb.
  rewrite (proj2 (Rltb_true 0 (0 + 100 / 101))) by lra. cbn [bind pop_father]. unfold pop_pickRep. rewrite E. cbn [roulette]. cbn [nltb nadd n0 RNum]. rewrite Ra, Rb.
  rewrite (proj2 (Rltb_false (199 / 200) (0 + 100 / 101))) by lra. rewrite (proj2 (Rltb_true (199 / 200) (0 + 100 / 101 + 1 / 101))) by lra.
  cbn [bind]. rewrite A1, B1. cbn [Nat.eqb bind option_map c_bset demo negb].
  unfold ea_crossOver. rewrite A1, B1, A2, B2. cbn [Nat.eqb length negb].
  unfold ea_mutate, vec_randomBetween. cbn [c_mutp c_bset c_lo c_up demo negb length Nat.eqb seq existsb].
  cbn [nleb nltb n0 n1 RNum]. rewrite (proj2 (Rleb_false (1 / 10) 0)) by lra. rewrite (proj2 (Rleb_false 1 (1 / 10))) by lra. cbn [orb].
  unfold vget. cbn [nth]. cbn [nltb n0 RNum]. rewrite (proj2 (Rltb_false 2 0)) by lra. cbn [orb bind].
  cbn [vbuild map seq length Nat.ltb Nat.leb andb]. cbn [bind]. cbn [vbuild map seq length Nat.ltb Nat.leb andb orb c_dim].
  rewrite (proj2 (Rltb_false 1 (1 / 10))) by lra. cbn [nth].
  assert (normal_between 0 1 0 = 1 / 2) as ->.
  { unfold normal_between. cbn [nadd nmul nsub ndiv nabs nofZ n0 n1 neqb RNum]. rewrite Rmult_0_l. lra. }
  assert (clamp 0 2 (1 / 2) = 1 / 2) as ->.
  { unfold clamp. cbn [nltb RNum]. rewrite (proj2 (Rltb_false (1 / 2) 0)) by lra. rewrite (proj2 (Rltb_false 2 (1 / 2))) by lra. reflexivity. }
  reflexivity.
Qed.
Lemma quad_01 : quad 0 1 0 = 1 /\ quad 0 1 1 = 1 / 100.
Proof. split; unfold quad; field. Qed.
Lemma demo_births e : ea_initialize demo demo_us (ea_new 1) = Ok e -> exists h a b, 
  p_inds (e_pop e) = [a; b] /\ core a = (1%nat, ([0], 0)) /\ core b = (2%nat, ([1], 1)) /\
  cores h = [(1%nat, ([0], 0)); (2%nat, ([1], 1)); (2%nat, ([1 / 2], 1 / 2))] /\
  ea_births demo (g_births (demo_ws 0)) e = Ok (Some (mkEA (mkP [a; b; demo_c] 0 1 1 2 1) (mkP [demo_c] (1 / 2) (1 / 2) 2 2 1) (pop_new 1) h 3 true)).
Proof.
  intros HI. destruct demo_init as (e' & I1 & I2 & I3 & I4 & [I6 I7] & I5). rewrite HI in I1. injection I1 as <-.
  destruct (cores_2 _ _ _ I3) as (a & b & E & A & B). exists (mkP (demo_l ++ [demo_c]) 0 1 1 2 1), a, b.
  split; auto. split; auto. split; auto. split; auto.
  pose proof A as A'. pose proof B as B'. injection A' as A1 A2 A3. injection B' as B1 B2 B3.
  destruct (rt_fit _ _ I2 a) as [Fa _]. { rewrite E; cbn; auto. } destruct (rt_fit _ _ I2 b) as [Fb _]. { rewrite E; cbn; auto. }
  destruct (rt_rep _ _ I2 a) as [Ra _]. { rewrite E; cbn; auto. } destruct (rt_rep _ _ I2 b) as [Rb _]. { rewrite E; cbn; auto. }
  rewrite A3 in Fa. rewrite B3 in Fb. cbn [p_min p_max demo_p1] in Fa, Fb. rewrite (proj1 quad_01) in Fa. rewrite (proj2 quad_01) in Fb.
  rewrite E in Ra, Rb. cbn in Ra, Rb. rewrite Fa, Fb in Ra, Rb.
  unfold ea_births. rewrite I5. cbn [c_new demo Nat.eqb e_init negb e_pop e_total e_gen e_hist e_rem]. unfold ea_children. cbn [c_new demo loopR bind].
  rewrite Nat.add_0_r. rewrite (demo_child (e_pop e) a b) by (auto; lra). cbn [bind option_map app mapR].
  unfold ea_call at 1. cbn [c_dim demo Nat.eqb i_genes length negb c_f bind]. cbn [nth]. change (iset_obj (1 / 2) (mkI 2 1 [1 / 2] 0 0 0 0)) with demo_c.
  cbn [pop_addGroup bind].
  pose proof DM_big. pose proof Dm_small.
  assert (e_pop e = mkP [a; b] 0 1 1 2 1) as EP.
  { destruct (e_pop e) as [l mn mx u v d]. cbn [p_inds p_dim] in *. unfold extremes in I4. cbn [p_min p_max p_idmin p_idmax] in I4. injection I4 as -> -> -> ->. congruence. }
  rewrite EP. rewrite add_eq' by reflexivity. change (i_obj demo_c) with (1 / 2). change (i_id demo_c) with 2%nat. rewrite minmax_none by lra. cbn [bind].
  unfold pop_new at 1. change (@ndblmax R RNum) with DM. change (@ndblmin R RNum) with Dm. rewrite add_eq' by reflexivity. change (i_obj demo_c) with (1 / 2). change (i_id demo_c) with 2%nat.
  unfold pop_minmax at 1. cbn [nltb RNum p_inds p_min p_max p_idmin p_idmax p_dim]. rewrite (proj2 (Rltb_true Dm (1 / 2))) by lra. cbn [p_inds p_min p_max p_idmin p_idmax p_dim].
  rewrite (proj2 (Rltb_true (1 / 2) DM)) by lra. cbn [bind p_inds p_min p_max p_idmin p_idmax p_dim].
  unfold demo_p1. rewrite add_eq' by reflexivity. change (i_obj demo_c) with (1 / 2). change (i_id demo_c) with 2%nat. rewrite minmax_none by lra. cbn [bind]. reflexivity.
Qed.

Lemma demo_kill (e : ea R) a b d p0 : rated p0 (e_pop e) -> p_min p0 = 0 -> p_max p0 = 1 ->
  e_pop e = mkP [a; b; d] 0 1 1 2 1 -> core a = (1%nat, ([0], 0)) -> core b = (2%nat, ([1], 1)) -> core d = (2%nat, ([1 / 2], 1 / 2)) ->
  i_dim a = 1%nat -> i_dim b = 1%nat -> i_dim d = 1%nat -> p_dim (e_rem e) = 1%nat ->
  exists e', ea_kill 0 e = Ok e' /\ cores (e_pop e') = [(1%nat, ([0], 0)); (2%nat, ([1 / 2], 1 / 2))] /\ extremes (e_pop e') = (0, 1 / 2, 1%nat, 2%nat) /\
    e_hist e' = e_hist e /\ e_total e' = e_total e.
Proof.
  intros HR H0 H1 EP A B D da db dd dr. pose proof A as A'. pose proof B as B'. pose proof D as D'.
  injection A' as A1 A2 A3. injection B' as B1 B2 B3. injection D' as D1 D2 D3.
  assert (p_inds (e_pop e) = [a; b; d]) as EI by (rewrite EP; reflexivity).
  assert (p_inds (e_pop e) <> []) as Hne by (rewrite EI; discriminate).
  assert (exists i, pop_pickDeath (e_pop e) 0 = Ok i) as [i Hi].
  { unfold pop_pickDeath. apply roulette_total. rewrite (proj2 (rated_sums _ _ HR Hne)). cbn. lra. cbn. lra. }
  assert (In i [a; b; d]) as Hin. { rewrite <- EI. eapply roulette_in. exact Hi. }
  assert (i <> a) as Hna.
  { intros ->. destruct (pick_not_unique_best p0 (e_pop e) 0 a) as (x & y & j & J1 & J2 & J3); auto; try lra.
    - rewrite EI, H0, H1. intros j [<-|[<-|[<-|[]]]]; rewrite ?A3, ?B3, ?D3; lra.
    - rewrite EI in J1. rewrite H0 in J3. assert (In j [a; b; d]) as Hj. { rewrite J1. apply in_app_or in J2. apply in_or_app. cbn. tauto. }
      destruct x as [|x0 x]; cbn in J1; injection J1.
      + intros <-. destruct J2 as [<-|[<-|[]]]; lra.
      + intros J4 <-. assert (In a [b; d]) as Ha. { rewrite J4. apply in_or_app. cbn. auto. } destruct Ha as [<-|[<-|[]]]; congruence. }
  assert (i_id i = 2%nat /\ i_dim i = 1%nat) as [Ei Di]. { destruct Hin as [<-|[<-|[<-|[]]]]; tauto. }
  unfold ea_kill. rewrite Hi. cbn [bind]. unfold pop_add at 1. rewrite Di, dr. cbn [Nat.eqb negb bind]. rewrite Ei.
  pose proof DM_big. pose proof Dm_small.
  assert (pop_removeById (e_pop e) 2 = Ok (mkP [a; d] 0 (1 / 2) 1 2 1)) as ER.
  { unfold pop_removeById, pop_order, pop_remove. rewrite EP. cbn [p_inds find_id]. rewrite A1, B1. cbn [Nat.eqb nth_error]. rewrite B1. cbn [p_idmax p_idmin Nat.eqb orb firstn skipn app].
    unfold pop_recompute. cbn [p_inds pset_inds p_min p_max p_idmin p_idmax p_dim fold_left]. change (@ndblmax R RNum) with DM. change (@ndblmin R RNum) with Dm.
    rewrite A3, A1, D3, D1. rewrite minmax_lo by lra. rewrite minmax_hi by lra. reflexivity. }
  rewrite ER. cbn [bind].
  destruct (update_demo (mkP [a; d] 0 (1 / 2) 1 2 1)) as (q & Q1 & Q2 & Q3 & Q4 & Q5 & Q6).
  - reflexivity.
  - cbn. lra.
  - cbn. lia.
  - exists d. cbn. auto.
  - intros j [<-|[<-|[]]]; cbn; rewrite ?A3, ?D3; lra.
  - rewrite Q1. cbn [bind]. eexists. split. reflexivity. cbn [e_pop e_hist e_total]. rewrite Q3, Q4. unfold cores. cbn [p_inds map]. rewrite A, D. auto.
Qed.
(** the run of the demonstration configuration completes; its final population and history *)
Lemma demo_run : exists e, ea_optimize demo demo_us demo_ws (ea_new 1) = Ok (Some e) /\
  cores (e_pop e) = [(1%nat, ([0], 0)); (2%nat, ([1 / 2], 1 / 2))] /\
  cores (e_hist e) = [(1%nat, ([0], 0)); (2%nat, ([1], 1)); (2%nat, ([1 / 2], 1 / 2))].
Proof.
  destruct demo_init as (e0 & I1 & _ & _ & _ & [I6 I7] & _). pose proof (demo_births _ I1) as (h & a & b & B1 & B2 & B3 & B4 & B5).
  unfold ea_optimize. cbn [ec_check demo c_bset c_new c_size c_dim c_gens c_max c_deaths Nat.eqb negb Nat.add Nat.leb bind]. fold demo.
  change (mkEA (e_pop (ea_new 1)) (e_gen (ea_new 1)) (e_rem (ea_new 1)) (e_hist (ea_new 1)) 0 (e_init (ea_new 1))) with (ea_new (T:=R) 1).
  rewrite I1. cbn [bind ea_loop]. unfold ea_generation. rewrite B5. cbn [bind e_pop e_gen e_rem e_hist e_total e_init].
  rewrite B1 in I7. cbn in I7. injection I7 as da db. pose proof B2 as B2'. pose proof B3 as B3'. injection B2' as A1 A2 A3. injection B3' as C1 C2 C3.
  destruct (update_demo (mkP [a; b; demo_c] 0 1 1 2 1)) as (q & Q1 & Q2 & Q3 & Q4 & Q5 & Q6).
  - reflexivity.
  - cbn. lra.
  - cbn. lia.
  - exists b. cbn. auto.
  - intros j [<-|[<-|[<-|[]]]]; cbn; rewrite ?A3, ?C3; lra.
  - rewrite Q1. cbn [bind]. unfold ea_deaths. cbn [c_deaths demo loopR bind]. unfold demo_ws at 1, g_deaths.
    unfold cores in Q3 at 2. cbn [p_inds map] in Q3. rewrite B2, B3 in Q3. destruct (cores_3 _ _ _ _ Q3) as (x & y & z & X1 & X2 & X3 & X4).
    rewrite X1 in Q6. cbn in Q6. rewrite da, db in Q6. injection Q6 as dx dy dz.
    destruct (demo_kill (mkEA q (mkP [demo_c] (1 / 2) (1 / 2) 2 2 1) (pop_new 1) h 3 true) x y z (mkP [a; b; demo_c] 0 1 1 2 1)) as (e1 & K1 & K2 & K3 & K4 & K5); auto.
    { cbn [e_pop]. destruct q as [l mn mx u v dd]. cbn [p_inds p_dim] in *. unfold extremes in Q4. cbn [p_min p_max p_idmin p_idmax] in Q4. injection Q4 as -> -> -> ->. congruence. }
    rewrite K1. cbn [bind]. destruct (cores_2 _ _ _ K2) as (u & v & U1 & U2 & U3). pose proof U2 as U2'. pose proof U3 as U3'. injection U2' as V1 V2 V3. injection U3' as W1 W2 W3.
    unfold extremes in K3. injection K3 as M1 M2 M3 M4.
    destruct (update_demo (e_pop e1)) as (r & R1 & R2 & R3 & R4 & R5 & R6).
    + auto.
    + rewrite M2. lra.
    + rewrite U1. cbn. lia.
    + exists v. rewrite U1, M2. cbn. auto.
    + rewrite U1, M2. intros j [<-|[<-|[]]]; rewrite ?V3, ?W3; lra.
    + rewrite R1. cbn [bind c_max e_total].
      assert (exists i, pop_best (pop_recompute r) = Ok i) as [i Hi].
      { rewrite K2 in R3. destruct (cores_2 _ _ _ R3) as (s & t & S1 & S2 & S3). injection S2 as S2 _ S4. injection S3 as S3 _ S5.
        pose proof DM_big. pose proof Dm_small. unfold pop_best, pop_recompute. rewrite S1. cbn [fold_left]. change (@ndblmax R RNum) with DM. change (@ndblmin R RNum) with Dm. rewrite S2, S3, S4, S5.
        rewrite minmax_lo by lra. rewrite minmax_hi by lra. unfold pop_get, pop_order. cbn [p_idmin p_inds find_id]. rewrite S2. cbn [Nat.eqb nth_error]. eauto. }
      rewrite K5. cbn [e_total]. change (c_max demo <=? 3)%nat with false. cbn [bind]. unfold ea_solution. cbn [e_pop]. rewrite Hi. cbn [bind].
      eexists. split. reflexivity. cbn [e_pop e_hist]. rewrite K4. cbn [e_hist]. unfold cores at 1. rewrite recompute_inds. fold (cores r). rewrite R3. auto.
Qed.
