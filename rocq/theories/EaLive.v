(** The evolutionary optimiser completes: when one point of the box has the value 0 and another one a value between 1/10 and 2, there are
    random numbers for which a run over the reals ends normally (the non-vacuity witness of the theorems about completed trainings). *)
From Coq Require Import Reals Lra Psatz List Arith Lia ZArith Bool Permutation Sorted.
From Verif Require Import Base Num RealNum RSpec VecModel MatModel MatLemmas VecProofs VecReal VecProofs2 MatReal PropsStat PropsLin PropsVec EaModel EaProofs EaRun EaReal EaDemo.
Import ListNotations.
Local Open Scope R_scope.

Lemma maps_in {A B C} (f : A -> B) (g : A -> C) l' : forall l, map f l' = map f l -> map g l' = map g l -> forall i, In i l' -> exists j, In j l /\ f j = f i /\ g j = g i.
Proof.
  induction l' as [|x l' IH]; intros [|y l] H1 H2 i Hi; try discriminate; [destruct Hi|]. cbn in H1, H2. injection H1 as F1 H1. injection H2 as G1 H2.
  destruct Hi as [<-|Hi]. exists y. cbn; auto. destruct (IH l H1 H2 i Hi) as (j & J1 & J2). exists j. cbn; auto.
Qed.
Lemma firstn_seq_le k : forall a n, (k <= n)%nat -> firstn k (seq a n) = seq a k.
Proof. induction k as [|k IH]; intros a [|n] H; cbn; auto; [lia|]. f_equal. apply IH. lia. Qed.
Lemma loopR_ok {S} (P : nat -> S -> Prop) n (f : nat -> S -> Res S) s : P 0%nat s -> (forall k s, (k < n)%nat -> P k s -> exists s', f k s = Ok s' /\ P (Datatypes.S k) s') ->
  exists s', loopR n f s = Ok s' /\ P n s'.
Proof.
  intros H0. induction n as [|n IH]; intros HS; cbn. eauto. destruct IH as (s1 & E & H1). { intros k s1 Hk. apply HS. lia. } rewrite E. cbn. apply HS; auto.
Qed.

Section Live.
  Variables (c : econf R) (ga gb : vec R) (ua ub : nat -> R) (v : R).
  Hypotheses (Hbset : c_bset c = true) (Hra : vec_randomBetween (c_lo c) (c_up c) ua = Ok ga) (Hrb : vec_randomBetween (c_lo c) (c_up c) ub = Ok gb)
    (Hin : inside c gb) (Hlen : length ga = c_dim c) (Hlo : length (c_lo c) = c_dim c) (Hup : length (c_up c) = c_dim c)
    (Hmut : 0 < c_mutp c < 1) (Hfa : c_f c ga = Ok 0) (Hfb : c_f c gb = Ok v) (Hv : 1 / 10 <= v < 2)
    (Hsize : (2 <= c_size c)%nat) (Hnew : (1 <= c_new c)%nat) (Hdeaths : (c_deaths c <= c_new c)%nat) (Hdim : c_dim c <> 0%nat) (Hgens : c_gens c <> 0%nat) (Hmax : c_max c <> 0%nat).

  Definition isB (i : ind R) : Prop := i_id i <> 1%nat /\ i_genes i = gb /\ i_obj i = v /\ i_dim i = c_dim c.
  Definition isA (i : ind R) : Prop := i_id i = 1%nat /\ i_genes i = ga /\ i_obj i = 0 /\ i_dim i = c_dim c.
  (** the population: the best individual first, then n equal ones *)
  Definition herd (n : nat) (p : pop R) : Prop := exists a l, p_inds p = a :: l /\ isA a /\ length l = n /\ (forall i, In i l -> isB i) /\
    p_min p = 0 /\ p_max p = v /\ p_idmin p = 1%nat /\ p_dim p = c_dim c.
  Definition fair (p : pop R) : Prop := exists p0, rated p0 p /\ p_min p0 = 0 /\ p_max p0 = v.

  Lemma fair_inds p q : p_inds q = p_inds p -> fair p -> fair q.
  Proof. intros E (p0 & [R1 R2 R3 R4] & K). exists p0. split; auto. split; rewrite ?E; auto. Qed.
  Lemma herd_update n p : herd n p -> (1 <= n)%nat -> exists q, pop_update p = Ok q /\ herd n q /\ fair q.
  Proof.
    intros (a & l & E & HA & L & HB & M1 & M2 & M3 & D) Hn. destruct HA as (A1 & A2 & A3 & A4).
    destruct (update_demo p) as (q & Q1 & Q2 & Q3 & Q4 & Q5 & Q6); auto.
    - rewrite M2. auto.
    - rewrite E. cbn. lia.
    - rewrite M2, E. destruct l as [|b l]; [cbn in L; lia|]. exists b. split. cbn; auto. apply HB. cbn; auto.
    - rewrite E, M2. intros i [<-|Hi]. rewrite A3. lra. destruct (HB i Hi) as (_ & _ & -> & _). lra.
    - exists q. split; auto. split; [|exists p; auto]. unfold extremes in Q4. injection Q4 as X1 X2 X3 X4. unfold cores in Q3. rewrite E in Q3, Q6.
      destruct (p_inds q) as [|a' l'] eqn:Eq; [discriminate|]. cbn [map] in Q3, Q6. injection Q3 as C1 C2 C3 Q3. injection Q6 as D1 Q6. exists a', l'. split; auto.
      split. { repeat split; congruence. } split. { apply (f_equal (@length _)) in Q3. rewrite !map_length in Q3. lia. } split; [|repeat split; congruence].
      intros i Hi. destruct (maps_in core i_dim l' l Q3 Q6 i Hi) as (j & J1 & J2 & J3). injection J2 as J4 J5 J6. destruct (HB j J1) as (B1 & B2 & B3 & B4). repeat split; congruence.
  Qed.
  Lemma herd_add n p i : herd n p -> isB i -> exists q, pop_add p i = Ok q /\ herd (S n) q.
  Proof.
    intros (a & l & E & HA & L & HB & M1 & M2 & M3 & D) HI. destruct HI as (I1 & I2 & I3 & I4). destruct p as [li mn mx x y d]. cbn in *. subst. rewrite add_eq' by auto.
    rewrite minmax_none by lra. eexists. split. reflexivity. exists a, (l ++ [i]). cbn. split; auto. split; auto. split. rewrite app_length; cbn; lia. split; [|auto].
    intros j Hj. apply in_app_or in Hj. destruct Hj as [Hj|[<-|[]]]; auto. repeat split; auto.
  Qed.
  Lemma herd_addGroup l : forall n p, herd n p -> (forall i, In i l -> isB i) -> exists q, pop_addGroup p l = Ok q /\ herd (n + length l) q.
  Proof.
    induction l as [|i l IH]; intros n p H HB; cbn. exists p. rewrite Nat.add_0_r. auto.
    destruct (herd_add n p i H) as (q & -> & Hq). apply HB; cbn; auto. cbn. rewrite <- Nat.add_succ_comm. apply IH; auto. intros j Hj. apply HB; cbn; auto.
  Qed.
  Lemma herd_start a b : isA a -> isB b -> exists q, pop_addGroup (pop_new (c_dim c)) [a; b] = Ok q /\ herd 1 q.
  Proof.
    intros (A1 & A2 & A3 & A4) (B1 & B2 & B3 & B4). pose proof DM_big. pose proof Dm_small. cbn [pop_addGroup]. unfold pop_new.
    change (@ndblmax R RNum) with DM. change (@ndblmin R RNum) with Dm. rewrite add_eq' by auto. rewrite A3. rewrite minmax_lo by lra. cbn [bind].
    rewrite add_eq' by auto. rewrite B3, minmax_hi by lra. cbn [bind app]. eexists. split. reflexivity. exists a, [b]. cbn. repeat (split; auto).
    destruct H1 as [<-|[]]; auto. destruct H1 as [<-|[]]; auto. destruct H1 as [<-|[]]; auto. destruct H1 as [<-|[]]; auto.
  Qed.
  Lemma minmax_fold l : forall L j d, (forall i, In i l -> isB i) -> fold_left (fun q i => pop_minmax (i_obj i) (i_id i) q) l (mkP L 0 v 1 j d) = mkP L 0 v 1 j d.
  Proof.
    induction l as [|i l IH]; cbn; intros L j d HB; auto. destruct (HB i) as (_ & _ & E & _); auto. rewrite E, minmax_none by lra. apply IH. auto.
  Qed.
  Lemma herd_recompute a l x y d mn mx : isA a -> (forall i, In i l -> isB i) -> (1 <= length l)%nat -> d = c_dim c -> herd (length l) (pop_recompute (mkP (a :: l) mn mx x y d)).
  Proof.
    intros HA HB L ->. pose proof HA as (A1 & A2 & A3 & A4). pose proof DM_big. pose proof Dm_small. unfold pop_recompute. cbn [p_inds p_idmin p_idmax p_dim]. destruct l as [|b l]; [cbn in L; lia|].
    cbn [fold_left]. destruct (HB b) as (B1 & B2 & B3 & B4). cbn; auto. change (@ndblmax R RNum) with DM. change (@ndblmin R RNum) with Dm. rewrite A3, A1, B3, minmax_lo, minmax_hi by lra.
    rewrite minmax_fold by (intros i Hi; apply HB; cbn; auto). exists a, (b :: l). cbn [p_inds p_min p_max p_idmin p_dim]. repeat (split; auto).
  Qed.
  Lemma herd_recomputed n p : herd n p -> (1 <= n)%nat -> herd n (pop_recompute p).
  Proof.
    intros (a & l & E & HA & <- & HB & M1 & M2 & M3 & D) Hn. destruct p as [li mn mx x y d]. cbn [p_inds p_min p_max p_idmin p_dim] in *. subst. apply herd_recompute; auto.
  Qed.
  Lemma herd_remove n p i : herd (S n) p -> (1 <= n)%nat -> In i (p_inds p) -> i_id i <> 1%nat -> exists q, pop_removeById p (i_id i) = Ok q /\ herd n q.
  Proof.
    intros (a & l & E & HA & L & HB & M1 & M2 & M3 & D) Hn Hi Hid. pose proof HA as (A1 & A2 & A3 & A4).
    destruct (find_id (p_inds p) (i_id i) 0) as [k|] eqn:F; [|exfalso; apply (find_id_none _ _ _ F i); auto].
    pose proof (find_id_spec _ _ _ _ F) as (a' & x & b & E' & X & Ha & K). unfold pop_removeById, pop_order. rewrite F. unfold pop_remove. rewrite K, E', Nat.add_0_l, nth_error_mid.
    destruct a' as [|a0 a']. { cbn in E'. rewrite E in E'. injection E' as -> _. congruence. }
    rewrite E in E'. cbn in E'. injection E' as <- E'.
    assert (firstn (length (a :: a')) ((a :: a') ++ x :: b) ++ skipn (S (length (a :: a'))) ((a :: a') ++ x :: b) = a :: (a' ++ b)) as ES.
    { rewrite firstn_app, Nat.sub_diag, firstn_all, firstn_O, app_nil_r. cbn [length app]. f_equal. f_equal. change (skipn (S (S (length a'))) (a :: a' ++ x :: b)) with (skipn (S (length a')) (a' ++ x :: b)).
      rewrite skipn_app, skipn_all2 by lia. replace (S (length a') - length a')%nat with 1%nat by lia. reflexivity. }
    rewrite ES. assert (forall j, In j (a' ++ b) -> isB j) as HB'. { intros j Hj. apply HB. rewrite E'. apply in_app_or in Hj. apply in_or_app. cbn. tauto. }
    assert (length (a' ++ b) = n) as L'. { rewrite E', app_length in L. cbn in L. rewrite app_length. lia. }
    eexists. split. reflexivity. destruct (_ || _)%bool.
    - rewrite <- L'. destruct p as [li mn mx x0 y d]. cbn [p_inds p_min p_max p_idmin p_dim pset_inds] in *. apply herd_recompute; auto. lia.
    - exists a, (a' ++ b). destruct p as [li mn mx x0 y d]. cbn in *. repeat (split; auto).
  Qed.

  Lemma fit_total n p : herd n p -> fair p -> (1 <= n)%nat -> exists a l, p_inds p = a :: l /\ isA a /\ (forall i, In i l -> isB i) /\ 0 < i_rep a <= 100 / 101 /\ total (map i_rep (p_inds p)) = 1.
  Proof.
    intros (a & l & E & HA & L & HB & _) (p0 & HR & M1 & M2) Hn. exists a, l. split; auto. split; auto. split; auto.
    assert (p_inds p <> []) as Hne by (rewrite E; discriminate). destruct (rated_sums _ _ HR Hne) as [S1 _]. split; auto.
    destruct (rt_rep _ _ HR a) as [Ra Rp]. { rewrite E; cbn; auto. } split. lra. rewrite Ra.
    assert (i_fit a = 1) as Fa. { destruct (rt_fit _ _ HR a) as [-> _]. rewrite E; cbn; auto. destruct HA as (_ & _ & -> & _). rewrite M1. apply quad_best. lra. }
    assert (1 / 100 <= total (map i_fit l)) as TL.
    { destruct l as [|b l]; [cbn in L; lia|]. destruct (rt_fit _ _ HR b) as [Fb _]. rewrite E; cbn; auto. destruct (HB b) as (_ & _ & Ob & _). cbn; auto. rewrite Ob, M2, quad_worst in Fb. cbn. rewrite Fb.
      fold (total (map i_fit l)). assert (0 <= total (map i_fit l)); [|lra]. apply total_nonneg. intros y Hy. apply in_map_iff in Hy. destruct Hy as (j & <- & Hj). left. apply (rt_fit _ _ HR). rewrite E; cbn; auto. }
    rewrite E. cbn [map]. unfold total. cbn [fold_right]. fold (total (map i_fit l)). rewrite Fa. apply Rmult_le_reg_r with (1 + total (map i_fit l)). lra. unfold Rdiv at 1. rewrite Rmult_assoc, Rinv_l by lra. lra.
  Qed.

  Definition live_child : childDraw R := mkCh 0 [199 / 200] (fun _ => 0) ub (fun _ => 0).
  Definition live_gen : genDraw R := mkG (fun _ => live_child) (fun _ => 0).
  Lemma clamp_id lo up x : lo <= x <= up -> clamp lo up x = x.
  Proof. intros H. unfold clamp. cbn. destruct (Rltb_spec x lo); [lra|]. destruct (Rltb_spec up x); [lra|]. auto. Qed.
  Lemma live_crossOver mo fa : i_id mo <> i_id fa -> length (i_genes mo) = c_dim c -> length (i_genes fa) = c_dim c -> ea_crossOver c mo fa (fun _ => 0) ub (fun _ => 0) = Ok gb.
  Proof.
    intros Hne L1 L2. destruct Hin as [Lb HI]. unfold ea_crossOver. destruct (Nat.eqb_spec (i_id mo) (i_id fa)); [congruence|]. rewrite L1, L2, Nat.eqb_refl. cbn [negb].
    unfold ea_mutate. cbn [nleb n0 n1 RNum]. rewrite (proj2 (Rleb_false (c_mutp c) 0)), (proj2 (Rleb_false 1 (c_mutp c))) by lra. cbn [orb]. rewrite Hbset, Hrb. cbn [negb bind].
    set (g0 := vbuild (c_dim c) _). assert (length g0 = c_dim c) as L0 by (unfold g0; apply vbuild_length). rewrite L0, Lb, Nat.ltb_irrefl. cbn [andb bind].
    set (g1 := vbuild (c_dim c) _). assert (length g1 = c_dim c) as L1' by (unfold g1; apply vbuild_length). rewrite L1', Hlo, Hup, Nat.ltb_irrefl. cbn [orb]. f_equal.
    apply (nth_ext _ _ 0 0). { rewrite vbuild_length. auto. } intros k Hk. rewrite vbuild_length in Hk. change (nth k (vbuild ?a ?f) 0) with (vget (vbuild a f) k). rewrite vget_vbuild by auto. rewrite (proj2 (Nat.ltb_lt _ _) Hk). unfold g1. rewrite vget_vbuild by auto. cbn [nltb RNum]. rewrite (proj2 (Rltb_true 0 (c_mutp c))) by lra. apply clamp_id. apply HI; auto.
  Qed.
  Lemma live_birth n p t : herd n p -> fair p -> (1 <= n)%nat -> ea_child c p t live_child = Ok (Some (iset_id t (iset_genes gb (ind_new (c_dim c))))).
  Proof.
    intros H F Hn. destruct (fit_total n p H F Hn) as (a & l & E & HA & HB & [R1 R2] & HT). pose proof HA as (A1 & A2 & A3 & A4).
    unfold ea_child, pop_parents, live_child, ch_mother, ch_father, ch_z, ch_u, ch_m.
    assert (length (p_inds p) = S n) as Lp. { destruct H as (a' & l' & E' & _ & L' & _). rewrite E'. cbn. auto. }
    rewrite Lp. rewrite (proj2 (Nat.ltb_ge _ _)) by lia.
    assert (pop_pickRep p 0 = Ok a) as ->. { unfold pop_pickRep. rewrite E. cbn [roulette]. cbn [nltb nadd n0 RNum]. rewrite (proj2 (Rltb_true 0 (0 + i_rep a))) by lra. auto. }
    cbn [bind pop_father]. assert (exists b, pop_pickRep p (199 / 200) = Ok b /\ In b l) as (b & -> & Hb).
    { destruct (roulette_total i_rep (p_inds p) (199 / 200) 0) as [b Eb]. rewrite HT. lra. lra. exists b. split. exact Eb. rewrite E in Eb. cbn [roulette] in Eb. cbn [nltb nadd n0 RNum] in Eb.
      rewrite (proj2 (Rltb_false (199 / 200) (0 + i_rep a))) in Eb by lra. apply roulette_in in Eb. auto. }
    destruct (HB b Hb) as (B1 & B2 & B3 & B4). cbn [bind]. rewrite A1. destruct (Nat.eqb_spec 1 (i_id b)); [congruence|]. cbn [bind option_map]. rewrite Hbset. cbn [negb].
    rewrite live_crossOver; [reflexivity|congruence|rewrite A2; auto|rewrite B2; apply Hin].
  Qed.
  Definition babies (t k : nat) : list (ind R) := map (fun j => iset_id j (iset_genes gb (ind_new (c_dim c)))) (seq t k).
  Lemma live_children n p t : herd n p -> fair p -> (1 <= n)%nat -> ea_children c p t (fun _ => live_child) = Ok (Some (babies t (c_new c))).
  Proof.
    intros H F Hn. unfold ea_children. destruct (loopR_ok (fun k l => l = Some (babies t k)) (c_new c) (fun (k : nat) (l : option (list (ind R))) =>
      match l with None => Ok None | Some l => i <- ea_child c p (t + k) live_child ;; Ok (option_map (fun i => l ++ [i]) i) end) (Some [])) as (s & -> & ->); auto.
    intros k s Hk ->. rewrite (live_birth n p (t + k) H F Hn). cbn [bind option_map]. eexists. split. reflexivity. unfold babies. rewrite seq_S, map_app. reflexivity.
  Qed.
  Lemma live_calls t k : (2 <= t)%nat -> exists l, mapR (ea_call c) (babies t k) = Ok l /\ length l = k /\ forall i, In i l -> isB i.
  Proof.
    intros Ht. unfold babies. revert t Ht. induction k as [|k IH]; intros t Ht; cbn [seq map mapR]. exists []. cbn. intuition.
    destruct (IH (S t)) as (l & El & Ll & Hl). lia. unfold ea_call at 1. destruct (Nat.eqb_spec (c_dim c) 0); [congruence|]. cbn [i_genes iset_id iset_genes]. destruct Hin as [Lb _]. rewrite Lb, Nat.eqb_refl. cbn [negb].
    rewrite Hfb. cbn [bind]. rewrite El. cbn [bind]. eexists. split. reflexivity. split. cbn. lia. intros i [<-|Hi]; auto. repeat split. cbn. lia.
  Qed.

  (** the state between the steps *)
  Definition live (n : nat) (e : ea R) : Prop := herd n (e_pop e) /\ fair (e_pop e) /\ e_init e = true /\ (2 <= e_total e)%nat /\ p_dim (e_gen e) = c_dim c /\ p_dim (e_rem e) = c_dim c /\ p_dim (e_hist e) = c_dim c.
  Lemma minmax_dim (J : R) id (p : pop R) : p_dim (pop_minmax J id p) = p_dim p.
  Proof. unfold pop_minmax. destruct (J >! p_max p); cbn [p_min]; destruct (J <! p_min p); auto. Qed.
  Lemma addGroup_any l : forall p : pop R, p_dim p = c_dim c -> (forall i, In i l -> i_dim i = c_dim c) -> exists q, pop_addGroup p l = Ok q /\ p_dim q = c_dim c.
  Proof.
    induction l as [|i l IH]; cbn; intros p D H; eauto. unfold pop_add. rewrite D, (H i), Nat.eqb_refl by auto. cbn [negb bind]. apply IH; auto. rewrite minmax_dim. auto.
  Qed.
  Lemma live_kill n e : live (S n) e -> (1 <= n)%nat -> exists e', ea_kill 0 e = Ok e' /\ live n e'.
  Proof.
    intros (HH & HF & HI & HT & D1 & D2 & D3) Hn. pose proof HH as (a & l & E & HA & L & HB & M1 & M2 & M3 & D). pose proof HA as (A1 & A2 & A3 & A4). pose proof HF as (p0 & HR & P1 & P2).
    assert (p_inds (e_pop e) <> []) as Hne by (rewrite E; discriminate). destruct (rated_sums _ _ HR Hne) as [_ S2].
    destruct (roulette_total i_death (p_inds (e_pop e)) 0 0) as [i Hi]. rewrite S2; lra. lra.
    assert (pop_pickDeath (e_pop e) 0 = Ok i) as Hp by exact Hi. assert (In i (p_inds (e_pop e))) as Hin' by (eapply roulette_in; exact Hi).
    assert (i_id i <> 1%nat) as Hid.
    { rewrite E in Hin'. destruct Hin' as [<-|Hl]; [|apply HB; auto]. exfalso.
      destruct (pick_not_unique_best p0 (e_pop e) 0 a) as (x & y & j & J1 & J2 & J3); auto; try lra.
      - intros j Hj. rewrite E in Hj. rewrite P1, P2. destruct Hj as [<-|Hj]. lra. destruct (HB j Hj) as (_ & _ & -> & _). lra.
      - rewrite E in J1. rewrite P1 in J3. destruct x as [|x0 x]; cbn in J1.
        + injection J1 as J1. cbn in J2. subst y. destruct (HB j J2) as (_ & _ & O & _). lra.
        + injection J1 as <- J1. assert (isB a) as (B1 & _). { apply HB. rewrite J1. apply in_or_app. cbn; auto. } auto. }
    assert (i_dim i = c_dim c) as Di. { rewrite E in Hin'. destruct Hin' as [<-|Hl]; auto. apply HB; auto. }
    destruct (herd_remove n (e_pop e) i HH Hn Hin' Hid) as (q & Eq & Hq). destruct (herd_update n q Hq Hn) as (q' & Eq' & Hq' & Fq').
    unfold ea_kill. rewrite Hp. cbn [bind]. unfold pop_add. rewrite D2, Di, Nat.eqb_refl. cbn [negb bind]. rewrite Eq. cbn [bind]. rewrite Eq'. cbn [bind].
    eexists. split. reflexivity. repeat (split; auto). cbn [e_rem]. rewrite minmax_dim. auto.
  Qed.
  Lemma live_deaths n e : live n e -> (c_deaths c + 1 <= n)%nat -> exists e', ea_deaths c (fun _ => 0) e = Ok e' /\ live (n - c_deaths c) e'.
  Proof.
    intros H Hn. unfold ea_deaths. destruct (loopR_ok (fun k e => live (n - k) e) (c_deaths c) (fun k e => ea_kill 0 e) e) as (e' & E & H').
    - rewrite Nat.sub_0_r. auto.
    - intros k s Hk Hs. destruct (live_kill (n - S k) s) as (s' & E & H'). replace (S (n - S k)) with (n - k)%nat by lia. auto. lia. exists s'. auto.
    - exists e'. auto.
  Qed.
  Lemma live_generation n e : live n e -> (1 <= n)%nat -> exists e', ea_generation c live_gen e = Ok (Some e') /\ live (n + c_new c - c_deaths c) e'.
  Proof.
    intros (HH & HF & HI & HT & D1 & D2 & D3) Hn. unfold ea_generation, live_gen. cbn [g_births g_deaths]. unfold ea_births. destruct (Nat.eqb_spec (c_new c) 0); [lia|]. rewrite HI. cbn [negb].
    rewrite (live_children n _ _ HH HF Hn). cbn [bind]. destruct (live_calls (e_total e) (c_new c) HT) as (l & -> & Ll & Hl). cbn [bind].
    destruct (herd_addGroup l n (e_pop e) HH Hl) as (p & -> & Hp). cbn [bind]. assert (forall i, In i l -> i_dim i = c_dim c) as Dl by (intros i Hi; apply Hl; auto).
    destruct (addGroup_any l _ D1 Dl) as (g & -> & Dg). cbn [bind]. destruct (addGroup_any l _ D3 Dl) as (h & -> & Dh). cbn [bind e_pop e_gen e_rem e_hist e_total e_init].
    destruct (herd_update _ p Hp) as (q & -> & Hq & Fq). lia. cbn [bind]. rewrite Ll in Hq.
    destruct (live_deaths (n + c_new c) (mkEA q g (e_rem e) h (e_total e + c_new c) true)) as (e1 & -> & H1).
    { repeat (split; auto). cbn. lia. } lia. cbn [bind]. destruct H1 as (HH1 & HF1 & HI1 & HT1 & D1' & D2' & D3').
    destruct (herd_update _ _ HH1) as (r & -> & Hr & Fr). lia. cbn [bind]. eexists. split. reflexivity. unfold live. cbn [e_pop e_init e_total e_gen e_rem e_hist].
    split. apply herd_recomputed; auto. lia. split. eapply fair_inds; [|exact Fr]. apply recompute_inds. auto.
  Qed.
  Lemma live_loop g : forall k n e, live n e -> (1 <= n)%nat -> exists e' n', ea_loop c (fun _ => live_gen) k g e = Ok (Some e') /\ live n' e' /\ (1 <= n')%nat.
  Proof.
    induction g as [|g IH]; intros k n e H Hn; cbn [ea_loop]. eauto. destruct (live_generation n e H Hn) as (e' & -> & H'). cbn [bind]. destruct (_ <=? _)%nat. exists e', (n + c_new c - c_deaths c)%nat. split; auto. split; auto. lia.
    apply (IH _ _ _ H'). lia.
  Qed.
  Definition live_us (k : nat) : nat -> R := match k with O => ua | _ => ub end.
  Lemma live_random u g y t : vec_randomBetween (c_lo c) (c_up c) u = Ok g -> length g = c_dim c -> c_f c g = Ok y -> ea_random c t u = Ok (mkI (S t) (c_dim c) g y 0 0 0).
  Proof.
    intros H L F. unfold ea_random. rewrite Hbset, H. cbn [negb bind]. unfold ind_initGenes. cbn [i_dim ind_new]. rewrite L, Nat.eqb_refl. cbn [negb bind]. unfold ea_call.
    destruct (Nat.eqb_spec (c_dim c) 0); [congruence|]. cbn [i_genes iset_id iset_genes]. rewrite L, Nat.eqb_refl. cbn [negb]. rewrite F. reflexivity.
  Qed.
  Definition firsts : list (ind R) := mkI 1 (c_dim c) ga 0 0 0 0 :: map (fun k => mkI (S k) (c_dim c) gb v 0 0 0) (seq 1 (c_size c - 1)).
  Lemma repeated_none (l : list (ind R)) : forall seen, NoDup (map i_id l) -> (forall i, In i l -> ~ In (i_id i) seen) -> repeated_ids seen l = false.
  Proof.
    induction l as [|x l IH]; cbn; intros seen HN HS; auto. inversion HN as [|? ? N1 N2]; subst. destruct (existsb _ _) eqn:E.
    - apply existsb_exists in E. destruct E as (y & Y1 & Y2). apply Nat.eqb_eq in Y2. subst y. exfalso. apply (HS x); auto.
    - apply IH; auto. intros i Hi [K|K]. apply N1. rewrite K. apply in_map; auto. apply (HS i); auto.
  Qed.
  Lemma live_initialize : exists e, ea_initialize c live_us (ea_new (c_dim c)) = Ok e /\ live (c_size c - 1) e.
  Proof.
    unfold ea_initialize. destruct (Nat.eqb_spec (c_size c) 0); [lia|]. rewrite Hbset. cbn [negb ea_new e_total e_pop e_hist e_gen e_rem].
    destruct (loopR_ok (fun k tl => fst tl = k /\ snd tl = firstn k firsts) (c_size c) (fun k (tl : nat * list (ind R)) => i <- ea_random c (fst tl) (live_us k) ;; Ok (S (fst tl), snd tl ++ [i])) (0%nat, [])) as ([t l] & -> & T1 & T2).
    - cbn. auto.
    - intros k [t l] Hk [E1 E2]. cbn in E1, E2. subst t. destruct k as [|k].
      + cbn [fst snd live_us]. rewrite (live_random ua ga 0 0 Hra Hlen Hfa). cbn [bind]. eexists. split. reflexivity. cbn. subst l. auto.
      + cbn [fst snd live_us]. rewrite (live_random ub gb v (S k) Hrb (proj1 Hin) Hfb). cbn [bind]. eexists. split. reflexivity. cbn [fst snd]. split; auto. subst l. unfold firsts. rewrite !firstn_cons. cbn [app].
        f_equal. rewrite !firstn_map. rewrite (firstn_seq_le (S k) 1 (c_size c - 1)) , (firstn_seq_le k 1 (c_size c - 1)) by lia. rewrite seq_S, map_app. reflexivity.
    - cbn [bind fst snd] in *. assert (l = firsts) as ->. { rewrite T2. apply firstn_all2. unfold firsts. cbn. rewrite map_length, seq_length. lia. } subst t.
      change (pset_inds [] (pop_new (c_dim c))) with (pop_new (T:=R) (c_dim c)).
      assert (exists b l2, firsts = [mkI 1 (c_dim c) ga 0 0 0 0; b] ++ l2 /\ isB b /\ (forall i, In i l2 -> isB i) /\ length l2 = (c_size c - 2)%nat) as (b & l2 & EF & Hb & Hl2 & L2).
      { unfold firsts. destruct (c_size c - 1)%nat as [|nn] eqn:En; [lia|]. cbn [seq map]. eexists _, _. split. reflexivity. split. repeat split; cbn; lia. split.
        - intros i Hi. apply in_map_iff in Hi. destruct Hi as (k & <- & Hk). apply in_seq in Hk. repeat split. cbn. lia.
        - rewrite map_length, seq_length. lia. }
      assert (exists q, pop_addGroup (pop_new (c_dim c)) firsts = Ok q /\ herd (c_size c - 1) q) as (p & Ep & Hp).
      { destruct (herd_start (mkI 1 (c_dim c) ga 0 0 0 0) b) as (q & Eq & Hq); auto. repeat split. destruct (herd_addGroup l2 1 q Hq Hl2) as (q2 & E2 & H2). exists q2. split.
        - rewrite EF. cbn [app]. cbn [pop_addGroup] in Eq |- *. destruct (pop_add (pop_new (c_dim c)) _) as [x| |]; try discriminate Eq. cbn [bind] in *. destruct (pop_add x b); try discriminate Eq. cbn [bind] in *. injection Eq as ->. auto.
        - replace (c_size c - 1)%nat with (1 + length l2)%nat by lia. auto. }
      rewrite Ep. cbn [bind]. destruct (herd_update _ p Hp) as (q & Eq & Hq & Fq). lia. rewrite Eq. cbn [bind].
      assert (pop_hasRepeated q = false) as ->.
      { unfold pop_hasRepeated. apply repeated_none; [|intros i _ []]. destruct (update_core _ _ Eq) as [HC _]. rewrite cores_ids, HC, <- cores_ids. rewrite (addGroup_inds _ _ _ Ep). cbn [p_inds pop_new app]. unfold firsts. cbn [map i_id]. rewrite map_map. cbn [i_id].
        rewrite seq_shift. apply (seq_NoDup (S (c_size c - 1)) 1). }
      eexists. split. reflexivity. unfold live. cbn [e_pop e_init e_total e_gen e_rem e_hist]. split; auto. split; auto. split; auto. split. lia. split; auto. split; auto. destruct Hp as (? & ? & _ & _ & _ & _ & _ & _ & _ & D). auto.
  Qed.
  (** a run that ends normally and reports the better point *)
  Theorem live_run : exists e i, ea_optimize c live_us (fun _ => live_gen) (ea_new (c_dim c)) = Ok (Some e) /\ ea_solution e = Ok i /\ i_genes i = ga /\ i_obj i = 0.
  Proof.
    unfold ea_optimize. assert (ec_check c = Ok tt) as ->.
    { unfold ec_check. rewrite Hbset. cbn [negb]. repeat match goal with |- context [(?x =? 0)%nat] => destruct (Nat.eqb_spec x 0); [lia|] end. destruct (Nat.leb_spec (c_size c + c_new c) (c_deaths c)); [lia|]. auto. }
    cbn [bind]. change (mkEA (e_pop (ea_new (c_dim c))) (e_gen (ea_new (c_dim c))) (e_rem (ea_new (c_dim c))) (e_hist (ea_new (c_dim c))) 0 (e_init (ea_new (c_dim c)))) with (ea_new (T:=R) (c_dim c)).
    destruct live_initialize as (e0 & -> & H0). cbn [bind]. destruct (live_loop (c_gens c) 0 _ e0 H0) as (e & n & -> & H & Hn). lia. cbn [bind].
    destruct H as ((a & l & E & HA & L & HB & M1 & M2 & M3 & D) & _). assert (ea_solution e = Ok a) as HS.
    { unfold ea_solution, pop_best, pop_get, pop_order. rewrite E, M3. cbn [find_id]. destruct HA as (-> & _). reflexivity. }
    rewrite HS. cbn [bind]. exists e, a. split; auto. split; auto. destruct HA as (_ & ? & ? & _). auto.
  Qed.
End Live.
