From Coq Require Import List Arith Bool ZArith Lia.
From Verif Require Import Base StM Num VecModel VecProofs VecProofs2 MatModel MatLemmas OptModel.
Import ListNotations.

Section OptProofs.
  Context {T : Type} {NT : Num T} {OL : OrdLaws T}.
  Implicit Types (cs : nat -> cand T) (start best : cand T).

  Lemma ltb_tr a b c : nltb a b = true -> nltb b c = true -> nltb a c = true.
  Proof. intros H1 H2. destruct (ltb_good _ _ H1), (ltb_good _ _ H2). apply (ltb_trans a b c); auto. Qed.

  (** *** C44 *)
  Definition reach cs start (done : list event) (st : cand T * list nat) : Prop :=
    (fst st = start \/ exists i, In (Check i) done /\ In (Write i) done /\ fst st = cs i /\ nltb (snd start) (snd (cs i)) = true) /\
    (forall i, In i (snd st) -> In (Check i) done /\ nltb (snd start) (snd (cs i)) = true).
  Lemma reach_step cs start done st e : reach cs start done st -> reach cs start (done ++ [e]) (sched_step cs st e).
  Proof.
    intros [H1 H2]. destruct st as [best pend]. cbn [fst snd] in *.
    assert (best = start \/ exists i, In (Check i) (done ++ [e]) /\ In (Write i) (done ++ [e]) /\ best = cs i /\ nltb (snd start) (snd (cs i)) = true) as H1'.
    { destruct H1 as [?|(i & ? & ? & ?)]; auto. right. exists i. rewrite !in_app_iff. auto. }
    assert (forall i, In i pend -> In (Check i) (done ++ [e]) /\ nltb (snd start) (snd (cs i)) = true) as H2'.
    { intros i Hi. destruct (H2 i Hi). rewrite in_app_iff. auto. }
    destruct e as [i|i]; cbn [sched_step].
    - destruct (nltb (snd best) (snd (cs i))) eqn:E; split; cbn [fst snd]; auto.
      intros j [<-|Hj]; auto. split. rewrite in_app_iff. right. left; auto.
      destruct H1 as [->|(k & _ & _ & -> & Hk)]; auto. eapply ltb_tr; eauto.
    - destruct (existsb (Nat.eqb i) pend) eqn:E; split; cbn [fst snd]; auto.
      + apply existsb_exists in E as (j & Hj & Ej). apply Nat.eqb_eq in Ej. subst j. right. exists i. destruct (H2' i Hj). split; auto.
        rewrite in_app_iff. split; [right; left; auto|]. auto.
      + intros j Hj. apply filter_In in Hj as [Hj _]. auto.
  Qed.
  Lemma reach_all cs start sch : reach cs start sch (fold_left (sched_step cs) sch (start, [])).
  Proof.
    enough (forall l done st, reach cs start done st -> reach cs start (done ++ l) (fold_left (sched_step cs) l st)) as H.
    { apply (H sch [] (start, [])). split; cbn; auto; tauto. }
    induction l as [|e l IH]; intros done st H; cbn [fold_left]. rewrite app_nil_r. auto.
    change (e :: l) with ([e] ++ l). rewrite app_assoc. apply IH. apply reach_step; auto.
  Qed.
  (** once a better candidate was stored the shared design stays better than the start *)
  Lemma sched_improves cs start sch i : nltb (snd start) (snd (cs i)) = true ->
    (exists pre post, sch = pre ++ Check i :: post /\ In (Write i) post) ->
    nltb (snd start) (snd (search cs sch start)) = true.
  Proof.
    intros Hi (pre & post & -> & Hw). unfold search. rewrite fold_left_app. cbn [fold_left].
    set (st := fold_left (sched_step cs) pre (start, [])). pose proof (reach_all cs start pre) as R. fold st in R.
    set (better := fun st : cand T * list nat => nltb (snd start) (snd (fst st)) = true).
    assert (forall l done st, reach cs start done st -> better st -> better (fold_left (sched_step cs) l st)) as St.
    { unfold better. induction l as [|e l IH]; intros done s1 Hr Hb; cbn [fold_left]; auto.
      apply (IH (done ++ [e])). apply reach_step; auto. destruct s1 as [b p]. cbn [fst] in Hb. destruct e as [j|j]; cbn [sched_step].
      - destruct (nltb (snd b) (snd (cs j))); auto.
      - destruct (existsb (Nat.eqb j) p) eqn:E; auto. cbn [fst]. apply existsb_exists in E as (k & Hk & Ek). apply Nat.eqb_eq in Ek. subst k.
        destruct Hr as [_ Hr]. apply Hr. auto. }
    assert (better (sched_step cs st (Check i)) \/ In i (snd (sched_step cs st (Check i)))) as [B|P].
    { destruct R as [R1 R2]. destruct st as [b p]. cbn [fst snd sched_step] in *. destruct (nltb (snd b) (snd (cs i))) eqn:E.
      - right. left. auto.
      - left. unfold better. cbn [fst]. destruct R1 as [->|(k & _ & _ & -> & Hk)]; auto. rewrite Hi in E. discriminate. }
    - eapply St; eauto. apply reach_step. eauto.
    - set (s1 := sched_step cs st (Check i)) in *. assert (reach cs start (pre ++ [Check i]) s1) as R1 by (apply reach_step; auto).
      clearbody s1. clear R st. revert s1 P R1. generalize (pre ++ [Check i]). induction post as [|e post IH]; intros done s1 P R1; [destruct Hw|].
      cbn [fold_left]. destruct (existsb (Nat.eqb i) (snd s1)) eqn:Ei.
      2:{ exfalso. assert (existsb (Nat.eqb i) (snd s1) = true) as C; [|congruence]. apply existsb_exists. exists i. split; auto. apply Nat.eqb_refl. }
      destruct (match e with Write j => Nat.eqb j i | _ => false end) eqn:Ee.
      + destruct e as [|j]; try discriminate. apply Nat.eqb_eq in Ee. subst j. apply (St _ (done ++ [Write i])). apply reach_step; auto.
        destruct s1 as [b p]. cbn [snd sched_step] in *. rewrite Ei. unfold better. cbn [fst]. auto.
      + apply (IH ltac:(destruct Hw as [->|]; auto; rewrite Nat.eqb_refl in Ee; discriminate) (done ++ [e])).
        * destruct s1 as [b p]. cbn [snd] in *. destruct e as [j|j]; cbn [sched_step].
          -- destruct (nltb (snd b) (snd (cs j))); cbn [snd]; auto. right; auto.
          -- destruct (existsb (Nat.eqb j) p); cbn [snd]; auto. apply filter_In. split; auto. rewrite Ee. auto.
        * apply reach_step; auto.
  Qed.
  Lemma seq_step cs best i : fold_left (sched_step cs) [Check i; Write i] (best, []) =
    (if nltb (snd best) (snd (cs i)) then cs i else best, []).
  Proof.
    cbn [fold_left sched_step]. destruct (nltb (snd best) (snd (cs i))). 2: reflexivity. cbn [existsb orb filter]. simpl. rewrite (Nat.eqb_refl i). reflexivity.
  Qed.
  Lemma seq_search cs start n : good (snd start) ->
    let r := search cs (seq_schedule n) start in
    ((r = start /\ forall j, j < n -> nltb (snd start) (snd (cs j)) = false) \/
     exists i, i < n /\ r = cs i /\ nltb (snd start) (snd (cs i)) = true /\
       (forall j, j < n -> nltb (snd (cs i)) (snd (cs j)) = false) /\ (forall j, j < i -> nltb (snd (cs j)) (snd (cs i)) = true \/ nisnan (snd (cs j)) = true)).
  Proof.
    intros Hg. cbv zeta. unfold search, seq_schedule.
    assert (exists b, fold_left (sched_step cs) (flat_map (fun i => [Check i; Write i]) (seq 0 n)) (start, []) = (b, []) /\
      ((b = start /\ forall j, j < n -> nltb (snd start) (snd (cs j)) = false) \/
       exists i, i < n /\ b = cs i /\ nltb (snd start) (snd (cs i)) = true /\
       (forall j, j < n -> nltb (snd (cs i)) (snd (cs j)) = false) /\ (forall j, j < i -> nltb (snd (cs j)) (snd (cs i)) = true \/ nisnan (snd (cs j)) = true))) as (b & -> & H); [|exact H].
    induction n as [|n (b & E & H)]. { exists start. split; auto. left. split; auto. lia. }
    rewrite seq_S, flat_map_app, fold_left_app, E. cbn [flat_map plus app]. rewrite seq_step. eexists. split; [reflexivity|].
    destruct (nltb (snd b) (snd (cs n))) eqn:L.
    - right. exists n. split; [lia|]. split; auto. destruct (ltb_good _ _ L) as [Gb Gn].
      destruct H as [[-> H]|(i & Hi & -> & S & Mx & Fi)].
      + split; auto. split.
        * intros j Hj. destruct (Nat.eq_dec j n) as [->|]. apply ltb_irrefl; auto.
          destruct (nltb (snd (cs n)) (snd (cs j))) eqn:Q; auto. rewrite <- (H j) by lia. symmetry. eapply ltb_tr; eauto.
        * intros j Hj. destruct (nisnan (snd (cs j))) eqn:Nj; auto. left. apply good_isnan in Nj. destruct (ltb_negtrans _ (snd (cs j)) _ Gb Nj Gn L); auto. rewrite H in H0 by auto. discriminate.
      + split. eapply ltb_tr; eauto. split.
        * intros j Hj. destruct (Nat.eq_dec j n) as [->|]. apply ltb_irrefl; auto.
          destruct (nltb (snd (cs n)) (snd (cs j))) eqn:Q; auto. rewrite <- (Mx j) by lia. symmetry. eapply ltb_tr; eauto.
        * intros j Hj. destruct (nisnan (snd (cs j))) eqn:Nj; auto. left. apply good_isnan in Nj. destruct (ltb_negtrans _ (snd (cs j)) _ Gb Nj Gn L); auto. rewrite Mx in H by auto. discriminate.
    - destruct H as [[-> H]|(i & Hi & -> & S & Mx & Fi)].
      + left. split; auto. intros j Hj. destruct (Nat.eq_dec j n) as [->|]; auto. apply H; lia.
      + right. exists i. split; [lia|]. split; auto. split; auto. split; auto. intros j Hj. destruct (Nat.eq_dec j n) as [->|]; auto. apply Mx; lia.
  Qed.

  (** *** C45 *)
  Definition within (d : nat) (lb ub v : vec T) : Prop :=
    length v = d /\ forall k, k < d -> nltb (vget v k) (vget lb k) = false /\ nltb (vget ub k) (vget v k) = false.
  Lemma update_within d dv g lb ub step : (forall k, k < d -> good (vget lb k) /\ good (vget ub k) /\ nltb (vget ub k) (vget lb k) = false) ->
    within d lb ub (gradientUpdate d dv g lb ub step).
  Proof.
    intros H. unfold gradientUpdate. split. apply vbuild_length. intros k Hk. rewrite vget_vbuild by auto. destruct (H k Hk) as (Gl & Gu & L).
    set (v := vget dv k +! vget g k *! step). cbv zeta.
    destruct (nltb v (vget lb k)) eqn:E1.
    - rewrite L. split; auto. apply ltb_irrefl; auto.
    - destruct (nltb (vget ub k) v) eqn:E2; split; auto. apply ltb_irrefl; auto.
  Qed.
  Lemma line_spec fuel acq d dv g lb ub f0 : forall step r, lineSearch fuel acq d dv g lb ub f0 step = Some r ->
    match r with None => True | Some (v, a) => a = acq v /\ nltb f0 a = true /\ exists st, v = gradientUpdate d dv g lb ub st end.
  Proof.
    induction fuel as [|fuel IH]; intros step r H; [discriminate|]. cbn [lineSearch] in H.
    destruct (nltb f0 (acq (gradientUpdate d dv g lb ub step))) eqn:E. { injection H as <-. split; auto. split; auto. eauto. }
    destruct (nltb (step *! nlit 5 (-1)) (nlit 10 (-12))). { injection H as <-. auto. } eapply IH; eauto.
  Qed.
  (** the step sequence of the line search *)
  Fixpoint nstep (k : nat) (s : T) : T := match k with O => s | S j => nstep j (s *! nlit 5 (-1)) end.
  Lemma line_terminates fuel acq d dv g lb ub f0 k : forall step, 0 < k -> k <= fuel -> nltb (nstep k step) (nlit 10 (-12)) = true ->
    exists r, lineSearch fuel acq d dv g lb ub f0 step = Some r.
  Proof.
    revert k. induction fuel as [|fuel IH]; intros k step H0 H1 H; [lia|]. cbn [lineSearch].
    destruct (nltb f0 (acq (gradientUpdate d dv g lb ub step))); eauto.
    destruct (nltb (step *! nlit 5 (-1)) (nlit 10 (-12))) eqn:E; eauto.
    destruct k as [|[|k]]; [lia| |]. { cbn [nstep] in H. congruence. } apply (IH (S k)); auto; lia.
  Qed.
  Lemma ascent_spec n fuel ei acq d lb ub k : 0 < k -> k <= fuel -> nltb (nstep k (nlit 1 (-3))) (nlit 10 (-12)) = true ->
    (forall k, k < d -> good (vget lb k) /\ good (vget ub k) /\ nltb (vget ub k) (vget lb k) = false) ->
    forall dv, exists v, ascent n fuel ei acq d lb ub dv (acq dv) = Some (v, acq v) /\
      (v = dv \/ (nltb (acq dv) (acq v) = true /\ within d lb ub v)).
  Proof.
    intros K0 K1 K2 Hb. induction n as [|n IH]; intros dv; cbn [ascent]. { eauto. }
    destruct (line_terminates fuel acq d dv (acqGradient ei d dv) lb ub (acq dv) k _ K0 K1 K2) as (r & E). rewrite E. pose proof (line_spec _ _ _ _ _ _ _ _ _ _ E) as L.
    destruct r as [[v a]|]; eauto. destruct L as (-> & L & st & Ev). destruct (IH v) as (w & Ew & [->|[Lw Ww]]).
    - exists v. split; auto. right. split; auto. rewrite Ev. apply update_within; auto.
    - exists w. split; auto. right. split; auto. eapply ltb_tr; eauto.
  Qed.
End OptProofs.
