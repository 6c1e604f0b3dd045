(** Whole runs of the evolutionary optimiser: identifiers, numbers of individuals, and the tracked minimum and maximum. *)
From Coq Require Import List Arith Lia ZArith Bool.
From Verif Require Import Base Num VecModel MatModel EaModel EaProofs.
Import ListNotations.

Section Book.
  Context {T : Type} {NT : Num T}.
  Variable c : econf T.
  Notation N0 := (c_size c). Notation m := (c_new c).

  Record book (g d : nat) (e : ea T) : Prop := mkBk {
    bk_pop : length (p_inds (e_pop e)) + d = N0 + g * m;
    bk_total : e_total e = N0 + g * m;
    bk_ids : map i_id (p_inds (e_hist e)) = seq 1 N0 ++ seq N0 (g * m);
    bk_sub : subl (cores (e_pop e)) (cores (e_hist e));
    bk_gen : p_inds (e_gen e) = skipn N0 (p_inds (e_hist e));
    bk_rem : length (p_inds (e_rem e)) = d;
    bk_remin : forall i, In i (p_inds (e_rem e)) -> In (core i) (cores (e_hist e)) }.

  Lemma cores_in (p : pop T) i : In i (p_inds p) -> In (core i) (cores p).
  Proof. intros. unfold cores. apply in_map; auto. Qed.
  Lemma book_len g d e : book g d e -> length (p_inds (e_hist e)) = N0 + g * m.
  Proof. intros H. pose proof (bk_ids _ _ _ H) as K. apply (f_equal (@length _)) in K. rewrite map_length, app_length, !seq_length in K. auto. Qed.
  Lemma book_init us dim e : ea_initialize c us (ea_new dim) = Ok e -> book 0 0 e.
  Proof.
    intros H. apply initialize_spec in H. destruct H as (l & p & h & q & L1 & L2 & _ & Ep & Eh & Eq & _ & ->).
    apply addGroup_inds in Ep. apply addGroup_inds in Eh. apply update_core in Eq. destruct Eq as [Eq _].
    pose proof (cores_len _ _ Eq) as EL.
    split; cbn [e_pop e_total e_hist e_gen e_rem].
    - rewrite EL, Ep. cbn. lia.
    - cbn. lia.
    - rewrite Eh. cbn. rewrite app_nil_r. auto.
    - rewrite Eq. unfold cores. rewrite Ep, Eh. apply subl_refl.
    - rewrite Eh. cbn. rewrite <- L1. rewrite skipn_all. auto.
    - reflexivity.
    - cbn. tauto.
  Qed.
  Lemma book_births g d ws e e' : book g d e -> ea_births c ws e = Ok (Some e') -> book (S g) d e'.
  Proof.
    intros B H. pose proof (book_len _ _ _ B) as BL. destruct B as [B1 B2 B3 B4 B5 B6 B7].
    apply births_spec in H. destruct H as (l0 & l & p & gn & h & _ & _ & L1 & L2 & Ep & Eg & Eh & ->).
    apply addGroup_inds in Ep. apply addGroup_inds in Eg. apply addGroup_inds in Eh.
    split; cbn [e_pop e_total e_hist e_gen e_rem].
    - rewrite Ep, app_length. cbn. lia.
    - rewrite B2. cbn. lia.
    - rewrite Eh, map_app, B3, L2, B2, <- app_assoc, <- seq_app. f_equal. f_equal. cbn. lia.
    - unfold cores. rewrite Ep, Eh, !map_app. apply subl_app; auto. apply subl_refl.
    - rewrite Eg, Eh, B5, skipn_app. replace (N0 - length (p_inds (e_hist e))) with 0 by lia. reflexivity.
    - auto.
    - intros i Hi. unfold cores. rewrite Eh, map_app. apply in_or_app. left. apply B7; auto.
  Qed.
  Lemma book_pop g d e p : book g d e -> cores p = cores (e_pop e) -> book g d (with_pop p e).
  Proof.
    intros [B1 B2 B3 B4 B5 B6 B7] H. pose proof (cores_len _ _ H). split; cbn; auto. lia. rewrite H; auto.
  Qed.
  Lemma book_update g d e p : book g d e -> pop_update (e_pop e) = Ok p -> book g d (with_pop p e).
  Proof. intros B H. apply book_pop; auto. apply update_core; auto. Qed.
  Lemma book_recompute g d e : book g d e -> book g d (with_pop (pop_recompute (e_pop e)) e).
  Proof. intros B. apply book_pop; auto. unfold cores. rewrite recompute_inds. auto. Qed.
  Lemma book_kill g d r e e' : book g d e -> ea_kill r e = Ok e' -> book g (S d) e'.
  Proof.
    intros [B1 B2 B3 B4 B5 B6 B7] H. apply kill_spec in H. destruct H as (i & rm & p & q & _ & Hi & Er & Ep & Eq & ->).
    apply add_inds in Er. apply removed_inds in Ep. destruct Ep as (a & x & b & H1 & H2 & H3 & H4).
    apply update_core in Eq. destruct Eq as [Eq _]. pose proof (cores_len _ _ Eq) as EL.
    split; cbn [e_pop e_total e_hist e_gen e_rem]; auto.
    - rewrite EL, H4, app_length. rewrite H1, app_length in B1. cbn in B1. lia.
    - rewrite Eq. eapply subl_trans; [|exact B4]. unfold cores. rewrite H1, H4. apply subl_map, subl_drop.
    - rewrite Er, app_length. cbn. lia.
    - intros j Hj. rewrite Er in Hj. apply in_app_or in Hj. destruct Hj as [Hj|[<-|[]]]; auto.
      eapply subl_in; [exact B4|]. apply cores_in; auto.
  Qed.
  Lemma book_run us ws dim e : ea_optimize c us ws (ea_new dim) = Ok (Some e) ->
    exists g, 1 <= g <= c_gens c /\ book g (g * c_deaths c) e /\ (g = c_gens c \/ c_max c <= N0 + g * m) /\
      forall j, 1 <= j < g -> N0 + j * m < c_max c.
  Proof.
    intros H. destruct (run_ind c book us ws dim e) as (g & Hg & HB & HS & HL); auto.
    - apply book_init.
    - intros; eapply book_births; eauto.
    - intros; eapply book_update; eauto.
    - intros; eapply book_kill; eauto.
    - intros; eapply book_recompute; eauto.
    - exists g. split; auto. split; auto. rewrite (bk_total _ _ _ HB) in HS. split; auto.
      intros j Hj. destruct (HL j Hj) as (f & F1 & F2). rewrite (bk_total _ _ _ F1) in F2. auto.
  Qed.

  (** all identifiers but N0 are unique in the population *)
  Lemma book_unique g d e : book g d e -> 1 <= N0 -> NoDup (filter (fun k => negb (Nat.eqb k N0)) (map i_id (p_inds (e_pop e)))).
  Proof.
    intros B Hn. eapply subl_nodup. { apply subl_filter. rewrite cores_ids. apply subl_map. exact (bk_sub _ _ _ B). }
    rewrite <- cores_ids, (bk_ids _ _ _ B).
    destruct N0 as [|n] eqn:EN; [lia|]. rewrite seq_S, filter_app, filter_app.
    assert (filter (fun k => negb (k =? S n)) [1 + n] = []) as ->. { cbn. rewrite Nat.eqb_refl. auto. }
    rewrite app_nil_r.
    destruct (g * m) as [|k]. { cbn. rewrite app_nil_r. apply NoDup_filter, seq_NoDup. }
    assert (filter (fun k => negb (k =? S n)) (seq (S n) (S k)) = filter (fun k => negb (k =? S n)) (seq (S (S n)) k)) as ->.
    { cbn [seq filter]. rewrite Nat.eqb_refl. auto. }
    rewrite <- filter_app.
    assert (NoDup (seq 1 n ++ seq (S (S n)) k)) as K.
    { eapply subl_nodup with (m := seq 1 n ++ S n :: seq (S (S n)) k). apply subl_drop.
      change (S n :: seq (S (S n)) k) with (seq (1 + n) (S k)). rewrite <- seq_app. apply seq_NoDup. }
    apply NoDup_filter; auto.
  Qed.
End Book.

(** ** Minimum and maximum *)
Section Extremes.
  Context {T : Type} {NT : Num T} {LT : OrdLaws T}.

  Lemma lt_irr (a : T) : (a <! a) = false.
  Proof. destruct (a <! a) eqn:E; auto. rewrite <- E. apply ltb_irrefl. apply (ltb_good _ _ E). Qed.
  Lemma lt_tr (a b d : T) : (a <! b) = true -> (b <! d) = true -> (a <! d) = true.
  Proof. intros H1 H2. apply (ltb_trans a b d); auto; try apply (ltb_good _ _ H1); apply (ltb_good _ _ H2). Qed.
  (** the tracked minimum is not above any member and, unless the population is empty, is the value of the member it names *)
  Definition min_ok (p : pop T) : Prop :=
    (forall i, In i (p_inds p) -> (i_obj i <! p_min p) = false) /\
    (p_inds p = [] -> p_min p = ndblmax) /\
    (p_inds p <> [] -> exists i, In i (p_inds p) /\ i_id i = p_idmin p /\ i_obj i = p_min p).
  (** the tracked maximum is not below any member; it is the value of the member it names unless it is the start value *)
  Definition max_ok (p : pop T) : Prop :=
    (forall i, In i (p_inds p) -> (i_obj i >! p_max p) = false) /\
    (p_max p = ndblmin \/ exists i, In i (p_inds p) /\ i_id i = p_idmax p /\ i_obj i = p_max p) /\
    (p_max p <! ndblmin) = false.
  Definition finite (p : pop T) : Prop := forall i, In i (p_inds p) -> (i_obj i <! ndblmax) = true.

  Lemma new_min dim : min_ok (pop_new dim).
  Proof. split; [cbn; tauto|]. split; auto. cbn. congruence. Qed.
  Lemma new_max dim : max_ok (pop_new dim).
  Proof. split; [cbn; tauto|]. split; [auto|]. cbn. apply lt_irr. Qed.

  Lemma minmax_min_ok (l : list (ind T)) (x : ind T) (p : pop T) :
    (forall i, In i l -> (i_obj i <! p_min p) = false) -> (l = [] -> p_min p = ndblmax) ->
    (l <> [] -> exists i, In i l /\ i_id i = p_idmin p /\ i_obj i = p_min p) -> (i_obj x <! ndblmax) = true ->
    let q := pop_minmax (i_obj x) (i_id x) p in
    (forall i, In i (l ++ [x]) -> (i_obj i <! p_min q) = false) /\
    exists i, In i (l ++ [x]) /\ i_id i = p_idmin q /\ i_obj i = p_min q.
  Proof.
    intros H1 H2 H3 Hf. cbn zeta.
    assert (p_min (pop_minmax (i_obj x) (i_id x) p) = if i_obj x <! p_min p then i_obj x else p_min p) as E1.
    { unfold pop_minmax. destruct (i_obj x >! p_max p); cbn; destruct (i_obj x <! p_min p); auto. }
    assert (p_idmin (pop_minmax (i_obj x) (i_id x) p) = if i_obj x <! p_min p then i_id x else p_idmin p) as E2.
    { unfold pop_minmax. destruct (i_obj x >! p_max p); cbn; destruct (i_obj x <! p_min p); auto. }
    rewrite E1, E2. destruct (i_obj x <! p_min p) eqn:E.
    - split.
      + intros i Hi. apply in_app_or in Hi. destruct Hi as [Hi|[<-|[]]].
        * destruct (i_obj i <! i_obj x) eqn:K; auto. rewrite <- (H1 i Hi). symmetry. eapply lt_tr; eauto.
        * apply lt_irr.
      + exists x. split; auto. apply in_or_app; simpl; auto.
    - split.
      + intros i Hi. apply in_app_or in Hi. destruct Hi as [Hi|[<-|[]]]; auto.
      + destruct l as [|y l]. rewrite H2, Hf in E by auto. discriminate.
        destruct H3 as (i & I1 & I2 & I3); [discriminate|]. exists i. split; auto. apply in_or_app; auto.
  Qed.
  Lemma minmax_max_ok (l : list (ind T)) (x : ind T) (p : pop T) :
    (forall i, In i l -> (i_obj i >! p_max p) = false) ->
    (p_max p = ndblmin \/ exists i, In i l /\ i_id i = p_idmax p /\ i_obj i = p_max p) -> (p_max p <! ndblmin) = false ->
    let q := pop_minmax (i_obj x) (i_id x) p in
    (forall i, In i (l ++ [x]) -> (i_obj i >! p_max q) = false) /\
    (p_max q = ndblmin \/ exists i, In i (l ++ [x]) /\ i_id i = p_idmax q /\ i_obj i = p_max q) /\ (p_max q <! ndblmin) = false.
  Proof.
    intros H1 H2 H3. cbn zeta.
    assert (p_max (pop_minmax (i_obj x) (i_id x) p) = if i_obj x >! p_max p then i_obj x else p_max p) as E1.
    { unfold pop_minmax. destruct (i_obj x >! p_max p); cbn; destruct (i_obj x <! p_min p); auto. }
    assert (p_idmax (pop_minmax (i_obj x) (i_id x) p) = if i_obj x >! p_max p then i_id x else p_idmax p) as E2.
    { unfold pop_minmax. destruct (i_obj x >! p_max p); cbn; destruct (i_obj x <! p_min p); auto. }
    rewrite E1, E2. destruct (i_obj x >! p_max p) eqn:E.
    - split; [|split].
      + intros i Hi. apply in_app_or in Hi. destruct Hi as [Hi|[<-|[]]].
        * destruct (i_obj i >! i_obj x) eqn:K; auto. rewrite <- (H1 i Hi). symmetry. eapply lt_tr; eauto.
        * apply lt_irr.
      + right. exists x. split; auto. apply in_or_app; simpl; auto.
      + destruct (i_obj x <! ndblmin) eqn:K; auto. rewrite <- H3. symmetry. eapply lt_tr; eauto.
    - split; [|split]; auto.
      + intros i Hi. apply in_app_or in Hi. destruct Hi as [Hi|[<-|[]]]; auto.
      + destruct H2 as [H2|(i & I1 & I2 & I3)]; auto. right. exists i. split; auto. apply in_or_app; auto.
  Qed.

  Lemma add_min_ok p i p' : min_ok p -> (i_obj i <! ndblmax) = true -> pop_add p i = Ok p' -> min_ok p'.
  Proof.
    intros (H1 & H2 & H3) Hf H. pose proof (add_inds _ _ _ H) as HI. apply add_eq in H.
    destruct (minmax_min_ok (p_inds p) i (pset_inds (p_inds p ++ [i]) p) H1 H2 H3 Hf) as (K1 & K2).
    red. rewrite HI, H. split; auto. split; auto. intros Z. destruct (p_inds p); discriminate.
  Qed.
  Lemma add_max_ok p i p' : max_ok p -> pop_add p i = Ok p' -> max_ok p'.
  Proof.
    intros (H1 & H2 & H3) H. pose proof (add_inds _ _ _ H) as HI. apply add_eq in H.
    destruct (minmax_max_ok (p_inds p) i (pset_inds (p_inds p ++ [i]) p) H1 H2 H3) as (K1 & K2 & K3).
    red. rewrite HI, H. auto.
  Qed.
  Lemma recompute_fold (l : list (ind T)) : forall (l0 : list (ind T)) q, (forall i, In i l -> (i_obj i <! ndblmax) = true) ->
    (forall i, In i l0 -> (i_obj i <! p_min q) = false) -> (l0 = [] -> p_min q = ndblmax) ->
    (l0 <> [] -> exists i, In i l0 /\ i_id i = p_idmin q /\ i_obj i = p_min q) ->
    let q' := fold_left (fun q i => pop_minmax (i_obj i) (i_id i) q) l q in
    (forall i, In i (l0 ++ l) -> (i_obj i <! p_min q') = false) /\ (l0 ++ l = [] -> p_min q' = ndblmax) /\
    (l0 ++ l <> [] -> exists i, In i (l0 ++ l) /\ i_id i = p_idmin q' /\ i_obj i = p_min q').
  Proof.
    induction l as [|x l IH]; intros l0 q Hf H1 H2 H3; cbn zeta; cbn [fold_left].
    - rewrite app_nil_r. auto.
    - destruct (minmax_min_ok l0 x q H1 H2 H3) as (K1 & K2). apply Hf; simpl; auto.
      specialize (IH (l0 ++ [x]) (pop_minmax (i_obj x) (i_id x) q)). cbn zeta in IH. rewrite <- app_assoc in IH. cbn [app] in IH.
      apply IH; auto. intros; apply Hf; simpl; auto. intros Z. destruct l0; discriminate.
  Qed.
  Lemma recompute_fold_max (l : list (ind T)) : forall (l0 : list (ind T)) q,
    (forall i, In i l0 -> (i_obj i >! p_max q) = false) ->
    (p_max q = ndblmin \/ exists i, In i l0 /\ i_id i = p_idmax q /\ i_obj i = p_max q) -> (p_max q <! ndblmin) = false ->
    let q' := fold_left (fun q i => pop_minmax (i_obj i) (i_id i) q) l q in
    (forall i, In i (l0 ++ l) -> (i_obj i >! p_max q') = false) /\
    (p_max q' = ndblmin \/ exists i, In i (l0 ++ l) /\ i_id i = p_idmax q' /\ i_obj i = p_max q') /\ (p_max q' <! ndblmin) = false.
  Proof.
    induction l as [|x l IH]; intros l0 q H1 H2 H3; cbn zeta; cbn [fold_left].
    - rewrite app_nil_r. auto.
    - destruct (minmax_max_ok l0 x q H1 H2 H3) as (K1 & K2 & K3).
      specialize (IH (l0 ++ [x]) (pop_minmax (i_obj x) (i_id x) q)). cbn zeta in IH. rewrite <- app_assoc in IH. cbn [app] in IH.
      apply IH; auto.
  Qed.
  Lemma recompute_min_ok p : finite p -> min_ok (pop_recompute p).
  Proof.
    intros Hf. red. rewrite recompute_inds. unfold pop_recompute.
    apply (recompute_fold (p_inds p) []); cbn; auto; tauto.
  Qed.
  Lemma recompute_max_ok p : max_ok (pop_recompute p).
  Proof.
    red. rewrite recompute_inds. unfold pop_recompute.
    apply (recompute_fold_max (p_inds p) []); cbn; auto; try tauto. apply lt_irr.
  Qed.
  (** the tracked values depend on identifiers and objective values only *)
  Lemma min_ok_core p q : cores q = cores p -> extremes q = extremes p -> min_ok p -> min_ok q.
  Proof.
    intros HC HE (H1 & H2 & H3). injection HE as E1 E2 E3 E4. 
    assert (forall i, In i (p_inds q) -> exists j, In j (p_inds p) /\ i_id j = i_id i /\ i_obj j = i_obj i) as K.
    { intros i Hi. apply cores_in in Hi. rewrite HC in Hi. unfold cores in Hi. apply in_map_iff in Hi. destruct Hi as (j & Hj & Hp).
      exists j. injection Hj as -> _ ->. auto. }
    assert (forall i, In i (p_inds p) -> exists j, In j (p_inds q) /\ i_id j = i_id i /\ i_obj j = i_obj i) as K'.
    { intros i Hi. apply cores_in in Hi. rewrite <- HC in Hi. unfold cores in Hi. apply in_map_iff in Hi. destruct Hi as (j & Hj & Hp).
      exists j. injection Hj as -> _ ->. auto. }
    pose proof (cores_len _ _ HC) as HL.
    split; [|split]; rewrite ?E1, ?E3.
    - intros i Hi. destruct (K i Hi) as (j & J1 & _ & <-). auto.
    - intros Z. apply H2. rewrite Z in HL. destruct (p_inds p); auto; discriminate.
    - intros Z. destruct H3 as (i & I1 & I2 & I3). { intros Y. apply Z. rewrite Y in HL. destruct (p_inds q); auto; discriminate. }
      destruct (K' i I1) as (j & J1 & J2 & J3). exists j. split; auto. split; congruence.
  Qed.
  Lemma max_ok_core p q : cores q = cores p -> extremes q = extremes p -> max_ok p -> max_ok q.
  Proof.
    intros HC HE (H1 & H2 & H3). injection HE as E1 E2 E3 E4.
    split; [|split]; rewrite ?E2; auto.
    - intros i Hi. apply cores_in in Hi. rewrite HC in Hi. unfold cores in Hi. apply in_map_iff in Hi. destruct Hi as (j & Hj & Hp).
      injection Hj as _ _ <-. auto.
    - destruct H2 as [H2|(i & I1 & I2 & I3)]; auto. right.
      apply cores_in in I1. rewrite <- HC in I1. unfold cores in I1. apply in_map_iff in I1. destruct I1 as (j & Hj & Hp).
      injection Hj as J1 _ J2. exists j. split; auto. split; congruence.
  Qed.
  Lemma removeById_min_ok p id p' : min_ok p -> finite p -> pop_removeById p id = Ok p' -> p_inds p' <> [] -> min_ok p'.
  Proof.
    intros (H1 & H2 & H3) Hf H Hn. pose proof (removed_inds _ _ _ H) as HI. apply removeById_spec in H.
    destruct H as (a & x & b & A1 & A2 & A3 & ->).
    assert (finite (pset_inds (a ++ b) p)) as Hf'. { intros i Hi. apply Hf. rewrite A1. cbn in Hi. apply in_app_or in Hi. apply in_or_app. simpl. tauto. }
    destruct (Nat.eqb_spec id (p_idmax p)); [cbn [orb]; apply recompute_min_ok; auto|].
    destruct (Nat.eqb_spec id (p_idmin p)) as [Hm|Hm]; [cbn [orb]; apply recompute_min_ok; auto|]. cbn [orb] in *.
    split; [|split]; cbn [p_inds p_min p_idmin pset_inds].
    - intros i Hi. apply H1. rewrite A1. apply in_app_or in Hi. apply in_or_app. simpl. tauto.
    - intros Z. exfalso. apply Hn. exact Z.
    - intros _. destruct H3 as (i & I1 & I2 & I3). rewrite A1. destruct a; discriminate.
      exists i. split; auto. rewrite A1 in I1. apply in_app_or in I1. apply in_or_app. destruct I1 as [|[->|]]; auto. exfalso. congruence.
  Qed.
  Lemma removeById_max_ok p id p' : max_ok p -> pop_removeById p id = Ok p' -> max_ok p'.
  Proof.
    intros (H1 & H2 & H3) H. apply removeById_spec in H. destruct H as (a & x & b & A1 & A2 & A3 & ->).
    destruct (Nat.eqb_spec id (p_idmax p)) as [Hm|Hm]; [cbn [orb]; apply recompute_max_ok; auto|].
    destruct (Nat.eqb_spec id (p_idmin p)); [cbn [orb]; apply recompute_max_ok; auto|]. cbn [orb].
    split; [|split]; cbn [p_inds p_max p_idmax pset_inds]; auto.
    - intros i Hi. apply H1. rewrite A1. apply in_app_or in Hi. apply in_or_app. simpl. tauto.
    - destruct H2 as [H2|(i & I1 & I2 & I3)]; auto. right. exists i. split; auto. rewrite A1 in I1. apply in_app_or in I1. apply in_or_app.
      destruct I1 as [|[->|]]; auto. exfalso. congruence.
  Qed.

  (** along a whole run, if every evaluated objective value is below the largest double *)
  Variable c : econf T.
  Definition ext_inv (d : nat) (e : ea T) : Prop := finite (e_hist e) -> min_ok (e_pop e) /\ max_ok (e_pop e) /\ finite (e_pop e).
  Lemma sub_finite (p q : pop T) : subl (cores p) (cores q) -> finite q -> finite p.
  Proof.
    intros H Hf i Hi. apply cores_in in Hi. eapply subl_in in Hi; [|exact H]. unfold cores in Hi. apply in_map_iff in Hi.
    destruct Hi as (j & Hj & Hp). injection Hj as _ _ <-. auto.
  Qed.
  Definition run_inv (g d : nat) (e : ea T) : Prop := book c g d e /\ (finite (e_hist e) -> min_ok (e_pop e) /\ max_ok (e_pop e)).
  Lemma addGroup_min l p p' : min_ok p -> (forall i, In i l -> (i_obj i <! ndblmax) = true) -> pop_addGroup p l = Ok p' -> min_ok p'.
  Proof. intros H0 Hf H. refine (addGroup_ind min_ok l p p' H0 _ H). intros. eapply add_min_ok; eauto. Qed.
  Lemma addGroup_max l p p' : max_ok p -> pop_addGroup p l = Ok p' -> max_ok p'.
  Proof. intros H0 H. refine (addGroup_ind max_ok l p p' H0 _ H). intros. eapply add_max_ok; eauto. Qed.
  Lemma inv_init us dim e : ea_initialize c us (ea_new dim) = Ok e -> run_inv 0 0 e.
  Proof.
    intros H. split. eapply book_init; eauto. apply initialize_spec in H.
    destruct H as (l & p & h & q & L1 & L2 & _ & Ep & Eh & Eq & _ & ->). cbn [e_hist e_pop]. intros Hf.
    apply update_core in Eq. destruct Eq as [Eq1 Eq2]. pose proof (addGroup_inds _ _ _ Eh) as HI. cbn in HI.
    split.
    - eapply min_ok_core; eauto. eapply (addGroup_min l _ p); [apply new_min| |exact Ep]. intros i Hi. apply Hf. rewrite HI; auto.
    - eapply max_ok_core; eauto. eapply (addGroup_max l _ p); [apply new_max|exact Ep].
  Qed.
  Lemma inv_births g d ws e e' : run_inv g d e -> ea_births c ws e = Ok (Some e') -> run_inv (S g) d e'.
  Proof.
    intros [B K] H. split. eapply book_births; eauto. apply births_spec in H.
    destruct H as (l0 & l & p & gn & h & _ & _ & L1 & L2 & Ep & Eg & Eh & ->). cbn [e_hist e_pop]. intros Hf.
    apply addGroup_inds in Eh.
    assert (finite (e_hist e)) as Hf0. { intros i Hi. apply Hf. rewrite Eh. apply in_or_app; auto. }
    destruct (K Hf0) as [K1 K2]. split.
    - eapply (addGroup_min l _ p); [exact K1| |exact Ep]. intros i Hi. apply Hf. rewrite Eh. apply in_or_app; auto.
    - eapply (addGroup_max l _ p); [exact K2|exact Ep].
  Qed.
  Lemma inv_update g d e p : run_inv g d e -> pop_update (e_pop e) = Ok p -> run_inv g d (with_pop p e).
  Proof.
    intros [B K] H. split. eapply book_update; eauto. apply update_core in H. destruct H as [H1 H2]. cbn. intros Hf. destruct (K Hf).
    split. eapply min_ok_core; eauto. eapply max_ok_core; eauto.
  Qed.
  Lemma inv_recompute g d e : run_inv g d e -> run_inv g d (with_pop (pop_recompute (e_pop e)) e).
  Proof.
    intros [B K]. split. apply book_recompute; auto. cbn. intros Hf. split; [|apply recompute_max_ok]. apply recompute_min_ok.
    eapply sub_finite; eauto. apply (bk_sub _ _ _ _ B).
  Qed.
  Lemma inv_kill g d r e e' : run_inv g d e -> ea_kill r e = Ok e' -> run_inv g (S d) e'.
  Proof.
    intros [B K] H. split. eapply book_kill; eauto. apply kill_spec in H.
    destruct H as (i & rm & p & q & _ & Hi & Er & Ep & Eq & ->). cbn [e_hist e_pop]. intros Hf. destruct (K Hf) as [K1 K2].
    pose proof (update_nonempty _ _ Eq). apply update_core in Eq. destruct Eq as [H1 H2].
    split.
    - eapply min_ok_core; eauto. eapply removeById_min_ok; eauto. eapply sub_finite; eauto. apply (bk_sub _ _ _ _ B).
    - eapply max_ok_core; eauto. eapply removeById_max_ok; eauto.
  Qed.
  Lemma inv_run us ws dim e : ea_optimize c us ws (ea_new dim) = Ok (Some e) -> exists g, run_inv g (g * c_deaths c) e.
  Proof.
    intros H. destruct (run_ind c run_inv us ws dim e) as (g & Hg & HB & HS & HL); eauto.
    - apply inv_init.
    - intros; eapply inv_births; eauto.
    - intros; eapply inv_update; eauto.
    - intros; eapply inv_kill; eauto.
    - intros; eapply inv_recompute; eauto.
  Qed.
End Extremes.
