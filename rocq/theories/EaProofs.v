(** Structure of populations and of whole runs of the evolutionary optimiser: which individuals, which identifiers, how many. *)
From Coq Require Import List Arith Lia ZArith Bool.
From Verif Require Import Base Num VecModel MatModel EaModel.
Import ListNotations.

Ltac ok_step H := match type of H with
  | bind ?r _ = Ok _ => let a := fresh "a" in let E := fresh "E" in destruct r as [a|?|] eqn:E; cbn [bind] in H; [|discriminate H|discriminate H]
  | (if ?b then _ else _) = Ok _ => let E := fresh "E" in destruct b eqn:E; try discriminate H
  end.
Ltac ok_steps H := repeat ok_step H.

(** ** Sublists *)
Inductive subl {A} : list A -> list A -> Prop :=
| subl_nil l : subl [] l
| subl_skip a l m : subl l m -> subl l (a :: m)
| subl_cons a l m : subl l m -> subl (a :: l) (a :: m).
Lemma subl_refl {A} (l : list A) : subl l l. Proof. induction l. constructor. apply subl_cons; auto. Qed.
Lemma subl_trans {A} (a b c : list A) : subl a b -> subl b c -> subl a c.
Proof.
  intros H1 H2. revert a H1. induction H2; intros a0 H1.
  - inversion H1; constructor.
  - apply subl_skip; auto.
  - inversion H1; subst. constructor. apply subl_skip; auto. apply subl_cons; auto.
Qed.
Lemma subl_app {A} (a b c d : list A) : subl a b -> subl c d -> subl (a ++ c) (b ++ d).
Proof.
  induction 1; simpl; intros H1. induction l; simpl; auto; apply subl_skip; auto. apply subl_skip; auto. apply subl_cons; auto.
Qed.
Lemma subl_map {A B} (f : A -> B) l m : subl l m -> subl (map f l) (map f m).
Proof. induction 1; simpl. constructor. apply subl_skip; auto. apply subl_cons; auto. Qed.
Lemma subl_filter {A} (f : A -> bool) l m : subl l m -> subl (filter f l) (filter f m).
Proof. induction 1; simpl. constructor. destruct (f a); auto; apply subl_skip; auto. destruct (f a); auto; apply subl_cons; auto. Qed.
Lemma subl_in {A} (l m : list A) x : subl l m -> In x l -> In x m.
Proof. induction 1; simpl; intros; auto; intuition. Qed.
Lemma subl_nodup {A} (l m : list A) : subl l m -> NoDup m -> NoDup l.
Proof.
  induction 1; intros Hn; auto. constructor. inversion Hn; auto. inversion Hn; subst. constructor; auto.
  intros Hi. apply H2. eapply subl_in; eauto.
Qed.
Lemma subl_drop {A} (l1 l2 : list A) x : subl (l1 ++ l2) (l1 ++ x :: l2).
Proof. apply subl_app. apply subl_refl. apply subl_skip. apply subl_refl. Qed.

Section EaProofs.
  Context {T : Type} {NT : Num T}.
  Notation ind := (ind T). Notation pop := (pop T). Notation ea := (ea T). Notation econf := (econf T).

  (** what an individual is, apart from its fitness and probabilities *)
  Definition core (i : ind) : nat * (vec T * T) := (i_id i, (i_genes i, i_obj i)).
  Definition cores (p : pop) := map core (p_inds p).
  Lemma cores_ids p : map i_id (p_inds p) = map fst (cores p).
  Proof. unfold cores. rewrite map_map. reflexivity. Qed.

  Definition extremes (p : pop) := (p_min p, p_max p, p_idmin p, p_idmax p).
  Lemma minmax_inds J id p : p_inds (pop_minmax J id p) = p_inds p.
  Proof. unfold pop_minmax. destruct (J >! p_max p); cbn; destruct (J <! _); auto. Qed.
  Lemma recompute_inds p : p_inds (pop_recompute p) = p_inds p.
  Proof.
    unfold pop_recompute.
    assert (forall l q, p_inds (fold_left (fun q i => pop_minmax (i_obj i) (i_id i) q) l q) = p_inds q) as H.
    { induction l; simpl; auto. intros q. rewrite IHl. apply minmax_inds. }
    rewrite H. reflexivity.
  Qed.
  Lemma add_eq p i p' : pop_add p i = Ok p' -> p' = pop_minmax (i_obj i) (i_id i) (pset_inds (p_inds p ++ [i]) p).
  Proof. unfold pop_add. destruct (negb _); intros H; [discriminate|]. injection H as <-; auto. Qed.
  Lemma add_inds p i p' : pop_add p i = Ok p' -> p_inds p' = p_inds p ++ [i].
  Proof. intros H. apply add_eq in H. subst. rewrite minmax_inds. reflexivity. Qed.
  Lemma addGroup_inds l p p' : pop_addGroup p l = Ok p' -> p_inds p' = p_inds p ++ l.
  Proof.
    revert p. induction l; simpl; intros p H.
    - injection H as <-. rewrite app_nil_r; auto.
    - ok_step H. apply add_inds in E. apply IHl in H. rewrite H, E, <- app_assoc. reflexivity.
  Qed.
  Lemma addGroup_ind (P : pop -> Prop) l p p' : P p -> (forall q i q', P q -> In i l -> pop_add q i = Ok q' -> P q') -> pop_addGroup p l = Ok p' -> P p'.
  Proof.
    revert p. induction l; simpl; intros p H0 HS H.
    - injection H as <-; auto.
    - ok_step H. eapply IHl; [| |exact H]. eapply HS; eauto. intros; eapply HS; eauto.
  Qed.
  Lemma mapR_spec {A B} (f : A -> Res B) l l' : mapR f l = Ok l' -> Forall2 (fun a b => f a = Ok b) l l'.
  Proof.
    revert l'. induction l; simpl; intros l' H.
    - injection H as <-. constructor.
    - ok_step H. ok_step H. injection H as <-. constructor; auto.
  Qed.
  Lemma forall2_map_eq {A B C} (R : A -> B -> Prop) (f : A -> C) (g : B -> C) l l' : (forall a b, R a b -> g b = f a) -> Forall2 R l l' -> map g l' = map f l.
  Proof. intros H. induction 1; simpl; auto. rewrite IHForall2, (H _ _ H0). auto. Qed.
  Lemma forall2_weak {A B} (R S : A -> B -> Prop) l l' : (forall a b, R a b -> S a b) -> Forall2 R l l' -> Forall2 S l l'.
  Proof. intros H. induction 1; constructor; auto. Qed.

  Lemma fitness_spec p p' : pop_fitness p = Ok p' -> exists c l, pop_coefficients p = Ok c /\ p' = pset_inds l p /\
    Forall2 (fun a b => b = iset_fit (fit_value c (i_obj a)) a /\ (fit_value c (i_obj a) <=! n0) = false) (p_inds p) l.
  Proof.
    unfold pop_fitness. intros H. ok_steps H. injection H as <-. exists a, a0. split; auto. split; auto.
    apply mapR_spec in E2. eapply forall2_weak; [|exact E2]. intros i b Hb. cbn in Hb.
    destruct (fit_value a (i_obj i) <=! n0); [discriminate|]. injection Hb as <-; auto.
  Qed.
  Lemma reproduction_spec p p' : pop_reproduction p = Ok p' -> exists l, p' = pset_inds l p /\
    Forall2 (fun a b => ind_setRep a (i_fit a /! sum_of i_fit (p_inds p)) = Ok b) (p_inds p) l.
  Proof. unfold pop_reproduction. intros H. ok_steps H. injection H as <-. exists a. split; auto. apply mapR_spec; auto. Qed.
  Lemma forall2_combine_l {A B C} (P : A * B -> C -> Prop) l w l' : length w = length l -> Forall2 P (combine l w) l' ->
    Forall2 (fun a b => exists x, P (a, x) b) l l'.
  Proof.
    revert w l'. induction l; destruct w; simpl; intros l' Hl H; try discriminate.
    - inversion H; constructor.
    - inversion H; subst. constructor; eauto.
  Qed.
  Lemma setDeath_core i v j : ind_setDeath i v = Ok j -> core j = core i /\ i_fit j = i_fit i /\ i_rep j = i_rep i /\ i_death j = v.
  Proof. unfold ind_setDeath. intros H. ok_steps H. injection H as <-. auto. Qed.
  Lemma setRep_core i v j : ind_setRep i v = Ok j -> core j = core i /\ i_fit j = i_fit i /\ i_rep j = v /\ i_death j = i_death i.
  Proof. unfold ind_setRep. intros H. ok_steps H. injection H as <-. auto. Qed.
  Lemma death_spec p p' : pop_death p = Ok p' -> exists q l, vec_quantile (map i_fit (p_inds p)) (nlit 9 (-1)) = Ok q /\ p' = pset_inds l p /\
    let w := death_weights (map i_fit (p_inds p)) q in
    Forall2 (fun iw b => ind_setDeath (fst iw) (snd iw /! vec_sum w) = Ok b) (combine (p_inds p) w) l.
  Proof. unfold pop_death. intros H. ok_steps H. injection H as <-. exists a, a0. split; auto. split; auto. apply mapR_spec; auto. Qed.
  Lemma vbuild_len {A} n (f : nat -> A) : length (map f (seq 0 n)) = n.
  Proof. rewrite map_length, seq_length; auto. Qed.
  Lemma death_weights_len fits q : length (death_weights fits q) = length fits.
  Proof. unfold death_weights, vbuild. apply vbuild_len. Qed.

  Lemma fitness_core p p' : pop_fitness p = Ok p' -> cores p' = cores p /\ extremes p' = extremes p.
  Proof.
    intros H. apply fitness_spec in H. destruct H as (c & l & _ & -> & HF). split; auto. unfold cores. cbn.
    eapply forall2_map_eq; [|exact HF]. intros a b [-> _]. reflexivity.
  Qed.
  Lemma reproduction_core p p' : pop_reproduction p = Ok p' -> cores p' = cores p /\ extremes p' = extremes p /\ map i_fit (p_inds p') = map i_fit (p_inds p).
  Proof.
    intros H. apply reproduction_spec in H. destruct H as (l & -> & HF). split; [|split]; auto.
    unfold cores. cbn. eapply forall2_map_eq; [|exact HF]. intros a b Hb. apply setRep_core in Hb. tauto.
    cbn. eapply forall2_map_eq; [|exact HF]. intros a b Hb. apply setRep_core in Hb. tauto.
  Qed.
  Lemma death_core p p' : pop_death p = Ok p' -> cores p' = cores p /\ extremes p' = extremes p /\
    map i_fit (p_inds p') = map i_fit (p_inds p) /\ map i_rep (p_inds p') = map i_rep (p_inds p).
  Proof.
    intros H. apply death_spec in H. destruct H as (q & l & _ & -> & HF). cbn zeta in HF.
    apply forall2_combine_l in HF; [|rewrite death_weights_len, map_length; auto].
    assert (forall a b, (exists x : T, ind_setDeath (fst (a, x)) (snd (a, x) /! vec_sum (death_weights (map i_fit (p_inds p)) q)) = Ok b) ->
              core b = core a /\ i_fit b = i_fit a /\ i_rep b = i_rep a) as K.
    { intros a b [x Hx]. cbn in Hx. apply setDeath_core in Hx. tauto. }
    unfold cores. cbn. repeat split; auto; (eapply forall2_map_eq; [|exact HF]; intros a b Hb; apply K in Hb; tauto).
  Qed.
  Lemma update_core p p' : pop_update p = Ok p' -> cores p' = cores p /\ extremes p' = extremes p.
  Proof.
    unfold pop_update. intros H. ok_steps H. apply fitness_core in E0. apply reproduction_core in E1. apply death_core in H.
    destruct E0, E1 as (? & ? & _), H as (? & ? & _). split; congruence.
  Qed.
  Lemma update_nonempty p p' : pop_update p = Ok p' -> p_inds p <> [].
  Proof. unfold pop_update. intros H. destruct (p_inds p); try discriminate. Qed.
  Lemma cores_len p q : cores p = cores q -> length (p_inds p) = length (p_inds q).
  Proof. intros H. apply (f_equal (@length _)) in H. unfold cores in H. rewrite !map_length in H. auto. Qed.

  (** ** Removal *)
  Lemma find_id_spec (l : list ind) id k n : find_id l id k = Some n -> exists a x b, l = a ++ x :: b /\ i_id x = id /\ (forall y, In y a -> i_id y <> id) /\ n = k + length a.
  Proof.
    revert k. induction l; simpl; intros k H; [discriminate|].
    destruct (Nat.eqb_spec id (i_id a)) as [He|He].
    - injection H as <-. exists [], a, l. split; [reflexivity|]. split; [auto|]. split; [simpl; tauto|simpl; lia].
    - apply IHl in H. destruct H as (u & x & b & -> & H1 & H2 & H3). exists (a :: u), x, b. split; [reflexivity|]. split; [auto|]. split; [|simpl; lia].
      simpl. intros y [<-|Hy]; auto.
  Qed.
  Lemma find_id_none (l : list ind) id k : find_id l id k = None -> forall y, In y l -> i_id y <> id.
  Proof.
    revert k. induction l; simpl; intros k H y Hy; [tauto|]. destruct (Nat.eqb_spec id (i_id a)); [discriminate|].
    destruct Hy as [<-|Hy]; eauto.
  Qed.
  Lemma nth_error_mid {A} (a b : list A) x : nth_error (a ++ x :: b) (length a) = Some x.
  Proof. rewrite nth_error_app2, Nat.sub_diag; auto. Qed.
  Lemma get_spec (p : pop) id (i : ind) : pop_get p id = Ok i -> exists a b, p_inds p = a ++ i :: b /\ i_id i = id /\ forall y, In y a -> i_id y <> id.
  Proof.
    unfold pop_get, pop_order. destruct (find_id _ _ _) as [k|] eqn:E; [|discriminate]. apply find_id_spec in E.
    destruct E as (a & x & b & E & H1 & H2 & ->). rewrite E. simpl. rewrite nth_error_mid. intros H. injection H as <-. eauto.
  Qed.
  Lemma removeById_spec (p : pop) id (p' : pop) : pop_removeById p id = Ok p' -> exists a x b, p_inds p = a ++ x :: b /\ i_id x = id /\
    (forall y, In y a -> i_id y <> id) /\
    p' = (if (Nat.eqb id (p_idmax p) || Nat.eqb id (p_idmin p))%bool then pop_recompute (pset_inds (a ++ b) p) else pset_inds (a ++ b) p).
  Proof.
    unfold pop_removeById, pop_order, pop_remove. destruct (find_id _ _ _) as [k|] eqn:E; [|discriminate]. apply find_id_spec in E.
    destruct E as (a & x & b & E & H1 & H2 & ->). rewrite E. rewrite Nat.add_0_l, nth_error_mid. intros H.
    exists a, x, b. repeat split; auto. subst id.
    assert (skipn (S (length a)) (a ++ x :: b) = b) as K1.
    { clear. induction a; simpl; auto. }
    assert (firstn (length a) (a ++ x :: b) = a) as K2.
    { clear. induction a; simpl; auto. f_equal; auto. }
    rewrite K1, K2 in H. injection H as <-. reflexivity.
  Qed.
  Lemma removeById_unknown (p : pop) id : (forall y, In y (p_inds p) -> i_id y <> id) -> pop_removeById p id = Throw OutOfRange.
  Proof.
    intros H. unfold pop_removeById, pop_order. destruct (find_id _ _ _) eqn:E; auto.
    apply find_id_spec in E. destruct E as (a & x & b & E & H1 & _). exfalso. apply (H x); auto. rewrite E. apply in_or_app; simpl; auto.
  Qed.
  Lemma removed_inds (p : pop) id (p' : pop) : pop_removeById p id = Ok p' -> exists a x b, p_inds p = a ++ x :: b /\ i_id x = id /\
    (forall y, In y a -> i_id y <> id) /\ p_inds p' = a ++ b.
  Proof.
    intros H. apply removeById_spec in H. destruct H as (a & x & b & H1 & H2 & H3 & ->). exists a, x, b. repeat split; auto.
    destruct (_ || _)%bool; [rewrite recompute_inds|]; reflexivity.
  Qed.
  (** roulette selects a member *)
  Lemma roulette_in f (l : list ind) r acc i : roulette f l r acc = Ok i -> In i l.
  Proof. revert acc. induction l; simpl; intros acc H; [discriminate|]. destruct (r <! _); [injection H as <-; auto|right; eauto]. Qed.

  (** ** Steps of a run *)
  Definition with_pop (p : pop) (e : ea) : ea := mkEA p (e_gen e) (e_rem e) (e_hist e) (e_total e) (e_init e).
  Lemma kill_spec r e e' : ea_kill r e = Ok e' -> exists i m p q,
    pop_pickDeath (e_pop e) r = Ok i /\ In i (p_inds (e_pop e)) /\ pop_add (e_rem e) i = Ok m /\ pop_removeById (e_pop e) (i_id i) = Ok p /\
    pop_update p = Ok q /\ e' = mkEA q (e_gen e) m (e_hist e) (e_total e) (e_init e).
  Proof.
    unfold ea_kill. intros H. ok_steps H. injection H as <-. exists a, a0, a1, a2. repeat split; auto. eapply roulette_in; exact E.
  Qed.

  Variable c : econf.
  Definition is_child (p : pop) (w : childDraw T) (i : ind) : Prop := exists t, ea_child c p t w = Ok (Some i).
  Lemma children_spec p total ws l : ea_children c p total ws = Ok (Some l) ->
    length l = c_new c /\ map i_id l = seq total (c_new c) /\ forall i, In i l -> exists k, ea_child c p (total + k) (ws k) = Ok (Some i).
  Proof.
    unfold ea_children. intros H.
    set (P := fun (k : nat) (s : option (list ind)) => match s with None => True | Some l => length l = k /\ map i_id l = seq total k /\
      forall i, In i l -> exists k, ea_child c p (total + k) (ws k) = Ok (Some i) end).
    assert (P (c_new c) (Some l)) as K.
    { refine (loopR_inv P _ _ _ _ _ _ H).
      - cbn. repeat split; auto. tauto.
      - intros k s s' Hk HP Hs. destruct s as [s|]; [|injection Hs as <-; exact I].
        ok_step Hs. injection Hs as <-. destruct a as [i|]; [|exact I]. destruct HP as (H1 & H2 & H3). red. cbn [option_map].
        rewrite app_length, map_app, seq_S, H2, H1. cbn [length map]. split; [lia|]. split.
        + f_equal. assert (i_id i = total + k) as ->; auto. unfold ea_child in E. ok_step E. destruct a as [[mo fa]|]; [|discriminate].
          ok_step E. ok_step E. injection E as <-. reflexivity.
        + intros j Hj. apply in_app_or in Hj. destruct Hj as [Hj|[<-|[]]]; eauto. }
    exact K.
  Qed.
  Lemma call_spec i j : ea_call c i = Ok j -> c_f c (i_genes i) = Ok (i_obj j) /\ i_genes j = i_genes i /\ i_id j = i_id i /\ length (i_genes i) = c_dim c.
  Proof. unfold ea_call. intros H. ok_steps H. injection H as <-. cbn. apply negb_false_iff, Nat.eqb_eq in E0. auto. Qed.
  Lemma births_spec ws e e' : ea_births c ws e = Ok (Some e') -> exists l0 l p g h,
    ea_children c (e_pop e) (e_total e) ws = Ok (Some l0) /\ Forall2 (fun a b => ea_call c a = Ok b) l0 l /\ length l = c_new c /\
    map i_id l = seq (e_total e) (c_new c) /\
    pop_addGroup (e_pop e) l = Ok p /\ pop_addGroup (e_gen e) l = Ok g /\ pop_addGroup (e_hist e) l = Ok h /\
    e' = mkEA p g (e_rem e) h (e_total e + c_new c) (e_init e).
  Proof.
    unfold ea_births. intros H. ok_step H. ok_step H. ok_step H. destruct a as [l0|]; [|discriminate].
    ok_steps H. injection H as <-. pose proof (children_spec _ _ _ _ E1) as (L1 & L2 & _). apply mapR_spec in E2.
    exists l0, a, a0, a1, a2. repeat split; auto.
    - rewrite <- L1. clear -E2. induction E2; simpl; auto.
    - rewrite <- L2. eapply forall2_map_eq; [|exact E2]. intros u v Hu. apply call_spec in Hu. tauto.
  Qed.

  (** the state after the initialisation of a fresh optimiser *)
  Lemma initialize_spec us dim e : ea_initialize c us (ea_new dim) = Ok e -> exists l p h q,
    length l = c_size c /\ map i_id l = seq 1 (c_size c) /\
    (forall i, In i l -> exists k t, ea_random c t (us k) = Ok i) /\
    pop_addGroup (pop_new dim) l = Ok p /\ pop_addGroup (pop_new dim) l = Ok h /\ pop_update p = Ok q /\ pop_hasRepeated q = false /\
    e = mkEA q (pop_new dim) (pop_new dim) h (c_size c) true.
  Proof.
    unfold ea_initialize. cbn [e_pop e_total e_hist e_gen e_rem ea_new]. intros H. ok_step H. ok_step H. ok_step H. ok_step H. ok_step H. ok_step H. ok_step H.
    set (P := fun (k : nat) (s : nat * list ind) => fst s = k /\ length (snd s) = k /\ map i_id (snd s) = seq 1 k /\
       forall i, In i (snd s) -> exists k t, ea_random c t (us k) = Ok i).
    assert (P (c_size c) a) as (K1 & K2 & K3 & K4).
    { refine (loopR_inv P _ _ _ _ _ _ E1).
      - red. cbn. repeat split; auto; tauto.
      - intros k s s' Hk (H1 & H2 & H3 & H4) Hs. ok_step Hs. injection Hs as <-. red. cbn [fst snd].
        rewrite app_length, map_app, seq_S, H2, H3, H1. cbn [length map]. split; [lia|]. split; [lia|]. split.
        + f_equal. unfold ea_random in E6. ok_steps E6. apply call_spec in E6. destruct E6 as (_ & _ & -> & _). cbn. rewrite H1. reflexivity.
        + intros j Hj. apply in_app_or in Hj. destruct Hj as [Hj|[<-|[]]]; eauto. }
    exists (snd a), a0, a1, a2. rewrite K1 in H. injection H as <-.
    split; [exact K2|]. split; [exact K3|]. split; [exact K4|]. auto 10.
  Qed.

  Definition updated (p : pop) : Prop := exists p0, pop_update p0 = Ok p.
  (** induction over a completed run.  P g d e: g generations of births and d deaths have been made *)
  Lemma loop_ind (P : nat -> nat -> ea -> Prop) ws
    (Hb : forall g k e e', P g (g * c_deaths c) e -> ea_births c (g_births (ws k)) e = Ok (Some e') -> P (S g) (g * c_deaths c) e')
    (Hu : forall g d e p, P g d e -> pop_update (e_pop e) = Ok p -> P g d (with_pop p e))
    (Hk : forall g d k j e e', P g d e -> updated (e_pop e) -> ea_kill (g_deaths (ws k) j) e = Ok e' -> P g (S d) e')
    (Hr : forall g d e, P g d e -> P g d (with_pop (pop_recompute (e_pop e)) e)) :
    forall n k g e e', P g (g * c_deaths c) e -> ea_loop c ws k (S n) e = Ok (Some e') ->
    exists j, j <= n /\ P (g + S j) ((g + S j) * c_deaths c) e' /\ (j = n \/ c_max c <= e_total e') /\
      forall i, i < j -> exists f, P (g + S i) ((g + S i) * c_deaths c) f /\ e_total f < c_max c.
  Proof.
    assert (forall k g e e', P g (g * c_deaths c) e -> ea_generation c (ws k) e = Ok (Some e') -> P (S g) (S g * c_deaths c) e') as HG.
    { intros k g e e' HP H. unfold ea_generation in H. ok_step H. destruct a as [e1|]; [|discriminate].
      apply (Hb _ _ _ _ HP) in E. ok_step H. ok_step H. ok_step H. injection H as <-.
      pose proof (Hu _ _ _ _ E E0) as H1. unfold ea_deaths in E1.
      assert (P (S g) (g * c_deaths c + c_deaths c) a0 /\ updated (e_pop a0)) as [H2 _].
      { refine (loopR_inv (fun j e => P (S g) (g * c_deaths c + j) e /\ updated (e_pop e)) _ _ _ _ _ _ E1).
        - rewrite Nat.add_0_r. split. exact H1. exists (e_pop e1). exact E0.
        - intros j t t' _ [Ht Hu'] Hk'. split. rewrite <- plus_n_Sm. eapply Hk; eauto.
          apply kill_spec in Hk'. destruct Hk' as (i & rm & p & q & _ & _ & _ & _ & Hq & ->). exists p. exact Hq. }
      pose proof (Hr _ _ _ (Hu _ _ _ _ H2 E2)) as H3. cbn in H3 |- *. rewrite Nat.add_comm. exact H3. }
    induction n; intros k g e e' HP H; cbn [ea_loop] in H; ok_step H.
    - destruct a as [e1|]; [|discriminate]. pose proof (HG _ _ _ _ HP E) as H1.
      exists 0. rewrite Nat.add_1_r. destruct (Nat.leb_spec (c_max c) (e_total e1)); injection H as <-; repeat split; auto; intros; lia.
    - destruct a as [e1|]; [|discriminate]. pose proof (HG _ _ _ _ HP E) as H1.
      destruct (Nat.leb_spec (c_max c) (e_total e1)) as [Hm|Hm].
      + injection H as <-. exists 0. rewrite Nat.add_1_r. repeat split; auto; try lia; intros; lia.
      + apply (IHn _ _ _ _ H1) in H. destruct H as (j & Hj & H2 & H3 & H4). exists (S j). replace (g + S (S j)) with (S g + S j) by lia.
        repeat split; auto. lia. destruct H3; auto. intros [|i] Hi. exists e1. rewrite Nat.add_1_r; auto.
        destruct (H4 i) as (f & F1 & F2). lia. exists f. replace (g + S (S i)) with (S g + S i) by lia. auto.
  Qed.
  Lemma run_ind (P : nat -> nat -> ea -> Prop) us ws dim e
    (H0 : forall e, ea_initialize c us (ea_new dim) = Ok e -> P 0 0 e)
    (Hb : forall g k e e', P g (g * c_deaths c) e -> ea_births c (g_births (ws k)) e = Ok (Some e') -> P (S g) (g * c_deaths c) e')
    (Hu : forall g d e p, P g d e -> pop_update (e_pop e) = Ok p -> P g d (with_pop p e))
    (Hk : forall g d k j e e', P g d e -> updated (e_pop e) -> ea_kill (g_deaths (ws k) j) e = Ok e' -> P g (S d) e')
    (Hr : forall g d e, P g d e -> P g d (with_pop (pop_recompute (e_pop e)) e)) :
    ea_optimize c us ws (ea_new dim) = Ok (Some e) ->
    exists g, 1 <= g <= c_gens c /\ P g (g * c_deaths c) e /\ (g = c_gens c \/ c_max c <= e_total e) /\
      forall i, 1 <= i < g -> exists f, P i (i * c_deaths c) f /\ e_total f < c_max c.
  Proof.
    unfold ea_optimize. intros H. ok_step H. cbn [e_pop e_gen e_rem e_hist e_init ea_new] in H. fold (ea_new (T:=T) dim) in H. ok_step H. ok_step H.
    destruct a1 as [e1|]; [|discriminate]. ok_step H. injection H as <-.
    assert (c_gens c <> 0) as Hg. { intros Z. unfold ec_check in E. rewrite Z in E. ok_steps E. }
    destruct (c_gens c) as [|n] eqn:EG; [lia|].
    destruct (loop_ind P ws Hb Hu Hk Hr n 0 0 a0 e1) as (j & Hj & A & B & D); auto.
    exists (S j). split; [lia|]. split; [exact A|]. split; [destruct B; [left; lia|auto]|].
    intros [|i] Hi; [lia|]. apply (D i); lia.
  Qed.
  Lemma run_solution us ws e0 e : ea_optimize c us ws e0 = Ok (Some e) -> exists i, ea_solution e = Ok i.
  Proof.
    unfold ea_optimize. intros H. ok_step H. ok_step H. ok_step H.
    destruct a1 as [e1|]; [|discriminate]. ok_step H. injection H as <-. eauto.
  Qed.
  Lemma run_checked us ws e0 e : ea_optimize c us ws e0 = Ok (Some e) -> ec_check c = Ok tt.
  Proof. unfold ea_optimize. intros H. ok_step H. destruct a; auto. Qed.
End EaProofs.
