(** The API: what each call does, and what holds after every sequence of calls. *)
From Coq Require Import Ascii String ZArith Bool Arith List Lia.
From Verif Require Import Base StM Num VecModel MatModel BoundsModel BoundsProofs DesignModel HistModel KrigModel OptModel StrModel StrSpec StrReal ApiModel ApiSpec ApiText.
Import ListNotations.

Section ApiProofs.
  Context {T : Type} {NT : Num T}.
  Implicit Types s : api T.
  Implicit Types o : popt T.
  Definition godim o : nat := ds_dim (go_d (s_gopt (p_st o))).

  (** *** the optimiser *)
  Lemma opt_setDimension_zero o : exists o', opt_setDimension 0 o = (o', Throw RuntimeError) /\ p_dim o' = 0 /\ p_cons o' = p_cons o /\ p_nc o' = p_nc o /\ p_obj o' = p_obj o /\
     p_box o' = p_box o /\ p_N o' = p_N o /\ p_name o' = p_name o /\ p_st o' = p_st o.
  Proof. eexists. split; [reflexivity|]. repeat split. Qed.
  Lemma opt_setDimension_ok d o : d <> 0 -> exists o', opt_setDimension d o = (o', Ok tt) /\ p_dim o' = d /\ godim o' = d /\ p_cons o' = p_cons o /\ p_nc o' = p_nc o /\ p_obj o' = p_obj o /\
     p_box o' = p_box o /\ p_N o' = p_N o /\ p_name o' = p_name o /\
     ds_nc (go_d (s_gopt (p_st o'))) = ds_nc (go_d (s_gopt (p_st o))) /\ ds_dim (s_cur (p_st o')) = d /\ h_dim (s_hist (p_st o')) = d /\ h_cn (s_hist (p_st o')) = h_cn (s_hist (p_st o)) /\
     s_trLen (p_st o') = s_trLen (p_st o) /\ s_iter (p_st o') = s_iter (p_st o) /\ s_evals (p_st o') = s_evals (p_st o) /\ s_pts (p_st o') = s_pts (p_st o) /\ s_succ (p_st o') = s_succ (p_st o) /\ s_fail (p_st o') = s_fail (p_st o).
  Proof.
    intros H. unfold opt_setDimension. destruct (Nat.eqb_spec d 0) as [|Hd]; [congruence|].
    assert (forall x, design_setDimension (T := T) d x = (fst (design_setDimension d x), Ok tt)) as E. { intros x. unfold design_setDimension. destruct (Nat.eqb_spec d 0); [congruence|reflexivity]. }
    assert (forall x, ds_dim (fst (design_setDimension (T := T) d x)) = d) as E1. { intros x. unfold design_setDimension. destruct (Nat.eqb_spec d 0); [congruence|reflexivity]. }
    assert (forall x, ds_nc (fst (design_setDimension (T := T) d x)) = ds_nc x) as E2. { intros x. unfold design_setDimension. destruct (Nat.eqb_spec d 0); [congruence|reflexivity]. }
    unfold sbind, smod, in_st, on_god, in_gopt, in_hist, szoom, hist_setDimension, smod. cbn [sthrow_if sret]. unfold sret.
    rewrite E. cbn [p_st w_p_st w_p_inner w_p_up w_p_lo w_p_dim s_cur set_gopt]. rewrite E.
    eexists. split; [reflexivity|]. unfold godim.
    cbn [p_st w_p_st w_p_inner w_p_up w_p_lo w_p_dim s_cur set_gopt set_cur set_hist s_hist s_gopt go_d p_dim p_cons p_nc p_obj p_box p_N p_name h_dim h_cn s_trLen s_iter s_evals s_pts s_succ s_fail].
    rewrite !E1, !E2. repeat split.
  Qed.
  Lemma opt_addConstraint_ok c o : exists o' r, opt_addConstraint c o = (o', r) /\ (r = Ok tt /\ godim o <> 0 /\ ds_nc (go_d (s_gopt (p_st o'))) = S (p_nc o) \/ r = Throw InvalidArgument /\ godim o = 0) /\
     p_cons o' = p_cons o ++ [c] /\ p_nc o' = S (p_nc o) /\ p_dim o' = p_dim o /\ p_lo o' = p_lo o /\ p_up o' = p_up o /\ p_obj o' = p_obj o /\
     p_box o' = p_box o /\ p_N o' = p_N o /\ p_name o' = p_name o /\ godim o' = godim o /\ go_box (s_gopt (p_st o')) = go_box (s_gopt (p_st o)) /\
     s_cur (p_st o') = s_cur (p_st o) /\ s_hist (p_st o') = s_hist (p_st o) /\
     s_trLen (p_st o') = s_trLen (p_st o) /\ s_iter (p_st o') = s_iter (p_st o) /\ s_evals (p_st o') = s_evals (p_st o) /\ s_pts (p_st o') = s_pts (p_st o) /\ s_succ (p_st o') = s_succ (p_st o) /\ s_fail (p_st o') = s_fail (p_st o).
  Proof.
    unfold opt_addConstraint, sbind, smod, sget, in_st, on_god, in_gopt, szoom, design_setNumberOfConstraints, godim. cbn [p_st w_p_nc w_p_cons p_nc].
    destruct (Nat.eqb_spec (ds_dim (go_d (s_gopt (p_st o)))) 0) as [E|E]; eexists _, _; (split; [reflexivity|]); repeat split; auto.
  Qed.
  Lemma cons_setBounds_same b (l : list (fcon T)) l' r : cons_setBounds b l = (l', r) -> map (fun c => (k_id c, k_gt c, k_value c, f_dim (k_f c), f_name (k_f c), f_file (k_f c), f_fun (k_f c))) l' =
     map (fun c => (k_id c, k_gt c, k_value c, f_dim (k_f c), f_name (k_f c), f_file (k_f c), f_fun (k_f c))) l.
  Proof.
    revert l' r. induction l as [|c t IH]; cbn [cons_setBounds]; intros l' r E. { injection E as <- <-. reflexivity. }
    destruct (fobj_setBounds b (k_f c)) as [f|e|] eqn:F; try (injection E as <- <-; reflexivity).
    destruct (cons_setBounds b t) as [t' r'] eqn:G. injection E as <- <-. cbn [map k_id k_gt k_value k_f]. rewrite (IH _ _ eq_refl). f_equal.
    unfold fobj_setBounds in F. destruct (_ && _)%bool; [discriminate|]. destruct (negb (b_set b)); [discriminate|]. injection F as <-. reflexivity.
  Qed.
  Lemma cons_setBounds_ok b (l : list (fcon T)) l' : cons_setBounds b l = (l', Ok tt) -> forall c, In c l' -> f_box (k_f c) = Some b.
  Proof.
    revert l'. induction l as [|c t IH]; cbn [cons_setBounds]; intros l' E. { injection E as <-. intros c []. }
    destruct (fobj_setBounds b (k_f c)) as [f|e|] eqn:F; try discriminate.
    destruct (cons_setBounds b t) as [t' r'] eqn:G. injection E as <- ->. intros x [<-|Hx]; [|now apply (IH t')]. cbn [k_f].
    unfold fobj_setBounds in F. destruct (_ && _)%bool; [discriminate|]. destruct (negb (b_set b)); [discriminate|]. injection F as <-. reflexivity.
  Qed.
  Lemma cons_setBounds_accepts b (l : list (fcon T)) : b_set b = true -> (forall c, In c l -> f_dim (k_f c) = 0 \/ f_dim (k_f c) = b_dim b) -> exists l', cons_setBounds b l = (l', Ok tt).
  Proof.
    intros Hb. induction l as [|c t IH]; intros H; cbn [cons_setBounds]; [eauto|].
    unfold fobj_setBounds. rewrite Hb. cbn [negb].
    replace (Nat.ltb 0 (f_dim (k_f c)) && negb (Nat.eqb (f_dim (k_f c)) (b_dim b)))%bool with false.
    - destruct IH as (t' & ->). { intros x Hx. apply H. right. exact Hx. } eauto.
    - symmetry. destruct (H c (or_introl eq_refl)) as [->| ->]. reflexivity. rewrite Nat.eqb_refl. apply andb_false_r.
  Qed.
  Definition same_defs o o' : Prop := map (fun c => (k_id c, k_gt c, k_value c, f_dim (k_f c), f_name (k_f c), f_file (k_f c), f_fun (k_f c))) (p_cons o') =
     map (fun c => (k_id c, k_gt c, k_value c, f_dim (k_f c), f_name (k_f c), f_file (k_f c), f_fun (k_f c))) (p_cons o).
  Definition obj_defs o : option (nat * str * str * ufun T) := option_map (fun f => (f_dim f, f_name f, f_file f, f_fun f)) (p_obj o).
  (** setBoxConstraints keeps everything else, and its outcomes *)
  Lemma opt_setBox_frame b o o' r : opt_setBox b o = (o', r) ->
     p_dim o' = p_dim o /\ p_nc o' = p_nc o /\ p_N o' = p_N o /\ p_name o' = p_name o /\ p_inner o' = p_inner o /\ same_defs o o' /\ obj_defs o' = obj_defs o /\ godim o' = godim o /\
     p_lo o' = b_lo b /\ p_up o' = b_up b /\ s_cur (p_st o') = s_cur (p_st o) /\ s_hist (p_st o') = s_hist (p_st o) /\ ds_nc (go_d (s_gopt (p_st o'))) = ds_nc (go_d (s_gopt (p_st o))) /\
     s_trLen (p_st o') = s_trLen (p_st o) /\ s_iter (p_st o') = s_iter (p_st o) /\ s_evals (p_st o') = s_evals (p_st o) /\ s_pts (p_st o') = s_pts (p_st o) /\ s_succ (p_st o') = s_succ (p_st o) /\ s_fail (p_st o') = s_fail (p_st o) /\
     (r = Ok tt -> p_box o' = true /\ godim o = b_dim b /\ b_set b = true /\ go_box (s_gopt (p_st o')) = b /\ p_obj o <> None /\ (forall f, p_obj o' = Some f -> f_box f = Some b) /\ (p_nc o <> 0 -> forall c, In c (p_cons o') -> f_box (k_f c) = Some b)) /\
     (r <> Ok tt -> p_box o' = p_box o /\ go_box (s_gopt (p_st o')) = go_box (s_gopt (p_st o))) /\
     (r = Ok tt \/ r = Throw InvalidArgument \/ (r = Throw AssertFail /\ p_obj o = None)).
  Proof.
    unfold opt_setBox, same_defs, obj_defs, godim. intros E.
    unfold sbind at 1 in E. cbn [smod] in E. set (o1 := w_p_up (b_up b) (w_p_lo (b_lo b) o)) in *.
    unfold sbind at 1, sthrow_if at 1 in E. destruct (negb _) eqn:N1.
    { injection E as <- <-. unfold o1. cbn. repeat (split; [reflexivity|]). split; [discriminate|]. auto. }
    cbn [sret] in E. unfold sbind at 1, sthrow_if at 1 in E. destruct (existsb _ _) eqn:N2.
    { injection E as <- <-. unfold o1. cbn. repeat (split; [reflexivity|]). split; [discriminate|]. auto. }
    cbn [sret] in E. unfold sbind at 1 in E. cbn [sget] in E.
    destruct (p_obj o1) as [f|] eqn:F. 2:{ injection E as <- <-. unfold o1 in *. cbn in *. rewrite F. repeat (split; [reflexivity|]). split; [discriminate|]. auto. }
    unfold sbind at 1 in E. cbn [slift] in E. destruct (fobj_setBounds b f) as [f'|e|] eqn:G.
    2:{ injection E as <- <-. unfold o1 in *. cbn in *. rewrite F. repeat (split; [reflexivity|]). split; [discriminate|].
        unfold fobj_setBounds in G. destruct (_ && _)%bool. injection G as <-; auto. destruct (negb (b_set b)). injection G as <-; auto. discriminate. }
    2:{ unfold fobj_setBounds in G. destruct (_ && _)%bool; [discriminate|]. destruct (negb (b_set b)); discriminate. }
    assert (f_box f' = Some b /\ f_dim f' = f_dim f /\ f_name f' = f_name f /\ f_file f' = f_file f /\ f_fun f' = f_fun f) as (G0 & G1 & G2 & G3 & G4).
    { unfold fobj_setBounds in G. destruct (_ && _)%bool; [discriminate|]. destruct (negb (b_set b)); [discriminate|]. injection G as <-. repeat split. }
    unfold sbind at 1 in E. cbn [smod] in E. unfold sbind at 1 in E. cbn [sget] in E. unfold sbind at 1 in E.
    set (o2 := w_p_obj (Some f') o1) in *.
    assert (exists cs r2, (if Nat.ltb 0 (p_nc o2) then (fun o => let (cs, r) := cons_setBounds b (p_cons o) in (w_p_cons cs o, r)) else sret tt) o2 = (w_p_cons cs o2, r2) /\
      map (fun c => (k_id c, k_gt c, k_value c, f_dim (k_f c), f_name (k_f c), f_file (k_f c), f_fun (k_f c))) cs = map (fun c => (k_id c, k_gt c, k_value c, f_dim (k_f c), f_name (k_f c), f_file (k_f c), f_fun (k_f c))) (p_cons o) /\
      (r2 = Ok tt -> p_nc o <> 0 -> forall c, In c cs -> f_box (k_f c) = Some b) /\ (r2 = Ok tt \/ r2 = Throw InvalidArgument)) as (cs & r2 & Q & Q1 & Q2 & Q3).
    { destruct (Nat.ltb_spec 0 (p_nc o2)) as [Z|Z]; unfold o2, o1 in Z; cbn in Z.
      - destruct (cons_setBounds b (p_cons o2)) as [cs r2] eqn:G5. exists cs, r2. split; [reflexivity|]. split. { apply (cons_setBounds_same b _ _ _ G5). }
        split. { intros -> _. apply (cons_setBounds_ok b _ _ G5). }
        clear -G5. revert cs r2 G5. induction (p_cons o2) as [|c t IH]; cbn [cons_setBounds]; intros cs r2 G5. { injection G5 as <- <-. auto. }
        destruct (fobj_setBounds b (k_f c)) as [f|e|] eqn:F.
        + destruct (cons_setBounds b t) as [t' r'] eqn:G. injection G5 as <- <-. eapply IH. reflexivity.
        + injection G5 as <- <-. unfold fobj_setBounds in F. destruct (_ && _)%bool. injection F as <-; auto. destruct (negb (b_set b)). injection F as <-; auto. discriminate.
        + unfold fobj_setBounds in F. destruct (_ && _)%bool; [discriminate|]. destruct (negb (b_set b)); discriminate.
      - exists (p_cons o2), (Ok tt). split. { destruct o; reflexivity. } split; [reflexivity|]. split; [lia|auto]. }
    match type of E with (match ?X with pair _ _ => _ end) = _ => replace X with (w_p_cons cs o2, r2) in E by (symmetry; exact Q) end. clear Q. destruct Q3 as [-> | ->].
    2:{ injection E as <- <-. unfold o2, o1. cbn. rewrite Q1. unfold o1 in F. cbn in F. rewrite F. cbn. rewrite G1, G2, G3, G4. repeat (split; [reflexivity|]). split; [discriminate|]. auto. }
    unfold sbind at 1 in E. unfold in_st, in_gopt, szoom in E. unfold gopt_setBox in E. unfold sbind, sget, smod, sthrow_if in E.
    destruct (negb (b_set b)) eqn:B1.
    { cbn in E. injection E as <- <-. unfold o2, o1. cbn. rewrite Q1. unfold o1 in F. cbn in F. rewrite F. cbn. rewrite G1, G2, G3, G4. repeat (split; [reflexivity|]). split; [discriminate|]. auto. }
    cbn [sret] in E. unfold o2, o1 in E. cbn in E.
    destruct (Nat.eqb_spec (ds_dim (go_d (s_gopt (p_st o)))) (b_dim b)) as [B2|B2]; cbn in E.
    2:{ injection E as <- <-. cbn. rewrite Q1. unfold o1 in F. cbn in F. rewrite F. cbn. rewrite G1, G2, G3, G4. repeat (split; [reflexivity|]). split; [discriminate|]. auto. }
    injection E as <- <-. cbn. rewrite Q1. unfold o1 in F. cbn in F. rewrite F. cbn. rewrite G1, G2, G3, G4. repeat (split; [reflexivity|]). split; [|split; [intros X; destruct (X eq_refl)|auto]].
    intros _. split; auto. split; auto. split. { now apply negb_false_iff in B1. } split; auto. split; [discriminate|]. split. { intros x X. injection X as <-. exact G0. } intros Z. apply Q2; auto.
  Qed.

  (** *** the calls *)
  Definition pushes (lb ub : list T) (n : nat) s : api T := w_a_up (a_up s ++ firstn n ub) (w_a_lo (a_lo s ++ firstn n lb) s).
  Definition good (lb ub : list T) (i : nat) : Prop := nleb (vget ub i) (vget lb i) = false.
  Lemma firstn_S_vget n (l : list T) : n < length l -> firstn (S n) l = firstn n l ++ [vget l n].
  Proof. revert l. induction n as [|n IH]; intros [|x l] H; cbn in *; try lia; auto. rewrite IH by lia. reflexivity. Qed.
  Lemma bind_ok {S A B} (m : SM S A) (k : A -> SM S B) x x1 a : m x = (x1, Ok a) -> sbind m k x = k a x1.
  Proof. unfold sbind. now intros ->. Qed.
  Lemma bind_throw {S A B} (m : SM S A) (k : A -> SM S B) x x1 e : m x = (x1, Throw e) -> sbind m k x = (x1, Throw e).
  Proof. unfold sbind. now intros ->. Qed.
  Lemma push_loop lb ub s n : n <= length lb -> n <= length ub ->
    ((forall i, i < n -> good lb ub i) /\
     sloop n (fun i => run sthrow_if (vget lb i >=! vget ub i) InvalidArgument;
      smod (fun s => w_a_up (a_up s ++ [vget ub i]) (w_a_lo (a_lo s ++ [vget lb i]) s))) s = (pushes lb ub n s, Ok tt)) \/
    (exists k, k < n /\ (forall i, i < k -> good lb ub i) /\ ~ good lb ub k /\
     sloop n (fun i => run sthrow_if (vget lb i >=! vget ub i) InvalidArgument;
      smod (fun s => w_a_up (a_up s ++ [vget ub i]) (w_a_lo (a_lo s ++ [vget lb i]) s))) s = (pushes lb ub k s, Throw InvalidArgument)).
  Proof.
    induction n as [|n IH]; intros Hl Hu; cbn [sloop].
    - left. split; [lia|]. unfold pushes, sret. cbn [firstn]. rewrite !app_nil_r. destruct s; reflexivity.
    - destruct IH as [[G E]|(k & Hk & G & B & E)]; try lia.
      + destruct (vget lb n >=! vget ub n) eqn:C.
        * right. exists n. split; [lia|]. split; auto. split. { unfold good. congruence. } rewrite (bind_ok _ _ _ _ _ E). unfold sbind, sthrow_if.  reflexivity.
        * left. split. { intros i Hi. destruct (Nat.eq_dec i n) as [->|]; [exact C|apply G; lia]. } rewrite (bind_ok _ _ _ _ _ E). unfold sbind, sthrow_if.  cbn [sret]. unfold smod, pushes. cbn [a_lo a_up w_a_lo w_a_up]. rewrite !firstn_S_vget by lia. rewrite !app_assoc. reflexivity.
      + right. exists k. split; [lia|]. split; auto. split; auto. exact (bind_throw _ _ _ _ _ E).
  Qed.
  Definition box_of (lo up : list T) : bnds T := mkB (length lo) lo up true.
  Definition pairs_ok s : Prop := length (a_lo s) = length (a_up s) /\ forall i, i < length (a_lo s) -> good (a_lo s) (a_up s) i.
  Lemma vget_app1 (a b : list T) i : i < length a -> vget (a ++ b) i = vget a i.
  Proof. intros. unfold vget. now rewrite app_nth1. Qed.
  Lemma pushes_pairs lb ub n s : n <= length lb -> n <= length ub -> pairs_ok s -> (forall i, i < n -> good lb ub i) -> pairs_ok (pushes lb ub n s).
  Proof.
    intros Hl Hu [E H] G. unfold pairs_ok, pushes. cbn [a_lo a_up w_a_lo w_a_up]. rewrite !app_length, !firstn_length_le by lia. split; [lia|].
    intros i Hi. unfold good. destruct (Nat.ltb_spec i (length (a_lo s))) as [L|L].
    - rewrite !vget_app1 by lia. apply H. exact L.
    - unfold vget. rewrite !app_nth2 by lia. rewrite <- E. specialize (G (i - length (a_lo s)) ltac:(lia)). unfold good, vget in G.
      assert (forall (l : list T) k, k < n -> n <= length l -> nth k (firstn n l) n0 = nth k l n0) as N.
      { intros l k Hk Hn. rewrite <- (firstn_skipn n l) at 2. rewrite app_nth1; auto. rewrite firstn_length_le; auto. }
      rewrite !N by lia. exact G.
  Qed.
  Lemma setBox_cases lb ub s s' r : pairs_ok s -> api_setBox lb ub s = (s', r) ->
    (a_dim s = 0 /\ s' = s /\ r = Throw InvalidArgument) \/
    (a_dim s <> 0 /\ (length lb < a_dim s \/ length ub < a_dim s) /\ s' = s /\ r = UB) \/
    (a_dim s <= length lb /\ a_dim s <= length ub /\ exists k, k < a_dim s /\ (forall i, i < k -> good lb ub i) /\ ~ good lb ub k /\ s' = pushes lb ub k s /\ r = Throw InvalidArgument) \/
    (a_dim s <> 0 /\ a_dim s <= length lb /\ a_dim s <= length ub /\ (forall i, i < a_dim s -> good lb ub i) /\
     exists o', opt_setBox (box_of (a_lo s ++ firstn (a_dim s) lb) (a_up s ++ firstn (a_dim s) ub)) (a_opt s) = (o', r) /\
       (r = Ok tt /\ s' = w_a_boxset true (w_a_opt o' (pushes lb ub (a_dim s) s)) \/ r <> Ok tt /\ s' = w_a_opt o' (pushes lb ub (a_dim s) s))).
  Proof.
    intros P E. unfold api_setBox in E. unfold sbind at 1 in E. cbn [sget] in E. unfold sbind at 1, sthrow_if at 1 in E.
    destruct (Nat.eqb_spec (a_dim s) 0) as [D|D]. { injection E as <- <-. auto. }
    cbn [sret] in E. unfold sbind at 1 in E. destruct (Nat.ltb_spec (length lb) (a_dim s)) as [L|L]. { cbn in E. injection E as <- <-. right. left. auto. }
    destruct (Nat.ltb_spec (length ub) (a_dim s)) as [U|U]. { cbn in E. injection E as <- <-. right. left. auto. }
    cbn [orb sret] in E. unfold sbind at 1 in E.
    destruct (push_loop lb ub s (a_dim s) L U) as [[G Q]|(k & Hk & G & B & Q)].
    2:{ match type of E with (match ?X with pair _ _ => _ end) = _ => replace X with (pushes lb ub k s, @Throw unit InvalidArgument) in E by (symmetry; exact Q) end.
        injection E as <- <-. right. right. left. split; auto. split; auto. exists k. auto. }
    match type of E with (match ?X with pair _ _ => _ end) = _ => replace X with (pushes lb ub (a_dim s) s, Ok tt) in E by (symmetry; exact Q) end. clear Q.
    right. right. right. split; auto. split; auto. split; auto. split; auto.
    unfold sbind at 1 in E. cbn [sget] in E.
    pose proof (pushes_pairs lb ub (a_dim s) s L U P G) as [PL PG].
    set (s1 := pushes lb ub (a_dim s) s) in *.
    assert (bnds_setStd (bnds_setDimension bnds_new (a_dim s)) (a_lo s1) (a_up s1) = (box_of (a_lo s1) (a_up s1), Ok tt)) as B.
    { unfold bnds_setStd. rewrite <- PL. replace (Nat.ltb (length (a_lo s1)) (length (a_lo s1))) with false by (symmetry; apply Nat.ltb_irrefl).
      rewrite PL at 2. rewrite firstn_all. unfold bnds_finish, bnds_check. cbn [b_dim b_lo b_up b_set bnds_setDimension bnds_new].
      destruct (Nat.eqb_spec (length (a_lo s1)) 0) as [Z|Z]. { unfold s1, pushes in Z. cbn in Z. rewrite app_length, firstn_length_le in Z by lia. lia. }
      assert (check_from (a_lo s1) (a_up s1) (seq 0 (length (a_lo s1))) = Ok true) as ->. { apply check_from_ok. intros i Hi. apply in_seq in Hi. split; [lia|]. split; [lia|]. apply PG. lia. }
      reflexivity. }
    rewrite B in E. unfold sbind at 1 in E. cbn [slift] in E. unfold sbind in E. unfold in_opt, szoom in E.
    change (a_opt s1) with (a_opt s) in E. change (a_lo s1) with (a_lo s ++ firstn (a_dim s) lb) in E. change (a_up s1) with (a_up s ++ firstn (a_dim s) ub) in E.
    destruct (opt_setBox _ (a_opt s)) as [o' r'] eqn:O. exists o'. destruct r' as [[]|e|]; cbn in E; injection E as <- <-.
    - split; auto. - split; auto. right. split; [discriminate|auto]. - split; auto. right. split; [discriminate|auto].
  Qed.
  Lemma addConstraint_cases f e file s s' r : api_addConstraint f e file s = (s', r) ->
    (s' = s /\ r = Throw InvalidArgument /\ constraint_of (CConstraint f e file) = []) \/
    (exists g p o', f = Some g /\ constraint_of (CConstraint f e file) = [(g, p, file)] /\
      opt_addConstraint (mkC (a_nc s) (e_gt p) (e_value p) (mkF (a_dim s) (e_name p) file g None)) (a_opt s) = (o', r) /\
      s' = w_a_opt o' (w_a_nc (S (a_nc s)) (w_a_cfiles (a_cfiles s ++ [file]) (w_a_cptrs (a_cptrs s ++ [g]) s)))).
  Proof.
    unfold api_addConstraint. intros E. unfold sbind at 1, sthrow_if at 1 in E. destruct file as [|c file]. { injection E as <- <-. left. repeat split. destruct f; reflexivity. }
    cbn [is_empty sret] in E. unfold sbind at 1, sthrow_if at 1 in E. destruct e as [|x e]. { injection E as <- <-. left. repeat split. destruct f; reflexivity. }
    cbn [is_empty sret] in E. destruct f as [g|]. 2:{ injection E as <- <-. left. repeat split. }
    unfold sbind at 1 in E. cbn [slift] in E. cbn [constraint_of]. destruct (parse_outcome (T := T) (x :: e)) as [[p Q]|Q]; rewrite Q in *.
    2:{ injection E as <- <-. left. auto. }
    right. unfold sbind at 1, sthrow_if at 1 in E.
    assert (is_empty (e_name p) = false) as Z. { destruct (parse_inv _ _ Q) as (m & k & X & _). destruct (e_name p); [|reflexivity]. inversion X. congruence. }
    rewrite Z in E. cbn [sret] in E. unfold sbind at 1 in E. cbn [sget] in E. unfold sbind at 1 in E. cbn [smod] in E.
    unfold in_opt, szoom in E. cbn [a_opt w_a_nc w_a_cfiles w_a_cptrs] in E.
    destruct (opt_addConstraint _ (a_opt s)) as [o' r'] eqn:O. exists g, p, o'. injection E as <- <-. auto.
  Qed.

  (** *** what holds after every sequence of calls *)
  Definition con_matches (cs : list (ufun T * pexpr T * str)) (i : nat) (c : fcon T) : Prop :=
    exists f p file, nth_error cs i = Some (f, p, file) /\ k_id c = i /\ k_gt c = e_gt p /\ k_value c = e_value p /\ f_fun (k_f c) = f /\ f_name (k_f c) = e_name p /\ f_file (k_f c) = file.
  Record api_inv (l : history T) s : Prop := mkInv {
    i_dim : p_dim (a_opt s) = a_dim s;
    i_god : a_dim s <> 0 -> godim (a_opt s) = a_dim s;
    i_pairs : pairs_ok s;
    i_nc : a_nc s = length (constraints_in l);
    i_pnc : p_nc (a_opt s) = length (constraints_in l);
    i_cons : length (p_cons (a_opt s)) = length (constraints_in l);
    i_con : forall i c, nth_error (p_cons (a_opt s)) i = Some c -> con_matches (constraints_in l) i c;
    i_ptrs : a_cptrs s = map (fun x => fst (fst x)) (constraints_in l);
    i_files : a_cfiles s = map snd (constraints_in l);
    i_obj : a_objset s = true <-> objective_accepted l;
    i_pobj : a_objset s = true <-> p_obj (a_opt s) <> None;
    i_ptr : a_objset s = true -> exists f g, p_obj (a_opt s) = Some f /\ a_ptr s = Some g /\ f_fun f = g;
    i_box : a_boxset s = true <-> box_accepted l;
    i_pbox : p_box (a_opt s) = a_boxset s;
    i_dset : a_dimset s = true <-> dimension_accepted l;
    i_N : a_N s = last_of budget_of l 0 /\ p_N (a_opt s) = a_N s;
    i_name : a_name s = last_of name_of l (lit "OptimizationStudy") /\ p_name (a_opt s) = a_name s;
    i_adim : a_dim s = last_of dim_of l 0;
    i_ns : a_ns s = last_of samples_of l 0;
    i_type : a_type s = lit "random" \/ a_type s = lit "lhs" }.
  Lemma last_of_snoc {A} (f : acall T -> option A) l c r x : last_of f (l ++ [(c, r)]) x = match f c with Some y => y | None => last_of f l x end.
  Proof. revert x. induction l as [|[c' r'] l IH]; intros x; cbn [app last_of]; [reflexivity|apply IH]. Qed.
  Lemma constraints_snoc l c r : constraints_in (T := T) (l ++ [(c, r)]) = constraints_in l ++ constraint_of c.
  Proof. unfold constraints_in. rewrite flat_map_app. cbn [flat_map fst]. now rewrite app_nil_r. Qed.
  Lemma con_matches_more cs x i c : con_matches cs i c -> con_matches (cs ++ x) i c.
  Proof. intros (f & p & file & E & H). exists f, p, file. split; auto. rewrite nth_error_app1; auto. apply nth_error_Some. congruence. Qed.
  Lemma in_snoc {A} (x : A) l y : In x (l ++ [y]) <-> In x l \/ x = y.
  Proof. rewrite in_app_iff. cbn. intuition. Qed.
  Lemma same_defs_con o o' cs i c : same_defs o o' -> (forall i c, nth_error (p_cons o) i = Some c -> con_matches cs i c) -> nth_error (p_cons o') i = Some c -> con_matches cs i c.
  Proof.
    intros S H E. unfold same_defs in S.
    pose proof (map_nth_error (fun c => (k_id c, k_gt c, k_value c, f_dim (k_f c), f_name (k_f c), f_file (k_f c), f_fun (k_f c))) i (p_cons o') E) as Q. rewrite S in Q.
    destruct (nth_error (p_cons o) i) as [c0|] eqn:E0.
    - rewrite (map_nth_error _ _ _ E0) in Q. injection Q as Q1 Q2 Q3 Q4 Q5 Q6 Q7. destruct (H i c0 E0) as (f & p & file & A & A1 & A2 & A3 & A4 & A5 & A6). exists f, p, file. repeat split; congruence.
    - apply nth_error_None in E0. assert (nth_error (map (fun c => (k_id c, k_gt c, k_value c, f_dim (k_f c), f_name (k_f c), f_file (k_f c), f_fun (k_f c))) (p_cons o)) i = None). { apply nth_error_None. rewrite map_length. exact E0. } congruence.
  Qed.
  Lemma same_defs_length o o' : same_defs o o' -> length (p_cons o') = length (p_cons o).
  Proof. unfold same_defs. intros H. apply (f_equal (@length _)) in H. now rewrite !map_length in H. Qed.

  Ltac keep H := destruct H; constructor; rewrite ?last_of_snoc, ?constraints_snoc; cbn [budget_of name_of dim_of samples_of constraint_of]; rewrite ?app_nil_r; auto.
  Lemma box_snoc l c r : (forall lb ub, c = CBox lb ub -> r <> Ok tt) -> box_accepted (T := T) (l ++ [(c, r)]) <-> box_accepted l.
  Proof.
    intros H. unfold box_accepted. split.
    - intros (lb & ub & E). apply in_snoc in E. destruct E as [E|E]; [eauto|]. injection E as <- <-. destruct (H lb ub eq_refl eq_refl).
    - intros (lb & ub & E). exists lb, ub. apply in_snoc. auto.
  Qed.
  Lemma dim_snoc l c r : (forall d, c = CDimension d -> r <> Ok tt) -> dimension_accepted (T := T) (l ++ [(c, r)]) <-> dimension_accepted l.
  Proof.
    intros H. unfold dimension_accepted. split.
    - intros (d & E). apply in_snoc in E. destruct E as [E|E]; [eauto|]. injection E as <- <-. destruct (H d eq_refl eq_refl).
    - intros (d & E). exists d. apply in_snoc. auto.
  Qed.
  Lemma obj_snoc l c r : (forall f n x, c = CObjective f n x -> r <> Ok tt) -> objective_accepted (T := T) (l ++ [(c, r)]) <-> objective_accepted l.
  Proof.
    intros H. unfold objective_accepted. split.
    - intros (f & n & x & E). apply in_snoc in E. destruct E as [E|E]; [eauto|]. injection E as <- <-. destruct (H f n x eq_refl eq_refl).
    - intros (f & n & x & E). exists f, n, x. apply in_snoc. auto.
  Qed.
  (** calls that only touch settings *)
  Lemma inv_same l c r s : api_inv l s -> budget_of c = None \/ budget_of c = Some (a_N s) -> name_of c = None \/ name_of c = Some (a_name s) ->
     dim_of c = None \/ dim_of c = Some (a_dim s) -> samples_of c = None \/ samples_of c = Some (a_ns s) -> constraint_of c = [] ->
     (forall lb ub, c = CBox lb ub -> r <> Ok tt) -> (forall d, c = CDimension d -> r <> Ok tt) -> (forall f n x, c = CObjective f n x -> r <> Ok tt) -> api_inv (l ++ [(c, r)]) s.
  Proof.
    intros H HB HN HD HS HC H1 H2 H3. destruct H. constructor; rewrite ?last_of_snoc, ?constraints_snoc, ?HC, ?app_nil_r, ?(box_snoc l c r H1), ?(dim_snoc l c r H2), ?(obj_snoc l c r H3); auto.
    - destruct HB as [-> | ->]; auto. split; tauto.
    - destruct HN as [-> | ->]; auto. split; tauto.
    - destruct HD as [-> | ->]; auto.
    - destruct HS as [-> | ->]; auto.
  Qed.
  Lemma inv_new fs : api_inv [] (api_new (T := T) fs).
  Proof.
    constructor; cbn; try solve [auto | lia | discriminate | split; [reflexivity|cbn; lia]].
    - intros [|i] c X; discriminate X.
    - split; [discriminate|]. intros (f & n & x & []).
    - split; [discriminate|]. intros X. destruct (X eq_refl).
    - split; [discriminate|]. intros (f & n & []).
    - split; [discriminate|]. intros (f & []).
  Qed.
  Lemma inv_name l n s s' r : api_inv l s -> api_setName n s = (s', r) -> api_inv (l ++ [(CName n, r)]) s'.
  Proof.
    intros H E. unfold api_setName, sbind, sthrow_if, smod in E. destruct n as [|x n]; cbn in E; injection E as <- <-.
    - apply inv_same; cbn; auto; discriminate.
    - destruct H. constructor; rewrite ?last_of_snoc, ?constraints_snoc, ?app_nil_r, ?(box_snoc l), ?(dim_snoc l), ?(obj_snoc l) by discriminate; cbn [constraint_of]; rewrite ?app_nil_r; auto.
  Qed.
  Lemma inv_max l n s s' r : api_inv l s -> api_setMax n s = (s', r) -> api_inv (l ++ [(CMax n, r)]) s'.
  Proof.
    intros H E. unfold api_setMax, smod in E. injection E as <- <-.
    destruct H. constructor; rewrite ?last_of_snoc, ?constraints_snoc, ?app_nil_r, ?(box_snoc l), ?(dim_snoc l), ?(obj_snoc l) by discriminate; cbn [constraint_of]; rewrite ?app_nil_r; auto.
  Qed.
  Lemma inv_doe l n s s' r : api_inv l s -> api_setDoE n s = (s', r) -> api_inv (l ++ [(CDoE n, r)]) s'.
  Proof.
    intros H E. unfold api_setDoE, smod in E. injection E as <- <-.
    destruct H. constructor; rewrite ?last_of_snoc, ?constraints_snoc, ?app_nil_r, ?(box_snoc l), ?(dim_snoc l), ?(obj_snoc l) by discriminate; cbn [constraint_of]; rewrite ?app_nil_r; auto.
  Qed.
  Lemma inv_cwd l i d s s' r : api_inv l s -> api_setCwd i d s = (s', r) -> api_inv (l ++ [(CCwd i d, r)]) s'.
  Proof.
    intros H E. unfold api_setCwd, sbind, sthrow_if, smod in E. destruct (_ || _)%bool; cbn in E; injection E as <- <-.
    - apply inv_same; cbn; auto; discriminate.
    - destruct H. constructor; rewrite ?last_of_snoc, ?constraints_snoc, ?app_nil_r, ?(box_snoc l), ?(dim_snoc l), ?(obj_snoc l) by discriminate; cbn [constraint_of]; rewrite ?app_nil_r; auto.
  Qed.
  Lemma str_eqb_eq' a b : str_eqb a b = true -> a = b.
  Proof. apply str_eqb_eq. Qed.
  Lemma inv_strategy l t s s' r : api_inv l s -> api_setStrategy t s = (s', r) -> api_inv (l ++ [(CStrategy t, r)]) s'.
  Proof.
    intros H E. unfold api_setStrategy, sbind, sthrow_if, smod, slift in E. destruct (is_empty t). { cbn in E; injection E as <- <-. apply inv_same; cbn; auto; discriminate. }
    cbn [sret] in E. destruct (toLower t) as [x|e|]. 2,3: (injection E as <- <-; apply inv_same; cbn; auto; discriminate).
    destruct (negb _) eqn:N; cbn [sthrow sret] in E; injection E as <- <-.
    - apply inv_same; cbn; auto; discriminate.
    - apply negb_false_iff, orb_prop in N.
      destruct H. constructor; rewrite ?last_of_snoc, ?constraints_snoc, ?app_nil_r, ?(box_snoc l), ?(dim_snoc l), ?(obj_snoc l) by discriminate; cbn [constraint_of]; rewrite ?app_nil_r; auto.
      cbn [a_type w_a_type]. destruct N as [N|N]; apply str_eqb_eq' in N; auto.
  Qed.
  Lemma inv_training l f s s' r : api_inv l s -> api_setTrainingFile f s = (s', r) -> api_inv (l ++ [(CTrainingFile f, r)]) s'.
  Proof.
    intros H E. unfold api_setTrainingFile, sbind, sthrow_if, smod in E. destruct (is_empty f); cbn in E; injection E as <- <-.
    - apply inv_same; cbn; auto; discriminate.
    - destruct H. constructor; rewrite ?last_of_snoc, ?constraints_snoc, ?app_nil_r, ?(box_snoc l), ?(dim_snoc l), ?(obj_snoc l) by discriminate; cbn [constraint_of]; rewrite ?app_nil_r; auto.
  Qed.
  Lemma setDimension_cases d s s' r : api_setDimension d s = (s', r) -> exists o', opt_setDimension d (a_opt s) = (o', r) /\
     (r = Ok tt /\ s' = w_a_dimset true (w_a_opt o' (w_a_dim d s)) \/ r <> Ok tt /\ s' = w_a_opt o' (w_a_dim d s)).
  Proof.
    intros E. unfold api_setDimension, sbind, smod, in_opt, szoom in E. cbn [a_opt w_a_dim] in E. destruct (opt_setDimension d (a_opt s)) as [o' [[]|e|]]; injection E as <- <-; exists o'; split; auto; right; split; auto; discriminate.
  Qed.
  Lemma inv_dimension l d s s' r : api_inv l s -> api_setDimension d s = (s', r) -> api_inv (l ++ [(CDimension d, r)]) s'.
  Proof.
    intros H E. apply setDimension_cases in E. destruct E as (o' & E & Hs). destruct (Nat.eq_dec d 0) as [->|Hd].
    - destruct (opt_setDimension_zero (a_opt s)) as (o1 & E1 & A1 & A2 & A3 & A4 & A5 & A6 & A7 & A8). assert (o' = o1 /\ r = Throw RuntimeError) as [-> ->] by (split; congruence).
      destruct Hs as [[? ?]|[_ ->]]; [discriminate|]. destruct H.
      constructor; rewrite ?last_of_snoc, ?constraints_snoc, ?app_nil_r, ?(box_snoc l), ?(dim_snoc l), ?(obj_snoc l) by discriminate; cbn [constraint_of]; rewrite ?app_nil_r;
        cbn [a_opt w_a_opt w_a_dim a_dim a_nc a_cptrs a_cfiles a_objset a_boxset a_dimset a_N a_name a_ns a_type a_lo a_up a_ptr]; rewrite ?A1, ?A2, ?A3, ?A4, ?A5, ?A6, ?A7; auto. congruence.
    - destruct (opt_setDimension_ok d (a_opt s) Hd) as (o1 & E1 & A1 & A0 & A2 & A3 & A4 & A5 & A6 & A7 & _). assert (o' = o1 /\ r = Ok tt) as [-> ->] by (split; congruence).
      destruct Hs as [[_ ->]|[? _]]; [|congruence]. destruct H.
      constructor; rewrite ?last_of_snoc, ?constraints_snoc, ?app_nil_r, ?(box_snoc l), ?(obj_snoc l) by discriminate; cbn [constraint_of]; rewrite ?app_nil_r;
        cbn [a_opt w_a_opt w_a_dim a_dim a_nc a_cptrs a_cfiles a_objset a_boxset a_dimset w_a_dimset a_N a_name a_ns a_type a_lo a_up a_ptr]; rewrite ?A1, ?A2, ?A3, ?A4, ?A5, ?A6, ?A7; auto.
      split; auto. intros _. exists d. apply in_snoc. auto.
  Qed.
  Lemma setObjective_cases f n file s s' r : api_setObjective f n file s = (s', r) ->
    (s' = s /\ r = Throw InvalidArgument /\ (f = None \/ n = [] \/ file = [])) \/
    (exists g, f = Some g /\ n <> [] /\ file <> [] /\ p_obj (a_opt s) = None /\ r = Ok tt /\
       s' = w_a_objset true (w_a_opt (w_p_obj (Some (mkF (a_dim s) n file g None)) (a_opt s)) (w_a_file file (w_a_ptr (Some g) s)))) \/
    (p_obj (a_opt s) <> None /\ r = Throw AssertFail).
  Proof.
    unfold api_setObjective. intros E. unfold sbind at 1, sthrow_if at 1 in E. destruct file as [|c file]. { injection E as <- <-. auto 6. }
    cbn [is_empty sret] in E. unfold sbind at 1, sthrow_if at 1 in E. destruct n as [|x n]. { injection E as <- <-. auto 6. }
    cbn [is_empty sret] in E. destruct f as [g|]. 2:{ injection E as <- <-. auto 6. }
    right. unfold sbind, smod, sget, in_opt, szoom, opt_addObjective, sbind, sget, sassert in E. cbn [a_opt w_a_file w_a_ptr] in E.
    destruct (p_obj (a_opt s)) as [f0|] eqn:F; cbn in E; injection E as <- <-.
    - right. split; congruence.
    - left. exists g. repeat split; auto; discriminate.
  Qed.
  Lemma inv_objective l f n file s s' r : api_inv l s -> api_setObjective f n file s = (s', r) -> goes_on r = true -> api_inv (l ++ [(CObjective f n file, r)]) s'.
  Proof.
    intros H E G. apply setObjective_cases in E. destruct E as [(-> & -> & _)|[(g & -> & Hn & Hf & P & -> & ->)|(_ & ->)]].
    - apply inv_same; cbn; auto; discriminate.
    - destruct H. constructor; rewrite ?last_of_snoc, ?constraints_snoc, ?app_nil_r, ?(box_snoc l), ?(dim_snoc l) by discriminate; cbn [constraint_of]; rewrite ?app_nil_r; auto.
      + cbn. split; auto. intros _. exists (Some g), n, file. apply in_snoc. auto.
      + cbn. split; auto. intros _. discriminate.
      + cbn. intros _. eexists _, _. repeat split.
    - discriminate.
  Qed.
  Lemma inv_constraint l f e file s s' r : api_inv l s -> api_addConstraint f e file s = (s', r) -> api_inv (l ++ [(CConstraint f e file, r)]) s'.
  Proof.
    intros H E. apply addConstraint_cases in E. destruct E as [(-> & -> & C)|(g & p & o' & -> & C & O & ->)].
    - apply inv_same; auto; discriminate.
    - destruct (opt_addConstraint_ok (mkC (a_nc s) (e_gt p) (e_value p) (mkF (a_dim s) (e_name p) file g None)) (a_opt s)) as (o1 & r1 & O1 & _ & A1 & A2 & A3 & _ & _ & A4 & A5 & A6 & A7 & A8 & _).
      assert (o' = o1) by congruence. subst o'. destruct H.
      constructor; rewrite ?last_of_snoc, ?constraints_snoc, ?C, ?(box_snoc l), ?(dim_snoc l), ?(obj_snoc l) by discriminate;
        cbn [budget_of name_of dim_of samples_of a_opt w_a_opt w_a_nc w_a_cfiles w_a_cptrs a_dim a_nc a_cptrs a_cfiles a_objset a_boxset a_dimset a_N a_name a_ns a_type a_lo a_up a_ptr];
        rewrite ?A1, ?A2, ?A3, ?A4, ?A5, ?A6, ?A7, ?A8, ?app_length, ?map_app; cbn [length map]; auto; try lia; try congruence.
      + intros i c X. destruct (Nat.ltb_spec i (length (p_cons (a_opt s)))) as [L|L].
        * rewrite nth_error_app1 in X by exact L. apply con_matches_more. auto.
        * rewrite nth_error_app2 in X by exact L. destruct (i - length (p_cons (a_opt s))) as [|k] eqn:K; cbn in X; [|destruct k; discriminate]. injection X as <-.
          assert (i = length (constraints_in l)) as -> by lia. exists g, p, file. cbn. rewrite nth_error_app2, Nat.sub_diag by lia. repeat split; auto.
      + rewrite i_ptrs0. reflexivity.
      + rewrite i_files0. reflexivity.
  Qed.
  Lemma inv_box l lb ub s s' r : api_inv l s -> api_setBox lb ub s = (s', r) -> api_inv (l ++ [(CBox lb ub, r)]) s'.
  Proof.
    intros H E. apply (setBox_cases lb ub s s' r (i_pairs _ _ H)) in E.
    destruct E as [(_ & -> & ->)|[(_ & _ & -> & ->)|[(L & U & k & Hk & G & _ & -> & ->)|(D & L & U & G & o' & O & Hs)]]].
    - apply inv_same; cbn; auto; discriminate.
    - apply inv_same; cbn; auto; discriminate.
    - apply inv_same; cbn; auto; try discriminate. pose proof (pushes_pairs lb ub k s ltac:(lia) ltac:(lia) (i_pairs _ _ H) G) as P. destruct H. constructor; auto.
    - pose proof (pushes_pairs lb ub _ s L U (i_pairs _ _ H) G) as P.
      destruct (opt_setBox_frame _ _ _ _ O) as (A1 & A2 & A3 & A4 & A5 & A6 & A7 & A8 & _ & _ & _ & _ & _ & _ & _ & _ & _ & _ & _ & B1 & B2 & _).
      assert (forall f, p_obj (a_opt s) = Some f -> exists f', p_obj o' = Some f' /\ f_fun f' = f_fun f) as F.
      { intros f Hf. unfold obj_defs in A7. rewrite Hf in A7. destruct (p_obj o') as [f'|]; cbn in A7; [|discriminate]. exists f'. split; auto. congruence. }
      assert (p_obj (a_opt s) <> None <-> p_obj o' <> None) as FN. { unfold obj_defs in A7. destruct (p_obj (a_opt s)), (p_obj o'); cbn in A7; try discriminate; split; congruence. }
      destruct Hs as [[-> ->]|[Hr ->]].
      + destruct (B1 eq_refl) as (B & _). destruct H. constructor; rewrite ?last_of_snoc, ?constraints_snoc, ?(dim_snoc l), ?(obj_snoc l) by discriminate; cbn [constraint_of]; rewrite ?app_nil_r;
          cbn [budget_of name_of dim_of samples_of a_opt w_a_opt w_a_boxset w_a_lo w_a_up a_dim a_nc a_cptrs a_cfiles a_objset a_boxset a_dimset a_N a_name a_ns a_type a_lo a_up a_ptr pushes];
          rewrite ?A1, ?A2, ?A3, ?A4, ?A8, ?(same_defs_length _ _ A6), ?B; auto.
        * intros i c X. eapply same_defs_con; eauto.
        * unfold pushes. cbn. tauto.
        * intros X. destruct (i_ptr0 X) as (f & g & X1 & X2 & X3). destruct (F _ X1) as (f' & X4 & X5). exists f', g. split; auto. split; auto. congruence.
        * split; auto. intros _. exists lb, ub. apply in_snoc. auto.
      + destruct (B2 Hr) as (B & _). destruct H. constructor; rewrite ?last_of_snoc, ?constraints_snoc, ?(dim_snoc l), ?(obj_snoc l), ?(box_snoc l) by (congruence || discriminate); cbn [constraint_of]; rewrite ?app_nil_r;
          cbn [budget_of name_of dim_of samples_of a_opt w_a_opt w_a_boxset w_a_lo w_a_up a_dim a_nc a_cptrs a_cfiles a_objset a_boxset a_dimset a_N a_name a_ns a_type a_lo a_up a_ptr pushes];
          rewrite ?A1, ?A2, ?A3, ?A4, ?A8, ?(same_defs_length _ _ A6), ?B; auto.
        * intros i c X. eapply same_defs_con; eauto.
        * unfold pushes. cbn. tauto.
        * intros X. destruct (i_ptr0 X) as (f & g & X1 & X2 & X3). destruct (F _ X1) as (f' & X4 & X5). exists f', g. split; auto. split; auto. congruence.
  Qed.
  Theorem calls_inv fs l s : calls (api_new (T := T) fs) l s -> api_inv l s.
  Proof.
    remember (api_new fs) as s0 eqn:E0. induction 1 as [s|s l s1 c s2 r H IH E G]; subst.
    - apply inv_new.
    - specialize (IH eq_refl). destruct c; cbn [api_call] in E.
      + eapply inv_name; eauto. + eapply inv_cwd; eauto. + eapply inv_strategy; eauto. + eapply inv_dimension; eauto. + eapply inv_box; eauto.
      + eapply inv_training; eauto. + eapply inv_objective; eauto. + eapply inv_constraint; eauto. + eapply inv_doe; eauto. + eapply inv_max; eauto.
  Qed.
End ApiProofs.
