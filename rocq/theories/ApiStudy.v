(** Histories of calls in the usual order: the state of the optimiser they lead to. *)
From Coq Require Import Ascii String ZArith Bool Arith List Lia.
From Verif Require Import Base StM Num VecModel MatModel MatSpec BoundsModel DesignModel HistModel KrigModel OptModel StrModel StrSpec StrReal ApiModel ApiSpec ApiText ApiProofs ApiDoE.
Import ListNotations.

Section ApiStudy.
  Context {T : Type} {NT : Num T}.
  Implicit Types s : api T.
  Lemma calls_app s a b s' : calls (T := T) s (a ++ b) s' <-> exists s1, calls s a s1 /\ calls s1 b s'.
  Proof.
    split.
    - revert s'. induction b as [|x b IH] using rev_ind; intros s' H.
      + rewrite app_nil_r in H. exists s'. split; auto. constructor.
      + rewrite app_assoc in H. remember ((a ++ b) ++ [x]) as L eqn:E. destruct H as [s|s l0 s0 c s2 r H1 H2 H3]. { destruct (a ++ b); discriminate. }
        apply app_inj_tail in E. destruct E as [-> <-]. destruct (IH _ H1) as (s1 & A & B). exists s1. split; auto. econstructor; eauto.
    - intros (s1 & A & B). induction B as [|s1 l s2 c s3 r B IH H2 H3]. { rewrite app_nil_r. exact A. } rewrite app_assoc. econstructor; eauto.
  Qed.
  Lemma calls_one s c r s' : calls (T := T) s [(c, r)] s' <-> api_call c s = (s', r) /\ goes_on r = true.
  Proof.
    split.
    - intros H. remember [(c, r)] as L eqn:E. destruct H as [s|s l0 s0 c0 s2 r0 H1 H2 H3]; [discriminate|]. apply (app_inj_tail _ [] _ _) in E. destruct E as [-> E]. injection E as -> ->.
      remember (@nil (acall T * Res unit)) as L eqn:E1. destruct H1 as [s|s l1 s3 c1 s4 r1 H4 H5 H6]; auto. destruct l1; discriminate.
    - intros [H1 H2]. change [(c, r)] with ([] ++ [(c, r)]). econstructor; eauto. constructor.
  Qed.
  Lemma calls_cons s h l s' : calls (T := T) s (h :: l) s' <-> exists s1, api_call (fst h) s = (s1, snd h) /\ goes_on (snd h) = true /\ calls s1 l s'.
  Proof.
    change (h :: l) with ([h] ++ l). rewrite calls_app. destruct h as [c r]. cbn [fst snd]. split.
    - intros (s1 & A & B). apply calls_one in A. exists s1. tauto.
    - intros (s1 & A & B & C). exists s1. rewrite calls_one. auto.
  Qed.

  (** *** the file of the design of experiments *)
  Lemma doe_file_snoc l c r n f : doe_file (T := T) (l ++ [(c, r)]) n f =
    match c, r with
    | CTrainingFile (_ :: _), _ => last_of name_of l n
    | CObjective _ _ f', Ok _ => f'
    | _, _ => doe_file l n f
    end.
  Proof.
    revert n f. induction l as [|[c' r'] l IH]; intros n f.
    - destruct c as [[|]| | | | |[|]|?? [|]| | |], r; reflexivity.
    - cbn [app doe_file last_of]. destruct c' as [[|]| | | | |[|]|?? [|]| | |], r'; cbn [name_of]; apply IH.
  Qed.
  Lemma calls_file fs l s : calls (api_new (T := T) fs) l s -> a_file s = doe_file l (lit "OptimizationStudy") [] /\ a_files s = fs.
  Proof.
    remember (api_new fs) as s0 eqn:E0. induction 1 as [s|s l s1 c s2 r H IH E G]; subst; [split; reflexivity|]. pose proof (calls_inv fs l s1 H) as I. specialize (IH eq_refl). destruct IH as [IH IF]. rewrite doe_file_snoc.
    destruct c as [n|i d|t|d|lb ub|f|f n file|f e file|n|n]; cbn [api_call] in E.
    - unfold api_setName, sbind, sthrow_if, smod in E. destruct n; cbn in E; injection E as <- <-; auto.
    - unfold api_setCwd, sbind, sthrow_if, smod in E. destruct (_ || _)%bool; cbn in E; injection E as <- <-; auto.
    - unfold api_setStrategy, sbind, sthrow_if, smod, slift in E. destruct (is_empty t). { cbn in E; injection E as <- <-. auto. }
      cbn [sret] in E. destruct (toLower t); [|injection E as <- <-; auto|injection E as <- <-; auto]. destruct (negb _); cbn [sthrow sret] in E; injection E as <- <-; auto.
    - apply setDimension_cases in E. destruct E as (o' & _ & [[-> ->]|[_ ->]]); auto.
    - apply (setBox_cases _ _ _ _ _ (i_pairs _ _ I)) in E. destruct E as [(_ & -> & ->)|[(_ & _ & -> & ->)|[(_ & _ & k & _ & _ & _ & -> & ->)|(_ & _ & _ & _ & o' & _ & [[-> ->]|[_ ->]])]]]; auto.
    - unfold api_setTrainingFile, sbind, sthrow_if, smod in E. destruct f as [|x f]; cbn in E; injection E as <- <-. { auto. } cbn [a_file w_a_file a_files]. split; auto. apply (i_name _ _ I).
    - apply setObjective_cases in E. destruct E as [(-> & -> & _)|[(g & -> & _ & _ & _ & -> & ->)|(_ & ->)]]; auto. discriminate.
    - apply addConstraint_cases in E. destruct E as [(-> & -> & _)|(g & p & o' & -> & _ & _ & ->)]; auto.
    - unfold api_setDoE, smod in E. injection E as <- <-. auto.
    - unfold api_setMax, smod in E. injection E as <- <-. auto.
  Qed.
  Lemma last_cwd_snoc l c r x : last_cwd (T := T) (l ++ [(c, r)]) x = match c, r with CCwd _ d, Ok _ => d | _, _ => last_cwd l x end.
  Proof.
    revert x. induction l as [|[c' r'] l IH]; intros x. { destruct c, r; reflexivity. } cbn [app last_cwd]. destruct c', r'; apply IH.
  Qed.
  Lemma last_strategy_snoc l c r x : last_strategy (T := T) (l ++ [(c, r)]) x = match c, r with CStrategy t, Ok _ => map lower t | _, _ => last_strategy l x end.
  Proof.
    revert x. induction l as [|[c' r'] l IH]; intros x. { destruct c, r; reflexivity. } cbn [app last_strategy]. destruct c', r'; apply IH.
  Qed.
  Lemma calls_cwd fs l s : calls (api_new (T := T) fs) l s -> a_cwd s = last_cwd l [] /\ a_type s = last_strategy l (lit "random").
  Proof.
    remember (api_new fs) as s0 eqn:E0. induction 1 as [s|s l s1 c s2 r H IH E G]; subst; [split; reflexivity|]. pose proof (calls_inv fs l s1 H) as I. specialize (IH eq_refl). destruct IH as [IH IF]. rewrite last_cwd_snoc, last_strategy_snoc.
    destruct c as [n|i d|t|d|lb ub|f|f n file|f e file|n|n]; cbn [api_call] in E.
    - unfold api_setName, sbind, sthrow_if, smod in E. destruct n; cbn in E; injection E as <- <-; auto.
    - unfold api_setCwd, sbind, sthrow_if, smod in E. destruct (_ || _)%bool; cbn in E; injection E as <- <-; auto.
    - unfold api_setStrategy, sbind, sthrow_if, smod, slift in E. destruct (is_empty t). { cbn in E; injection E as <- <-. auto. }
      cbn [sret] in E. unfold toLower in E. destruct (existsb negative t); [injection E as <- <-; auto|]. destruct (negb _); cbn [sthrow sret] in E; injection E as <- <-; auto.
    - apply setDimension_cases in E. destruct E as (o' & _ & [[-> ->]|[_ ->]]); auto.
    - apply (setBox_cases _ _ _ _ _ (i_pairs _ _ I)) in E. destruct E as [(_ & -> & ->)|[(_ & _ & -> & ->)|[(_ & _ & k & _ & _ & _ & -> & ->)|(_ & _ & _ & _ & o' & _ & [[-> ->]|[_ ->]])]]]; auto.
    - unfold api_setTrainingFile, sbind, sthrow_if, smod in E. destruct f as [|x f]; cbn in E; injection E as <- <-; auto.
    - apply setObjective_cases in E. destruct E as [(-> & -> & _)|[(g & -> & _ & _ & _ & -> & ->)|(_ & ->)]]; auto. discriminate.
    - apply addConstraint_cases in E. destruct E as [(-> & -> & _)|(g & p & o' & -> & _ & _ & ->)]; auto.
    - unfold api_setDoE, smod in E. injection E as <- <-. auto.
    - unfold api_setMax, smod in E. injection E as <- <-. auto.
  Qed.
  (** the objective function in use *)
  Lemma calls_objective fs l s : calls (api_new (T := T) fs) l s -> forall f n file, In (CObjective f n file, Ok tt) l ->
    exists g o, f = Some g /\ p_obj (a_opt s) = Some o /\ f_fun o = g /\ f_name o = n /\ f_file o = file /\ a_ptr s = Some g.
  Proof.
    remember (api_new fs) as s0 eqn:E0. induction 1 as [s|s l s1 c s2 r H IH E G]; subst; intros f n file Hin; [destruct Hin|]. pose proof (calls_inv fs l s1 H) as I. specialize (IH eq_refl f n file).
    assert (In (CObjective f n file, Ok tt) l -> p_obj (a_opt s2) = p_obj (a_opt s1) -> a_ptr s2 = a_ptr s1 -> exists g o, f = Some g /\ p_obj (a_opt s2) = Some o /\ f_fun o = g /\ f_name o = n /\ f_file o = file /\ a_ptr s2 = Some g) as Keep.
    { intros A B C. destruct (IH A) as (g & o & X). exists g, o. now rewrite B, C. }
    apply in_snoc in Hin.
    destruct c as [m|i d|t|d|lb ub|ff|ff m fi|ff e fi|m|m]; cbn [api_call] in E; (destruct Hin as [Hin|Hin]; [|try discriminate Hin]).
    - apply Keep; auto; unfold api_setName, sbind, sthrow_if, smod in E; destruct m; cbn in E; injection E as <- <-; auto.
    - apply Keep; auto; unfold api_setCwd, sbind, sthrow_if, smod in E; destruct (_ || _)%bool; cbn in E; injection E as <- <-; auto.
    - assert (p_obj (a_opt s2) = p_obj (a_opt s1) /\ a_ptr s2 = a_ptr s1) as [K1 K2]; [|auto].
      unfold api_setStrategy, sbind, sthrow_if, smod, slift in E. destruct (is_empty t). { cbn in E; injection E as <- <-. auto. }
      cbn [sret] in E. destruct (toLower t); [|injection E as <- <-; auto|injection E as <- <-; auto]. destruct (negb _); cbn [sthrow sret] in E; injection E as <- <-; auto.
    - apply setDimension_cases in E. destruct E as (o' & O & Hs). assert (p_obj o' = p_obj (a_opt s1)) as K.
      { destruct (Nat.eq_dec d 0) as [->|Hd]. destruct (opt_setDimension_zero (a_opt s1)) as (o1 & E1 & A1 & A2 & A3 & A4 & _); congruence. destruct (opt_setDimension_ok d (a_opt s1) Hd) as (o1 & E1 & A1 & A0 & A2 & A3 & A4 & _); congruence. }
      destruct Hs as [[-> ->]|[_ ->]]; apply Keep; auto.
    - apply (setBox_cases _ _ _ _ _ (i_pairs _ _ I)) in E. destruct E as [(_ & -> & ->)|[(_ & _ & -> & ->)|[(_ & _ & k & _ & _ & _ & -> & ->)|(_ & _ & _ & _ & o' & O & Hs)]]]; auto.
      destruct (opt_setBox_frame _ _ _ _ O) as (_ & _ & _ & _ & _ & _ & A7 & _). destruct (IH Hin) as (g & o & -> & X1 & X2 & X3 & X4 & X5). unfold obj_defs in A7. rewrite X1 in A7. destruct (p_obj o') as [o1|] eqn:P; [|discriminate]. cbn in A7. injection A7 as B1 B2 B3 B4.
      exists g, o1. destruct Hs as [[-> ->]|[_ ->]]; cbn; repeat split; congruence.
    - apply Keep; auto; unfold api_setTrainingFile, sbind, sthrow_if, smod in E; destruct ff; cbn in E; injection E as <- <-; auto.
    - apply setObjective_cases in E. destruct E as [(-> & -> & _)|[(g & -> & _ & _ & P & -> & ->)|(_ & ->)]]; auto; [|discriminate].
      destruct (IH Hin) as (g' & o & _ & X & _). congruence.
    - injection Hin as <- <- <- <-. apply setObjective_cases in E. destruct E as [(_ & X & _)|[(g & -> & _ & _ & P & _ & ->)|(_ & X)]]; try discriminate X.
      eexists _, _. repeat split.
    - apply addConstraint_cases in E. destruct E as [(-> & -> & _)|(g & p & o' & -> & _ & O & ->)]; auto. destruct (opt_addConstraint_ok (mkC (a_nc s1) (e_gt p) (e_value p) (mkF (a_dim s1) (e_name p) fi g None)) (a_opt s1)) as (o1 & r1 & O1 & _ & A1 & A2 & A3 & _ & _ & A4 & _).
      apply Keep; auto. cbn. congruence.
    - apply Keep; auto; unfold api_setDoE, smod in E; injection E as <- <-; auto.
    - apply Keep; auto; unfold api_setMax, smod in E; injection E as <- <-; auto.
  Qed.
  Lemma calls_doe fs l s : calls (api_new (T := T) fs) l s -> (a_doe s = true <-> exists n r, In (CDoE n, r) l).
  Proof.
    remember (api_new fs) as s0 eqn:E0. induction 1 as [s|s l s1 c s2 r H IH E G]; subst. { split; [discriminate|]. intros (n & r & []). } pose proof (calls_inv fs l s1 H) as I. specialize (IH eq_refl).
    assert ((forall n, c <> CDoE n) -> a_doe s2 = a_doe s1 -> (a_doe s2 = true <-> exists n r0, In (CDoE n, r0) (l ++ [(c, r)]))) as Keep.
    { intros A B. rewrite B, IH. split; intros (n & r0 & X); exists n, r0. apply in_snoc; auto. apply in_snoc in X. destruct X as [X|X]; auto. injection X as X _. destruct (A n (eq_sym X)). }
    destruct c as [m|i d|t|d|lb ub|ff|ff m fi|ff e fi|m|m]; cbn [api_call] in E.
    - apply Keep. discriminate. unfold api_setName, sbind, sthrow_if, smod in E; destruct m; cbn in E; injection E as <- <-; auto.
    - apply Keep. discriminate. unfold api_setCwd, sbind, sthrow_if, smod in E; destruct (_ || _)%bool; cbn in E; injection E as <- <-; auto.
    - apply Keep. discriminate. unfold api_setStrategy, sbind, sthrow_if, smod, slift in E. destruct (is_empty t). { cbn in E; injection E as <- <-. auto. }
      cbn [sret] in E. destruct (toLower t); [|injection E as <- <-; auto|injection E as <- <-; auto]. destruct (negb _); cbn [sthrow sret] in E; injection E as <- <-; auto.
    - apply Keep. discriminate. apply setDimension_cases in E. destruct E as (o' & O & [[-> ->]|[_ ->]]); auto.
    - apply Keep. discriminate. apply (setBox_cases _ _ _ _ _ (i_pairs _ _ I)) in E. destruct E as [(_ & -> & ->)|[(_ & _ & -> & ->)|[(_ & _ & k & _ & _ & _ & -> & ->)|(_ & _ & _ & _ & o' & O & [[-> ->]|[_ ->]])]]]; auto.
    - apply Keep. discriminate. unfold api_setTrainingFile, sbind, sthrow_if, smod in E; destruct ff; cbn in E; injection E as <- <-; auto.
    - apply Keep. discriminate. apply setObjective_cases in E. destruct E as [(-> & -> & _)|[(g & -> & _ & _ & P & -> & ->)|(_ & ->)]]; auto. discriminate.
    - apply Keep. discriminate. apply addConstraint_cases in E. destruct E as [(-> & -> & _)|(g & p & o' & -> & _ & O & ->)]; auto.
    - unfold api_setDoE, smod in E; injection E as <- <-. cbn. split; auto. intros _. exists m, (Ok tt). apply in_snoc. auto.
    - apply Keep. discriminate. unfold api_setMax, smod in E; injection E as <- <-; auto.
  Qed.

  (** *** the optimiser after the calls *)
  Definition fresh (o : popt T) (d : nat) : Prop :=
    p_dim o = d /\ p_inner o = d * (100 * 100) /\ godim o = d /\ ds_nc (go_d (s_gopt (p_st o))) = p_nc o /\ ds_dim (s_cur (p_st o)) = d /\ h_cn (s_hist (p_st o)) = 0 /\
    s_trLen (p_st o) = s_trLen (ost_new (T := T)) /\ s_iter (p_st o) = 0 /\ s_evals (p_st o) = 0 /\ s_pts (p_st o) = [] /\ s_succ (p_st o) = 0 /\ s_fail (p_st o) = 0.
  Definition phase (strict : bool) (d : nat) (b : option (bnds T)) s : Prop :=
    a_dim s = d /\ fresh (a_opt s) d /\ (forall f, p_obj (a_opt s) = Some f -> f_dim f = d /\ f_box f = b) /\ (forall c, In c (p_cons (a_opt s)) -> f_dim (k_f c) = d /\ (strict = true -> f_box (k_f c) = b)) /\
    match b with
    | None => a_lo s = [] /\ a_up s = []
    | Some b => a_lo s = b_lo b /\ a_up s = b_up b /\ p_lo (a_opt s) = b_lo b /\ p_up (a_opt s) = b_up b /\ go_box (s_gopt (p_st (a_opt s))) = b /\ p_obj (a_opt s) <> None
    end.
  Lemma phase_frame q d b s s' : phase q d b s -> a_dim s' = a_dim s -> a_lo s' = a_lo s -> a_up s' = a_up s ->
    p_dim (a_opt s') = p_dim (a_opt s) -> p_inner (a_opt s') = p_inner (a_opt s) -> p_nc (a_opt s') = p_nc (a_opt s) -> p_st (a_opt s') = p_st (a_opt s) -> p_obj (a_opt s') = p_obj (a_opt s) -> p_cons (a_opt s') = p_cons (a_opt s) -> 
    p_lo (a_opt s') = p_lo (a_opt s) -> p_up (a_opt s') = p_up (a_opt s) -> phase q d b s'.
  Proof.
    intros (P1 & P2 & P3 & P4 & P5) E1 E2 E3 E4 E5 E6 E7 E8 E9 E10 E11. unfold phase. rewrite E1, E2, E3, E8, E9, E10, E11, E7. split; auto.
    split. { unfold fresh, godim in *. rewrite E4, E5, E6, E7. exact P2. } split; auto.
  Qed.
  Lemma phase_plain fs l s q d b c r s' : calls (api_new (T := T) fs) l s -> phase q d b s -> d <> 0 -> plain c -> (q = true -> b <> None -> constraint_of c = []) -> api_call c s = (s', r) -> goes_on r = true -> phase q d b s'.
  Proof.
    intros H P Hd Hp Hc E G. pose proof (calls_inv fs l s H) as I. destruct c as [m|i x|t|x|lb ub|ff|ff m fi|ff e fi|m|m]; cbn [api_call] in E; try destruct Hp.
    - unfold api_setName, sbind, sthrow_if, smod in E; destruct m; cbn in E; injection E as <- <-; auto; eapply phase_frame; eauto.
    - unfold api_setCwd, sbind, sthrow_if, smod in E; destruct (_ || _)%bool; cbn in E; injection E as <- <-; auto; eapply phase_frame; eauto.
    - unfold api_setStrategy, sbind, sthrow_if, smod, slift in E. destruct (is_empty t). { cbn in E; injection E as <- <-. auto. }
      cbn [sret] in E. destruct (toLower t); [|injection E as <- <-; auto|injection E as <- <-; auto]. destruct (negb _); cbn [sthrow sret] in E; injection E as <- <-; auto; eapply phase_frame; eauto.
    - unfold api_setTrainingFile, sbind, sthrow_if, smod in E; destruct ff; cbn in E; injection E as <- <-; auto; eapply phase_frame; eauto.
    - apply setObjective_cases in E. destruct E as [(-> & -> & _)|[(g & -> & _ & _ & Q & -> & ->)|(_ & ->)]]; auto. 2:discriminate.
      destruct P as (P1 & P2 & P3 & P4 & P5). split; auto. split; auto. destruct b as [b|]. { destruct P5 as (_ & _ & _ & _ & _ & X). congruence. }
      split. { cbn. intros f F. injection F as <-. cbn. auto. } split; auto.
    - apply addConstraint_cases in E. destruct E as [(-> & -> & _)|(g & p & o' & -> & C & O & ->)]; auto. assert (q = true -> b = None) as Hq. { intros Q. destruct b; auto. rewrite Hc in C by (auto; discriminate). discriminate. }
      destruct (opt_addConstraint_ok (mkC (a_nc s) (e_gt p) (e_value p) (mkF (a_dim s) (e_name p) fi g None)) (a_opt s)) as (o1 & r1 & O1 & R & A1 & A2 & A3 & A4 & A5 & A6 & A7 & A8 & A9 & A10 & A11 & A12 & A13 & A14 & A15 & A16 & A17 & A18 & A19).
      assert (o' = o1 /\ r = r1) as [-> ->] by (split; congruence). destruct P as (P1 & (F1 & F2 & F3 & F4 & F5 & F6 & F7 & F8 & F9 & F10 & F11 & F12) & P3 & P4 & P5).
      split; auto. cbn [a_opt w_a_opt w_a_nc w_a_cfiles w_a_cptrs a_lo a_up].
      assert (p_inner o1 = p_inner (a_opt s)) as Ein. { clear -O1. unfold opt_addConstraint, sbind, smod, sget, in_st, on_god, in_gopt, szoom, design_setNumberOfConstraints in O1. cbn [p_st w_p_nc w_p_cons p_nc] in O1. destruct (Nat.eqb _ _) in O1; injection O1 as <- _; reflexivity. }
      split. { unfold fresh. rewrite A3, A10, A12, A13, A14, A15, A16, A17, A18, A19, A2, Ein. destruct R as [(_ & _ & ->)|(_ & R)]; [repeat (split; auto)|congruence]. }
      rewrite A6, A1. split; auto. split. { intros c Hin. apply in_snoc in Hin. destruct Hin as [Hin| ->]; auto. cbn. split; auto. intros Q. rewrite Hq; auto. } destruct b as [b|]; auto.
      rewrite A4, A5, A11. exact P5.
    - unfold api_setDoE, smod in E; injection E as <- <-; auto; eapply phase_frame; eauto.
    - unfold api_setMax, smod in E; injection E as <- <-; auto; eapply phase_frame; eauto.
  Qed.
  Lemma phase_plains fs l s q d b l' s' : calls (api_new (T := T) fs) l s -> phase q d b s -> d <> 0 -> Forall (fun h => plain (fst h)) l' -> (q = true -> b <> None -> constraints_in l' = []) -> calls s l' s' -> phase q d b s'.
  Proof.
    intros H P Hd Hp Hc C. revert H P Hp Hc. induction C as [s|s l' s1 c s2 r C IH E G]; intros H P Hp Hc; auto.
    apply Forall_app in Hp. destruct Hp as [Hp1 Hp2]. inversion Hp2; subst. assert (q = true -> b <> None -> constraints_in l' = [] /\ constraint_of c = []) as Hc'. { intros Q B. specialize (Hc Q B). rewrite constraints_snoc in Hc. apply app_eq_nil in Hc. exact Hc. }
    eapply (phase_plain fs (l ++ l') s1 q d b c r s2); auto. { apply calls_app. eauto. } { apply IH; auto. intros Q B. apply (Hc' Q B). } intros Q B. apply (Hc' Q B).
  Qed.
  Lemma late_appended fs l s l' s' : calls (api_new (T := T) fs) l s -> Forall (fun h => plain (fst h)) l' -> calls s l' s' ->
    (exists c, In c (p_cons (a_opt s)) /\ f_box (k_f c) = None) \/ constraints_in l' <> [] -> exists c, In c (p_cons (a_opt s')) /\ f_box (k_f c) = None.
  Proof.
    intros H Hp C. revert H Hp. induction C as [s|s l' s1 c s2 r C IH E G]; intros H Hp X. { destruct X as [X|X]; auto. destruct (X eq_refl). }
    apply Forall_app in Hp. destruct Hp as [Hp1 Hp2]. inversion Hp2 as [|? ? Hp3 _]; subst. specialize (IH H Hp1). cbn [fst] in Hp3. pose proof (proj2 (calls_app _ _ _ _) (ex_intro _ s (conj H C))) as HC.
    rewrite constraints_snoc in X.
    assert ((exists c0, In c0 (p_cons (a_opt s1)) /\ f_box (k_f c0) = None) \/ constraint_of c <> []) as X'.
    { destruct X as [X|X]; auto. destruct (constraints_in l') eqn:K; auto. left. apply IH. right. discriminate. }
    clear X IH. destruct c as [m|i x|t|x|lb ub|ff|ff m fi|ff e fi|m|m]; cbn [api_call] in E; try destruct Hp3.
    6:{ apply addConstraint_cases in E. destruct E as [(-> & _ & Q)|(g & p & o' & -> & _ & O & ->)]. { destruct X' as [X'|X']; auto. destruct (X' Q). }
        destruct (opt_addConstraint_ok (mkC (a_nc s1) (e_gt p) (e_value p) (mkF (a_dim s1) (e_name p) fi g None)) (a_opt s1)) as (o1 & r1 & O1 & _ & A1 & _). assert (o' = o1) by congruence. subst o'. cbn [a_opt w_a_opt]. rewrite A1.
        eexists. split. { apply in_snoc. right. reflexivity. } reflexivity. }
    all: destruct X' as [X'|X']; [|destruct (X' eq_refl)].
    all: assert (p_cons (a_opt s2) = p_cons (a_opt s1)) as ->; auto.
    - unfold api_setName, sbind, sthrow_if, smod in E; destruct m; cbn in E; injection E as <- <-; reflexivity.
    - unfold api_setCwd, sbind, sthrow_if, smod in E; destruct (_ || _)%bool; cbn in E; injection E as <- <-; reflexivity.
    - unfold api_setStrategy, sbind, sthrow_if, smod, slift in E. destruct (is_empty t). { cbn in E; injection E as <- <-. auto. }
      cbn [sret] in E. destruct (toLower t); [|injection E as <- <-; auto|injection E as <- <-; auto]. destruct (negb _); cbn [sthrow sret] in E; injection E as <- <-; reflexivity.
    - unfold api_setTrainingFile, sbind, sthrow_if, smod in E; destruct ff; cbn in E; injection E as <- <-; reflexivity.
    - apply setObjective_cases in E. destruct E as [(-> & -> & _)|[(g & -> & _ & _ & Q & -> & ->)|(_ & ->)]]; auto. discriminate.
    - unfold api_setDoE, smod in E; injection E as <- <-; reflexivity.
    - unfold api_setMax, smod in E; injection E as <- <-; reflexivity.
  Qed.
  Lemma first_phase q fs d l1 s2 : calls (api_new (T := T) fs) ((CDimension d, Ok tt) :: l1) s2 -> Forall (fun h => plain (fst h)) l1 -> d <> 0 /\ phase q d None s2.
  Proof.
    intros H H1. apply calls_cons in H. cbn [fst snd api_call] in H. destruct H as (s1 & E1 & _ & C1).
    pose proof E1 as E1'. apply setDimension_cases in E1. destruct E1 as (o1 & O1 & Hs1). assert (d <> 0) as Hd. { intros ->. destruct (opt_setDimension_zero (a_opt (api_new (T := T) fs))) as (o' & E & _). congruence. }
    destruct Hs1 as [[_ ->]|[X _]]; [|congruence]. set (s1 := w_a_dimset true (w_a_opt o1 (w_a_dim d (api_new fs)))) in *.
    assert (calls (api_new fs) [(CDimension d, Ok tt)] s1) as C0. { apply calls_one. split; auto. }
    assert (phase q d None s1) as P1.
    { destruct (opt_setDimension_ok d (a_opt (api_new fs)) Hd) as (o' & E & A1 & A2 & A3 & A4 & A5 & A6 & A7 & A8 & A9 & A10 & A11 & A12 & A13 & A14 & A15 & A16 & A17 & A18). assert (o' = o1) by congruence. subst o'.
      split; [reflexivity|]. cbn [a_opt s1 w_a_dimset w_a_opt a_lo a_up]. split. { unfold fresh. rewrite A1, A2, A4, A9, A10, A12, A13, A14, A15, A16, A17, A18.
        assert (p_inner o1 = d * (100 * 100)) as Ein. { clear -O1 Hd. unfold opt_setDimension in O1. destruct (Nat.eqb_spec d 0) as [|Hn]; [congruence|]. unfold sbind, smod, in_st, on_god, in_gopt, in_hist, szoom, hist_setDimension, smod in O1. cbn [sthrow_if sret] in O1. unfold sret in O1.
          assert (forall x, design_setDimension (T := T) d x = (fst (design_setDimension d x), Ok tt)) as E. { intros x. unfold design_setDimension. destruct (Nat.eqb_spec d 0); [congruence|reflexivity]. }
          rewrite E in O1. cbn [p_st w_p_st w_p_inner w_p_up w_p_lo w_p_dim s_cur set_gopt] in O1. rewrite E in O1. injection O1 as <-. reflexivity. }
        rewrite Ein. repeat (split; [reflexivity|]). reflexivity. }
      rewrite A5, A3. split; [discriminate|]. split; [intros c []|]. split; reflexivity. }
    split; auto. apply (phase_plains fs _ s1 q d None l1 s2 C0 P1 Hd H1 ltac:(congruence) C1).
  Qed.
  Theorem ordered_state q fs d lb ub l1 l2 l s : calls (api_new (T := T) fs) l s -> bounds_after d lb ub l1 l2 l -> (q = true -> constraints_in l2 = []) ->
    d <> 0 /\ d <= length lb /\ d <= length ub /\ (forall i, i < d -> good lb ub i) /\ phase q d (Some (box_of (firstn d lb) (firstn d ub))) s /\
    (constraints_in l2 <> [] -> exists c, In c (p_cons (a_opt s)) /\ f_box (k_f c) = None).
  Proof.
    intros H (-> & H1 & H2) H3. change ((CDimension d, Ok tt) :: l1 ++ (CBox lb ub, Ok tt) :: l2) with (((CDimension d, Ok tt) :: l1) ++ (CBox lb ub, Ok tt) :: l2) in H. apply calls_app in H. destruct H as (s2 & C12 & H). apply calls_cons in H. cbn [fst snd api_call] in H. destruct H as (s3 & E2 & _ & C2).
    destruct (first_phase q _ _ _ _ C12 H1) as [Hd P2].
    pose proof (calls_inv _ _ _ C12) as I2. pose proof P2 as (D2 & (F1 & F2 & F3 & F4 & F5 & F6 & F7 & F8 & F9 & F10 & F11 & F12) & Ob & Co & Lo & Up).
    pose proof E2 as E2'. apply (setBox_cases _ _ _ _ _ (i_pairs _ _ I2)) in E2. rewrite D2, Lo, Up in E2. cbn [app] in E2.
    destruct E2 as [(_ & _ & X)|[(_ & _ & _ & X)|[(_ & _ & k & _ & _ & _ & _ & X)|(_ & L & U & G & o' & O & [[_ ->]|[X _]])]]]; try discriminate X; [|congruence].
    destruct (opt_setBox_frame _ _ _ _ O) as (A1 & A2 & A3 & A4 & A5 & A6 & A7 & A8 & A9 & A10 & A11 & A12 & A13 & A14 & A15 & A16 & A17 & A18 & A19 & B1 & _).
    destruct (B1 eq_refl) as (B2 & B3 & B4 & B5 & B6 & B7 & B8). clear B1.
    split; auto. split; auto. split; auto. split; auto.
    set (s3 := w_a_boxset true (w_a_opt o' (pushes lb ub d s2))) in *.
    assert (phase q d (Some (box_of (firstn d lb) (firstn d ub))) s3) as P3.
    { split; [exact D2|]. cbn [a_opt s3 w_a_boxset w_a_opt]. split. { unfold fresh. rewrite A1, A2, A5, A8, A11, A12, A13, A14, A15, A16, A17, A18, A19. repeat (split; auto). }
      split. { intros f F. split; auto. unfold obj_defs in A7. rewrite F in A7. destruct (p_obj (a_opt s2)) as [f0|] eqn:F0; [|discriminate]. cbn in A7. destruct (Ob f0 eq_refl) as [Z _]. congruence. }
      split. { intros c Hin. destruct (Nat.eq_dec (p_nc (a_opt s2)) 0) as [Z|Z].
        - pose proof (same_defs_length _ _ A6) as SL. pose proof (i_pnc _ _ I2) as Q1. pose proof (i_cons _ _ I2) as Q2. destruct (p_cons o'); [destruct Hin|]. cbn in SL. lia.
        - split; auto. apply In_nth_error in Hin. destruct Hin as [i Hi]. unfold same_defs in A6.
          pose proof (map_nth_error (fun c => (k_id c, k_gt c, k_value c, f_dim (k_f c), f_name (k_f c), f_file (k_f c), f_fun (k_f c))) i (p_cons o') Hi) as Q. rewrite A6 in Q.
          destruct (nth_error (p_cons (a_opt s2)) i) as [c0|] eqn:E0.
          + rewrite (map_nth_error _ _ _ E0) in Q. injection Q as Q1 Q2 Q3 Q4 Q5 Q6 Q7. destruct (Co c0 (nth_error_In _ _ E0)) as [Z1 _]. congruence.
          + apply nth_error_None in E0. pose proof (proj2 (nth_error_None (map (fun c => (k_id c, k_gt c, k_value c, f_dim (k_f c), f_name (k_f c), f_file (k_f c), f_fun (k_f c))) (p_cons (a_opt s2))) i)) as N. rewrite map_length in N. rewrite (N E0) in Q. discriminate. }
      cbn [a_lo a_up s3 w_a_boxset w_a_opt pushes w_a_up w_a_lo]. rewrite Lo, Up. cbn [app]. repeat (split; auto). unfold obj_defs in A7. destruct (p_obj (a_opt s2)); [|congruence]. destruct (p_obj o'); discriminate. }
    assert (calls (api_new fs) (((CDimension d, Ok tt) :: l1) ++ [(CBox lb ub, Ok tt)]) s3) as C3. { apply calls_app. exists s2. split; auto. apply calls_one. split; auto. }
    split. { eapply (phase_plains fs _ s3 q d _ l2 s); eauto. } intros K. eapply late_appended; eauto.
  Qed.
  Theorem usual_state fs d lb ub l s : calls (api_new (T := T) fs) l s -> usual_order d lb ub l ->
    d <> 0 /\ d <= length lb /\ d <= length ub /\ (forall i, i < d -> good lb ub i) /\ phase true d (Some (box_of (firstn d lb) (firstn d ub))) s.
  Proof. intros H (l1 & l2 & B & K). destruct (ordered_state true _ _ _ _ _ _ _ _ H B (fun _ => K)) as (X1 & X2 & X3 & X4 & X5 & _). auto. Qed.
End ApiStudy.
