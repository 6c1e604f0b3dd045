(** C96-C97: the settings of the inner optimisers and the children of the evolutionary algorithm. *)
From Coq Require Import ZArith Bool Arith Reals Lra List Lia.
From Verif Require Import Base StM Num RealNum VecModel MatLemmas EaModel EaProofs EaRun EaReal GradModel SetModel SetSpec.
Import ListNotations.

Lemma latest_app {C A} (value : C -> option A) l l' : forall d, latest value d (l ++ l') = latest value (latest value d l) l'.
Proof. induction l as [|x l IH]; intros d; cbn [app latest]; auto. Qed.
Lemma Rltb_iff a b : Rltb a b = true <-> (a < b)%R.
Proof. unfold Rltb. destruct (Rlt_dec a b); split; auto; discriminate. Qed.
Lemma gt_below (lb ub : vec R) : length lb = length ub -> vec_gt ub lb = Ok true <-> below lb ub.
Proof.
  intros L. unfold vec_gt. rewrite <- L, Nat.eqb_refl. split.
  - intros H. assert (H' : forallb (fun i => negb (vget ub i <=! vget lb i)) (seq 0 (length lb)) = true) by congruence. split; [exact L|]. intros i Hi. rewrite forallb_forall in H'.
    specialize (H' i). rewrite in_seq in H'. specialize (H' ltac:(lia)). unfold vget in H'. cbn [nleb RNum n0] in H'. unfold Rleb in H'. destruct (Rle_dec (nth i ub 0%R) (nth i lb 0%R)); [discriminate|]. lra.
  - intros (_ & H). f_equal. apply forallb_forall. intros i I. apply in_seq in I. specialize (H i ltac:(lia)). unfold vget. cbn [nleb RNum n0]. unfold Rleb. destruct (Rle_dec (nth i ub 0%R) (nth i lb 0%R)); [lra|reflexivity].
Qed.
Lemma gt_total (lb ub : vec R) : length lb = length ub -> vec_gt ub lb = Ok true \/ vec_gt ub lb = Ok false.
Proof. intros L. unfold vec_gt. rewrite <- L, Nat.eqb_refl. destruct (forallb _ _); auto. Qed.

(** ** C96: the evolutionary optimiser *)
(** a call is accepted or refused with invalid_argument *)
Theorem C96_ea_accepts : forall (c : econf R) x, (ea_accepts (c_dim c) x -> exists c', ea_set c x = Ok c') /\ (~ ea_accepts (c_dim c) x -> ea_set c x = Throw InvalidArgument).
Proof.
  intros c x. destruct x as [d|lb ub|lb ub|lb ub|v|n|n|n|n|n|f]; cbn [ea_accepts ea_set]; try (split; [eauto|tauto]).
  - unfold ec_setBounds1. destruct (Nat.eqb_spec (c_dim c) 0); split; intros H; try lia; eauto; lia.
  - unfold ec_setBounds. split.
    + intros (L & B). pose proof (proj1 B) as L2. rewrite <- L2, Nat.eqb_refl, <- L, Nat.eqb_refl. cbn [negb]. apply gt_below in B; [|exact L2]. rewrite B. cbn [bind negb]. eauto.
    + intros H. destruct (Nat.eqb_spec (length lb) (length ub)) as [L|L]; cbn [negb]; [|reflexivity]. destruct (Nat.eqb_spec (length lb) (c_dim c)) as [L'|L']; cbn [negb]; [|reflexivity].
      destruct (gt_total lb ub L) as [E|E]; rewrite E; cbn [bind negb]; [|reflexivity]. apply gt_below in E; [|exact L]. tauto.
  - unfold ec_setBoundsStd. split.
    + intros (L & L2). rewrite L, L2, Nat.eqb_refl. cbn [negb]. eauto.
    + intros H. destruct (Nat.eqb_spec (length lb) (length ub)) as [L|L]; cbn [negb]; [|reflexivity]. destruct (Nat.eqb_spec (length lb) (c_dim c)) as [L'|L']; cbn [negb]; [|reflexivity]. destruct H. lia.
  - unfold ec_setMutation. cbn [nleb RNum n0 n1]. unfold Rleb. destruct (Rle_dec v 0%R), (Rle_dec 1%R v); cbn [orb]; split; intros H; try lra; eauto; try (destruct H; lra).
  - unfold ec_setMax. destruct (Nat.eqb_spec n 0); split; intros H; try lia; eauto; lia.
Qed.
Lemma ea_after_fields (x : ea_setter R) c : let c' := ea_after x c in let w {A} (o : option A) d := match o with Some v => v | None => d end in
  c_dim c' = w (ea_dimension x) (c_dim c) /\ c_size c' = w (ea_size x) (c_size c) /\ c_new c' = w (ea_births_per_generation x) (c_new c) /\ c_deaths c' = w (ea_deaths_per_generation x) (c_deaths c) /\
  c_gens c' = w (ea_generations x) (c_gens c) /\ c_max c' = w (ea_maximum x) (c_max c) /\ c_mutp c' = w (ea_mutation x) (c_mutp c) /\ c_f c' = w (ea_function x) (c_f c) /\
  ((exists b, ea_bounds_set (c_dim c) x b /\ c_bset c' = true /\ (c_lo c', c_up c') = b) \/ ((forall b, ~ ea_bounds_set (c_dim c) x b) /\ c_bset c' = c_bset c /\ c_lo c' = c_lo c /\ c_up c' = c_up c)).
Proof.
  cbv zeta. unfold ea_after. destruct (C96_ea_accepts c x) as [A N].
  destruct x as [d|lb ub|lb ub|lb ub|v|n|n|n|n|n|f]; cbn [ea_set ea_dimension ea_size ea_births_per_generation ea_deaths_per_generation ea_generations ea_maximum ea_mutation ea_function ea_bounds_set];
    try (cbn [c_dim c_size c_new c_deaths c_gens c_max c_mutp c_f c_bset c_lo c_up]; repeat (split; [reflexivity|]); right; repeat split; auto; fail).
  - unfold ec_setBounds1. destruct (Nat.eqb_spec (c_dim c) 0) as [Z|Z]; cbn [c_dim c_size c_new c_deaths c_gens c_max c_mutp c_f c_bset c_lo c_up]; repeat (split; [reflexivity|]).
    + right. repeat split; auto. intros b (P & _). lia.
    + left. eexists. split; [split; [lia|reflexivity]|]. auto.
  - cbn [ea_set] in A, N. unfold ec_setBounds in *. destruct (Nat.eqb (length lb) (length ub)) eqn:E1; cbn [negb] in *.
    2:{ repeat (split; [reflexivity|]). right. repeat split; auto. intros b (P & _). destruct (A P); discriminate. }
    destruct (Nat.eqb (length lb) (c_dim c)) eqn:E2; cbn [negb] in *.
    2:{ repeat (split; [reflexivity|]). right. repeat split; auto. intros b (P & _). destruct (A P); discriminate. }
    apply Nat.eqb_eq in E1, E2. destruct (gt_total lb ub E1) as [E|E]; rewrite E in *; cbn [bind negb] in *.
    + cbn [c_dim c_size c_new c_deaths c_gens c_max c_mutp c_f c_bset c_lo c_up]; repeat (split; [reflexivity|]). left. eexists. split; [split; [|reflexivity]|auto]. split; [exact E2|]. now apply gt_below.
    + repeat (split; [reflexivity|]). right. repeat split; auto. intros b (P & _). destruct (A P); discriminate.
  - cbn [ea_set] in A, N. unfold ec_setBoundsStd in *. destruct (Nat.eqb (length lb) (length ub)) eqn:E1; cbn [negb] in *.
    2:{ repeat (split; [reflexivity|]). right. repeat split; auto. intros b (P & _). destruct (A P); discriminate. }
    destruct (Nat.eqb (length lb) (c_dim c)) eqn:E2; cbn [negb] in *.
    2:{ repeat (split; [reflexivity|]). right. repeat split; auto. intros b (P & _). destruct (A P); discriminate. }
    apply Nat.eqb_eq in E1, E2. cbn [c_dim c_size c_new c_deaths c_gens c_max c_mutp c_f c_bset c_lo c_up]; repeat (split; [reflexivity|]). left. eexists. split; [split; [|reflexivity]|auto]. cbn [ea_accepts]. lia.
  - unfold ec_setMutation. cbn [nleb RNum n0 n1]. unfold Rleb, Rltb. destruct (Rle_dec v 0%R), (Rle_dec 1%R v), (Rlt_dec 0%R v), (Rlt_dec v 1%R); try lra; cbn [orb andb]; cbn [c_dim c_size c_new c_deaths c_gens c_max c_mutp c_f c_bset c_lo c_up]; repeat (split; [reflexivity|]); right; auto.
  - unfold ec_setMax. destruct (Nat.eqb_spec n 0), (Nat.ltb_spec 0 n); try lia; cbn [c_dim c_size c_new c_deaths c_gens c_max c_mutp c_f c_bset c_lo c_up]; repeat (split; [reflexivity|]); right; auto.
Qed.
Lemma ea_settings_app (l l' : list (ea_setter R)) : forall c, ea_settings (l ++ l') c = ea_settings l' (ea_settings l c).
Proof. induction l as [|x l IH]; intros c; cbn [app ea_settings]; auto. Qed.
(** every setting has the value of the last call that was accepted *)
Theorem C96_ea_settings : forall (calls : list (ea_setter R)) c, let c' := ea_settings calls c in
  c_dim c' = latest ea_dimension (c_dim c) calls /\ c_size c' = latest ea_size (c_size c) calls /\ c_new c' = latest ea_births_per_generation (c_new c) calls /\
  c_deaths c' = latest ea_deaths_per_generation (c_deaths c) calls /\ c_gens c' = latest ea_generations (c_gens c) calls /\ c_max c' = latest ea_maximum (c_max c) calls /\
  c_mutp c' = latest ea_mutation (c_mutp c) calls /\ c_f c' = latest ea_function (c_f c) calls.
Proof.
  cbv zeta. induction calls as [|x l IH]; intros c; cbn [ea_settings latest]; [repeat split|]. destruct (IH (ea_after x c)) as (A1 & A2 & A3 & A4 & A5 & A6 & A7 & A8).
  destruct (ea_after_fields x c) as (B1 & B2 & B3 & B4 & B5 & B6 & B7 & B8 & _). cbv zeta beta in *. rewrite A1, A2, A3, A4, A5, A6, A7, A8, B1, B2, B3, B4, B5, B6, B7, B8. repeat split.
Qed.
(** the bounds are those of the last accepted call that gives bounds, for the dimension at the time of that call *)
Theorem C96_ea_bounds : forall calls : list (ea_setter R), let c := ea_settings calls ec_new in
  (c_bset c = true <-> exists pre x post b, calls = pre ++ x :: post /\ ea_bounds_set (latest ea_dimension 0%nat pre) x b) /\
  (c_bset c = true -> exists pre x post, calls = pre ++ x :: post /\ ea_bounds_set (latest ea_dimension 0%nat pre) x (c_lo c, c_up c) /\
     forall mid y rest b, post = mid ++ y :: rest -> ~ ea_bounds_set (latest ea_dimension 0%nat (pre ++ x :: mid)) y b).
Proof.
  intros calls. cbv zeta. induction calls as [|x l IH] using rev_ind.
  - split; [|cbn; discriminate]. split; [cbn; discriminate|]. intros (pre & x & post & b & E & _). destruct pre; discriminate.
  - rewrite ea_settings_app. cbn [ea_settings]. set (c := ea_settings l ec_new) in *. destruct (C96_ea_settings l ec_new) as (D & _). fold c in D. cbn [ec_new c_dim] in D.
    destruct (ea_after_fields x c) as (_ & _ & _ & _ & _ & _ & _ & _ & [(b & B & S & E)|(N & S & L & U)]); rewrite D in *.
    + split; [split; [|intros _; exact S]|].
      * intros _. exists l, x, [], b. auto.
      * intros _. exists l, x, []. split; [reflexivity|]. split; [rewrite E; exact B|]. intros mid y rest b' F. destruct mid; discriminate.
    + rewrite S, L, U. destruct IH as [IH1 IH2]. split.
      * rewrite IH1. split.
        -- intros (pre & y & post & b & E & B). exists pre, y, (post ++ [x]), b. split; [|exact B]. now rewrite E, <- app_assoc.
        -- intros (pre & y & post & b & E & B). destruct post as [|z post] using rev_ind.
           ++ apply app_inj_tail in E. destruct E as [-> ->]. destruct (N b B).
           ++ clear IHpost. rewrite app_comm_cons, app_assoc in E. apply app_inj_tail in E. destruct E as [-> _]. eauto 6.
      * intros Q. destruct (IH2 Q) as (pre & y & post & E & B & M). exists pre, y, (post ++ [x]). split; [now rewrite E, <- app_assoc|]. split; [exact B|].
        intros mid z rest b F. destruct rest as [|r rest] using rev_ind.
        -- apply app_inj_tail in F. destruct F as [<- <-]. rewrite <- E. apply N.
        -- clear IHrest. rewrite app_comm_cons, app_assoc in F. apply app_inj_tail in F. destruct F as [F _]. exact (M mid z rest b F).
Qed.
(** the settings with which a run may start *)
Definition startable (c : econf R) : Prop :=
  c_bset c = true /\ (0 < c_new c)%nat /\ (0 < c_size c)%nat /\ (0 < c_dim c)%nat /\ (0 < c_gens c)%nat /\ (0 < c_max c)%nat /\ (c_deaths c < c_size c + c_new c)%nat.
(** other settings are refused before anything is evaluated: whatever the function and the random numbers *)
Theorem C96_ea_refused : forall (c : econf R) us ws e0, ~ startable c -> ea_optimize c us ws e0 = Throw (if c_bset c then InvalidArgument else RuntimeError).
Proof.
  intros c us ws e0 N. unfold ea_optimize, ec_check, startable in *. destruct (c_bset c); cbn [negb]; [|reflexivity].
  destruct (Nat.eqb_spec (c_new c) 0); [reflexivity|]. destruct (Nat.eqb_spec (c_size c) 0); [reflexivity|]. destruct (Nat.eqb_spec (c_dim c) 0); [reflexivity|].
  destruct (Nat.eqb_spec (c_gens c) 0); [reflexivity|]. destruct (Nat.eqb_spec (c_max c) 0); [reflexivity|]. destruct (Nat.leb_spec (c_size c + c_new c) (c_deaths c)); [reflexivity|].
  destruct N. repeat split; lia.
Qed.
(** with the others the initial population is created *)
Theorem C96_ea_started : forall (c : econf R) us ws e0, startable c -> ea_optimize c us ws e0 =
  (e <- ea_initialize c us (mkEA (e_pop e0) (e_gen e0) (e_rem e0) (e_hist e0) 0 (e_init e0)) ;; oe <- ea_loop c ws 0 (c_gens c) e ;; match oe with None => Ok None | Some e => _ <- ea_solution e ;; Ok (Some e) end).
Proof.
  intros c us ws e0 (B & A1 & A2 & A3 & A4 & A5 & A6). unfold ea_optimize, ec_check. rewrite B. cbn [negb].
  destruct (Nat.eqb_spec (c_new c) 0); [lia|]. destruct (Nat.eqb_spec (c_size c) 0); [lia|]. destruct (Nat.eqb_spec (c_dim c) 0); [lia|].
  destruct (Nat.eqb_spec (c_gens c) 0); [lia|]. destruct (Nat.eqb_spec (c_max c) 0); [lia|]. destruct (Nat.leb_spec (c_size c + c_new c) (c_deaths c)); [lia|]. reflexivity.
Qed.
(** the mutation probability is not among them: when it was never set no run succeeds, though the initial population is evaluated *)
Theorem C96_mutation_unset_refuted : (exists c : econf R, startable c /\ c_mutp c = 0%R) /\
  forall (c : econf R) us ws e0 e, c_mutp c = 0%R -> ea_optimize c us ws e0 <> Ok (Some e).
Proof.
  split. { exists (mkEC 1 [0%R] [1%R] true 0%R 2 1 1 1 10 (fun _ => Ok 0%R)). split; [|reflexivity]. unfold startable. cbn. repeat split; lia. }
  intros c us ws e0 e Z H. unfold ea_optimize in H. destruct (ec_check c) as [[]|?|] eqn:CK; cbn [bind] in H; try discriminate.
  assert (G : (0 < c_gens c)%nat /\ (0 < c_new c)%nat). { unfold ec_check in CK. destruct (c_bset c); [|discriminate]. cbn [negb] in CK. destruct (Nat.eqb_spec (c_new c) 0); [discriminate|]. destruct (Nat.eqb (c_size c) 0); [discriminate|]. destruct (Nat.eqb (c_dim c) 0); [discriminate|]. destruct (Nat.eqb_spec (c_gens c) 0); [discriminate|]. lia. }
  destruct (ea_initialize c us _) as [e1|?|]; cbn [bind] in H; try discriminate. destruct G as [G K]. destruct (c_gens c) as [|g]; [lia|]. cbn [ea_loop] in H. unfold ea_generation, ea_births, ea_children in H.
  destruct (c_new c) as [|k] eqn:EK; [lia|]. rewrite <- EK in H at 1. assert (NZ : Nat.eqb (c_new c) 0 = false) by (rewrite EK; reflexivity). rewrite NZ in H. clear NZ.
  assert (C : forall p t w, ea_child c p t w = Ok None \/ exists r, ea_child c p t w = r /\ (forall i, r <> Ok i)).
  { intros p t w. unfold ea_child. destruct (pop_parents p (ch_mother w) (ch_father w)) as [[[mo fa]|]|?|]; cbn [bind]; [|auto|right; eexists; split; [reflexivity|discriminate]|right; eexists; split; [reflexivity|discriminate]].
    right. eexists. split; [reflexivity|]. intros i. destruct (negb (c_bset c)); [discriminate|]. unfold ea_crossOver. destruct (Nat.eqb (i_id mo) (i_id fa)); [discriminate|]. destruct (negb (Nat.eqb (length (i_genes mo)) (length (i_genes fa)))); [discriminate|]. unfold ea_mutate. rewrite Z. cbn [nleb RNum n0 n1]. unfold Rleb at 1. destruct (Rle_dec 0%R 0%R); [|lra]. cbn [orb bind]. discriminate. }
  assert (L : forall n p t w, (0 < n)%nat -> loopR n (fun k l => match l with None => Ok None | Some l => i <- ea_child c p (t + k) (w k) ;; Ok (option_map (fun i => l ++ [i]) i) end) (Some []) = Ok None \/
     forall x, loopR n (fun k l => match l with None => Ok None | Some l => i <- ea_child c p (t + k) (w k) ;; Ok (option_map (fun i => l ++ [i]) i) end) (Some []) <> Ok x).
  { induction n as [|n IHn]; intros p t w P; [lia|]. cbn [loopR]. destruct n as [|n].
    - cbn [loopR bind]. destruct (C p (t + 0)%nat (w 0%nat)) as [E|(r & E & NR)]; rewrite E; cbn [bind option_map]; [auto|]. right. intros x. destruct r as [i|?|]; cbn [bind]; [destruct (NR i eq_refl)|discriminate|discriminate].
    - destruct (IHn p t w ltac:(lia)) as [E|E]; [rewrite E; cbn [bind]; auto|]. right. intros x. destruct (loopR (S n) _ _) as [y|?|]; cbn [bind]; [destruct (E y eq_refl)|discriminate|discriminate]. }
  destruct (negb (e_init e1)); cbn [bind] in H; [discriminate|]. destruct (L (S k) (e_pop e1) (e_total e1) (g_births (ws 0%nat)) ltac:(lia)) as [E|E].
  - rewrite E in H. cbn [bind] in H. discriminate.
  - destruct (loopR (S k) _ _) as [y|?|]; cbn [bind] in H; [destruct (E y eq_refl)|discriminate|discriminate].
Qed.
(** neither are the two bounds compared when they are given as two numbers: the run then has no defined behaviour *)
Theorem C96_box_order_refuted : exists calls : list (ea_setter R), let c := ea_settings calls ec_new in
  startable c /\ (0 < c_mutp c < 1)%R /\ (forall us ws, ea_optimize c us ws (ea_new 1) = UB).
Proof.
  exists [EDimension 1; EBox 1%R 0%R; EMutation (/ 2)%R; ESize 2; ENew 1; EDeaths 1; EGenerations 1; EMaximum 10; EFunction (fun _ => Ok 0%R)]. cbv zeta.
  assert (E : ea_settings [EDimension 1; EBox 1%R 0%R; EMutation (/ 2)%R; ESize 2; ENew 1; EDeaths 1; EGenerations 1; EMaximum 10; EFunction (fun _ => Ok 0%R)] ec_new = mkEC 1 [1%R] [0%R] true (/ 2)%R 2 1 1 1 10 (fun _ => Ok 0%R)).
  { cbn -[ec_setMutation]. unfold ea_after. cbn [ea_set]. unfold ec_setMutation. cbn [nleb RNum n0 n1]. unfold Rleb. destruct (Rle_dec (/ 2)%R 0%R); [lra|]. destruct (Rle_dec 1%R (/ 2)%R); [lra|]. cbn [orb]. reflexivity. }
  rewrite E. split; [unfold startable; cbn; repeat split; lia|]. split; [cbn; lra|]. intros us ws. rewrite C96_ea_started by (unfold startable; cbn; repeat split; lia). unfold ea_initialize. cbn.
  unfold vec_randomBetween. cbn. unfold Rltb. destruct (Rlt_dec 0%R 1%R); [|lra]. reflexivity.
Qed.
(** and a dimension set after the bounds makes every run fail *)
Theorem C96_late_dimension_refuted : exists calls : list (ea_setter R), let c := ea_settings calls ec_new in
  startable c /\ (0 < c_mutp c < 1)%R /\ (forall us ws, ea_optimize c us ws (ea_new 2) = Throw InvalidArgument).
Proof.
  exists [EDimension 1; EBox 0%R 1%R; EDimension 2; EMutation (/ 2)%R; ESize 2; ENew 1; EDeaths 1; EGenerations 1; EMaximum 10; EFunction (fun _ => Ok 0%R)]. cbv zeta.
  assert (E : ea_settings [EDimension 1; EBox 0%R 1%R; EDimension 2; EMutation (/ 2)%R; ESize 2; ENew 1; EDeaths 1; EGenerations 1; EMaximum 10; EFunction (fun _ => Ok 0%R)] ec_new = mkEC 2 [0%R] [1%R] true (/ 2)%R 2 1 1 1 10 (fun _ => Ok 0%R)).
  { cbn -[ec_setMutation]. unfold ea_after. cbn [ea_set]. unfold ec_setMutation. cbn [nleb RNum n0 n1]. unfold Rleb. destruct (Rle_dec (/ 2)%R 0%R); [lra|]. destruct (Rle_dec 1%R (/ 2)%R); [lra|]. cbn [orb]. reflexivity. }
  rewrite E. split; [unfold startable; cbn; repeat split; lia|]. split; [cbn; lra|]. intros us ws. rewrite C96_ea_started by (unfold startable; cbn; repeat split; lia). unfold ea_initialize. cbn.
  unfold vec_randomBetween. cbn. unfold Rltb. destruct (Rlt_dec 1%R 0%R); [lra|]. reflexivity.
Qed.

(** ** C96: the gradient optimiser *)
Definition refusal (x : grad_setter R) : exn := match x with GBounds _ _ => InvalidArgument | _ => AssertFail end.
Theorem C96_gradient_accepts : forall (s : gopt R) x, (grad_accepts (g_dim s) x -> snd (grad_set x s) = Ok tt) /\ (~ grad_accepts (g_dim s) x -> grad_set x s = (s, Throw (refusal x))).
Proof.
  intros s x. destruct x as [d|lb ub|f|x|v|v|z|g|z|m|v]; cbn [grad_accepts grad_set refusal]; try (split; [reflexivity|tauto]).
  - unfold grad_setBounds, sbind, sget, sthrow_if, slift, smod, sret. split.
    + intros (L & B). pose proof (proj1 B) as L2. rewrite <- L2, Nat.eqb_refl, <- L, Nat.eqb_refl. cbn [negb]. apply gt_below in B; [|exact L2]. rewrite B. reflexivity.
    + intros H. destruct (Nat.eqb_spec (length lb) (length ub)) as [L|L]; cbn [negb]; [|reflexivity]. destruct (Nat.eqb_spec (length lb) (g_dim s)) as [L'|L']; cbn [negb]; [|reflexivity].
      destruct (gt_total lb ub L) as [E|E]; rewrite E; cbn [negb]; [|reflexivity]. apply gt_below in E; [|exact L]. tauto.
  - unfold grad_setInitialPoint, sbind, sget, sassert, smod, sret. destruct (Nat.eqb_spec (length x) (g_dim s)); split; intros; auto; lia.
  - unfold grad_setFD, sbind, sassert, smod, sret. destruct m; cbn; (split; [intros [H|H]; (reflexivity || discriminate)|]); intros H; (reflexivity || (destruct H; auto)).
  - unfold grad_setEps, sbind, sassert, smod, sret. cbn [nltb RNum n0 nlit]. unfold Rltb. replace (Rlit 1 (-1)) with (/ 10)%R by (unfold Rlit, powerRZ; change (Pos.to_nat 1) with 1%nat; rewrite pow_1; lra).
    destruct (Rlt_dec 0%R v); [destruct (Rlt_dec v (/ 10)%R)|]; split; intros H; try reflexivity; try (destruct H; exfalso; auto; lra); destruct H; split; assumption.
Qed.
Lemma grad_after_fields (x : grad_setter R) s : let s' := fst (grad_set x s) in let w {A} (o : option A) d := match o with Some v => v | None => d end in
  g_dim s' = w (grad_dimension x) (g_dim s) /\ g_fun s' = w (grad_function x) (g_fun s) /\ g_grad s' = w (grad_gradient x) (g_grad s) /\ g_maxStep s' = w (grad_step x) (g_maxStep s) /\ g_tol s' = w (grad_tolerance x) (g_tol s) /\
  g_lsIter s' = w (grad_line_search x) (g_lsIter s) /\ g_maxEval s' = w (grad_maximum x) (g_maxEval s) /\ g_method s' = w (grad_method x) (g_method s) /\ g_eps s' = w (grad_epsilon x) (g_eps s) /\
  ((exists lo up, x = GBounds lo up /\ grad_accepts (g_dim s) x /\ g_bounds s' = Some (lo, up)) \/ (~ (exists lo up, x = GBounds lo up /\ grad_accepts (g_dim s) x) /\ g_bounds s' = g_bounds s)) /\
  ((exists y, x = GInitial y /\ grad_accepts (g_dim s) x /\ g_init s' = true /\ p_x (g_cur s') = y) \/ (~ (exists y, x = GInitial y /\ grad_accepts (g_dim s) x) /\ g_init s' = g_init s /\ p_x (g_cur s') = p_x (g_cur s))).
Proof.
  cbv zeta. destruct (C96_gradient_accepts s x) as [A N].
  assert (NB : forall y, x = y -> (forall lo up, y <> GBounds lo up) -> ~ (exists lo up, x = GBounds lo up /\ grad_accepts (g_dim s) x)) by (intros y -> Q (lo & up & E & _); exact (Q lo up E)).
  assert (NI : forall y, x = y -> (forall z, y <> GInitial z) -> ~ (exists z, x = GInitial z /\ grad_accepts (g_dim s) x)) by (intros y -> Q (z & E & _); exact (Q z E)).
  destruct x as [d|lb ub|f|x|v|v|z|g|z|m|v]; cbn [grad_dimension grad_function grad_gradient grad_step grad_tolerance grad_line_search grad_maximum grad_method grad_epsilon];
    try (cbn [grad_set fst g_dim g_fun g_grad g_maxStep g_tol g_lsIter g_maxEval g_method g_eps g_bounds g_init g_cur]; repeat (split; [reflexivity|]); split; right; split; auto; [eapply NB; [reflexivity|discriminate]|eapply NI; [reflexivity|discriminate]]; fail).
  - assert (D : grad_accepts (g_dim s) (GBounds lb ub) \/ ~ grad_accepts (g_dim s) (GBounds lb ub)).
    { cbn [grad_accepts]. destruct (Nat.eq_dec (length lb) (g_dim s)) as [L|L]; [|right; tauto]. destruct (Nat.eq_dec (length lb) (length ub)) as [L'|L']; [|right; unfold below; tauto]. destruct (gt_total lb ub L') as [E|E]; rewrite <- gt_below by exact L'; rewrite E; [left|right; intros [_ Q]; discriminate]; auto. }
    destruct D as [D|D].
    + pose proof D as (L & B). pose proof (proj1 B) as L2. cbn [grad_set]. unfold grad_setBounds, sbind, sget, sthrow_if, slift, smod, sret. rewrite <- L2, Nat.eqb_refl, <- L, Nat.eqb_refl. cbn [negb]. apply gt_below in B; [|exact L2]. rewrite B. cbn [negb fst].
      rewrite !L. repeat (split; [reflexivity|]). split; [left; exists lb, ub; auto|right; split; [eapply NI; [reflexivity|discriminate]|auto]].
    + rewrite (N D). cbn [fst]. repeat (split; [reflexivity|]). split; [right; split; [|reflexivity]|right; split; [eapply NI; [reflexivity|discriminate]|auto]]. intros (lo & up & _ & Q). auto.
  - cbn [grad_set]. unfold grad_setInitialPoint, sbind, sget, sassert, smod, sret. destruct (Nat.eqb_spec (length x) (g_dim s)) as [L|L]; cbn [fst].
    + repeat (split; [reflexivity|]). split; [right; split; [eapply NB; [reflexivity|discriminate]|reflexivity]|]. left. exists x. repeat split; auto.
    + repeat (split; [reflexivity|]). split; [right; split; [eapply NB; [reflexivity|discriminate]|reflexivity]|]. right. split; [|auto]. intros (y & _ & Q). cbn in Q. auto.
  - cbn [grad_set]. unfold grad_setFD, sbind, sassert, smod, sret. destruct m; cbn; repeat (split; [reflexivity|]); (split; right; split; auto; [eapply NB; [reflexivity|discriminate]|eapply NI; [reflexivity|discriminate]]).
  - cbn [grad_set]. unfold grad_setEps, sbind, sassert, smod, sret. cbn [nltb RNum n0 nlit]. unfold Rltb. replace (Rlit 1 (-1)) with (/ 10)%R by (unfold Rlit, powerRZ; change (Pos.to_nat 1) with 1%nat; rewrite pow_1; lra).
    destruct (Rlt_dec 0%R v); [destruct (Rlt_dec v (/ 10)%R)|]; cbn [andb]; cbn; repeat (split; [reflexivity|]); (split; right; split; auto; [eapply NB; [reflexivity|discriminate]|eapply NI; [reflexivity|discriminate]]).
Qed.
Lemma grad_settings_app (l l' : list (grad_setter R)) : forall s, grad_settings (l ++ l') s = grad_settings l' (grad_settings l s).
Proof. induction l as [|x l IH]; intros s; cbn [app grad_settings]; auto. Qed.
Theorem C96_gradient_settings : forall (calls : list (grad_setter R)) s, let s' := grad_settings calls s in
  g_dim s' = latest grad_dimension (g_dim s) calls /\ g_fun s' = latest grad_function (g_fun s) calls /\ g_grad s' = latest grad_gradient (g_grad s) calls /\ g_maxStep s' = latest grad_step (g_maxStep s) calls /\
  g_tol s' = latest grad_tolerance (g_tol s) calls /\ g_lsIter s' = latest grad_line_search (g_lsIter s) calls /\ g_maxEval s' = latest grad_maximum (g_maxEval s) calls /\
  g_method s' = latest grad_method (g_method s) calls /\ g_eps s' = latest grad_epsilon (g_eps s) calls.
Proof.
  cbv zeta. induction calls as [|x l IH]; intros s; cbn [grad_settings latest]; [repeat split|]. destruct (IH (fst (grad_set x s))) as (A1 & A2 & A3 & A4 & A5 & A6 & A7 & A8 & A9).
  destruct (grad_after_fields x s) as (B1 & B2 & B3 & B4 & B5 & B6 & B7 & B8 & B9 & _). cbv zeta beta in *. rewrite A1, A2, A3, A4, A5, A6, A7, A8, A9, B1, B2, B3, B4, B5, B6, B7, B8, B9. repeat split.
Qed.
(** the bounds and the initial point are those of the last accepted call *)
Theorem C96_gradient_bounds_and_start : forall calls : list (grad_setter R), let s := grad_settings calls grad_new in
  let last_of (pick : grad_setter R -> Prop) (x : grad_setter R) := pick x /\ exists pre post, calls = pre ++ x :: post /\ grad_accepts (latest grad_dimension 0%nat pre) x /\
    (forall mid y rest, post = mid ++ y :: rest -> pick y -> ~ grad_accepts (latest grad_dimension 0%nat (pre ++ x :: mid)) y) in
  (forall lo up, g_bounds s = Some (lo, up) <-> last_of (fun x => exists a b, x = GBounds a b) (GBounds lo up)) /\
  (forall x, g_init s = true /\ p_x (g_cur s) = x <-> last_of (fun x => exists a, x = GInitial a) (GInitial x)).
Proof.
  intros calls. cbv zeta. induction calls as [|x l IH] using rev_ind.
  - split; [intros lo up; split; [cbn; discriminate|]|intros y; split; [cbn; intros [? _]; discriminate|]]; intros (_ & pre & post & E & _); destruct pre; discriminate.
  - rewrite grad_settings_app. cbn [grad_settings]. set (s := grad_settings l grad_new) in *. destruct (C96_gradient_settings l grad_new) as (D & _). fold s in D. change (g_dim grad_new) with 0%nat in D.
    destruct (grad_after_fields x s) as (_ & _ & _ & _ & _ & _ & _ & _ & _ & HB & HI). rewrite D in *. destruct IH as [IH1 IH2].
    assert (KEEP : forall (pick : grad_setter R -> Prop) y, ~ (pick x /\ grad_accepts (latest grad_dimension 0%nat l) x) ->
       ((pick y /\ exists pre post, l = pre ++ y :: post /\ grad_accepts (latest grad_dimension 0%nat pre) y /\ (forall mid z rest, post = mid ++ z :: rest -> pick z -> ~ grad_accepts (latest grad_dimension 0%nat (pre ++ y :: mid)) z)) <->
        (pick y /\ exists pre post, l ++ [x] = pre ++ y :: post /\ grad_accepts (latest grad_dimension 0%nat pre) y /\ (forall mid z rest, post = mid ++ z :: rest -> pick z -> ~ grad_accepts (latest grad_dimension 0%nat (pre ++ y :: mid)) z)))).
    { intros pick y NX. split; intros (PY & pre & post & E & AC & M); (split; [exact PY|]).
      - exists pre, (post ++ [x]). split; [now rewrite E, <- app_assoc|]. split; [exact AC|]. intros mid z rest F PZ. destruct rest as [|r rest] using rev_ind.
        + apply app_inj_tail in F. destruct F as [<- <-]. rewrite <- E. tauto.
        + clear IHrest. rewrite app_comm_cons, app_assoc in F. apply app_inj_tail in F. destruct F as [F _]. exact (M mid z rest F PZ).
      - destruct post as [|z post] using rev_ind.
        + apply app_inj_tail in E. destruct E as [-> ->]. tauto.
        + clear IHpost. rewrite app_comm_cons, app_assoc in E. apply app_inj_tail in E. destruct E as [-> _]. exists pre, post. split; [reflexivity|]. split; [exact AC|]. intros mid w rest F PW. exact (M mid w (rest ++ [z]) ltac:(rewrite F, <- app_assoc; reflexivity) PW). }
    assert (NEW : forall (pick : grad_setter R -> Prop) y, pick x -> grad_accepts (latest grad_dimension 0%nat l) x ->
       ((pick y /\ exists pre post, l ++ [x] = pre ++ y :: post /\ grad_accepts (latest grad_dimension 0%nat pre) y /\ (forall mid z rest, post = mid ++ z :: rest -> pick z -> ~ grad_accepts (latest grad_dimension 0%nat (pre ++ y :: mid)) z)) <-> y = x)).
    { intros pick y PX AX. split.
      - intros (PY & pre & post & E & AC & M). destruct post as [|z post] using rev_ind; [apply app_inj_tail in E; symmetry; apply E|]. clear IHpost. rewrite app_comm_cons, app_assoc in E. apply app_inj_tail in E. destruct E as [E <-].
        destruct (M post x [] eq_refl PX). rewrite <- E. exact AX.
      - intros ->. split; [exact PX|]. exists l, []. split; [reflexivity|]. split; [exact AX|]. intros mid z rest F. destruct mid; discriminate. }
    split.
    + intros lo up. destruct HB as [(a & b & E & AC & B)|(N & B)]; rewrite B.
      * rewrite (NEW (fun x => exists a b, x = GBounds a b) (GBounds lo up)) by (eauto). rewrite E. split; [intros [= -> ->]|intros [= -> ->]]; reflexivity.
      * rewrite <- (KEEP (fun x => exists a b, x = GBounds a b) (GBounds lo up)) by (intros ((a & b & E) & AC); apply N; eauto). apply IH1.
    + intros y. destruct HI as [(a & E & AC & B & C)|(N & B & C)]; rewrite B, C.
      * rewrite (NEW (fun x => exists a, x = GInitial a) (GInitial y)) by eauto. rewrite E. split; [intros (_ & ->)|intros [= ->]]; auto.
      * rewrite <- (KEEP (fun x => exists a, x = GInitial a) (GInitial y)) by (intros ((a & E) & AC); apply N; eauto). apply IH2.
Qed.
(** a run needs a dimension, an initial point, a positive number of evaluations and bounds; otherwise the assertions stop the program before anything is evaluated *)
Theorem C96_gradient_refused : forall (s : gopt R) fuel rounds, ~ ((0 < g_dim s)%nat /\ g_init s = true /\ (0 < g_maxEval s)%Z /\ g_bounds s <> None) ->
  grad_optimize fuel rounds s = Some (s, Throw AssertFail).
Proof.
  intros s fuel rounds N. unfold grad_optimize, grad_start, grad_check, sbind, sget, sassert, sret, sthrow. destruct (Nat.ltb_spec 0 (g_dim s)); [|reflexivity]. destruct (g_init s); [|reflexivity].
  destruct (Z.ltb_spec 0 (g_maxEval s)); [|reflexivity]. destruct (g_bounds s); [|reflexivity]. destruct N. repeat split; auto; discriminate.
Qed.
Theorem C96_gradient_started : forall (s : gopt R), (0 < g_dim s)%nat -> g_init s = true -> (0 < g_maxEval s)%Z -> g_bounds s <> None ->
  grad_check s = (s, Ok tt).
Proof.
  intros s A B C D. unfold grad_check, sbind, sget, sassert, sret. destruct (Nat.ltb_spec 0 (g_dim s)); [|lia]. rewrite B. destruct (Z.ltb_spec 0 (g_maxEval s)); [|lia]. destruct (g_bounds s); [reflexivity|congruence].
Qed.
(** a negative number of evaluations is accepted as a huge one *)
Theorem C96_negative_budget_refuted : g_maxEval (grad_settings [GMaximum (-1)] (grad_new (T := R))) = (2 ^ 32 - 1)%Z.
Proof. reflexivity. Qed.

(** ** C97: how a child is made *)
Definition into (lo up x : R) : R := Rmin up (Rmax lo x).
Definition spread (a b : R) : R := if Req_EM_T a b then 1%R else (Rabs (a - b) / 6)%R.
Theorem C97_gene : forall (c : econf R) mo fa z u m g k, ea_crossOver c mo fa z u m = Ok g -> length (i_genes mo) = c_dim c -> length (c_lo c) = c_dim c -> (k < c_dim c)%nat ->
  length g = c_dim c /\ length (i_genes fa) = c_dim c /\ i_id mo <> i_id fa /\
  nth k g 0%R = into (nth k (c_lo c) 0%R) (nth k (c_up c) 0%R)
    (if Rlt_dec (m k) (c_mutp c) then nth k (c_lo c) 0%R + u k * (nth k (c_up c) 0%R - nth k (c_lo c) 0%R)
     else (nth k (i_genes mo) 0%R + nth k (i_genes fa) 0%R) / 2 + z k * spread (nth k (i_genes mo) 0%R) (nth k (i_genes fa) 0%R)).
Proof.
  intros c mo fa z u m g k H LM LL Hk. unfold ea_crossOver in H. destruct (Nat.eqb_spec (i_id mo) (i_id fa)) as [|NE]; [discriminate|]. destruct (Nat.eqb_spec (length (i_genes mo)) (length (i_genes fa))) as [LF|]; cbn [negb] in H; [|discriminate].
  unfold ea_mutate in H. destruct ((c_mutp c <=! n0) || _)%bool; [discriminate|]. destruct (negb (c_bset c)); [discriminate|]. unfold vec_randomBetween in H.
  destruct (Nat.eqb_spec (length (c_lo c)) (length (c_up c))) as [LU|]; cbn [negb bind] in H; [|discriminate]. destruct (existsb _ (seq 0 (length (c_lo c)))) eqn:EX; cbn [bind] in H; [discriminate|].
  match type of H with context [if ?b then Throw OutOfRange else _] => destruct b; cbn [bind] in H; [discriminate|] end.
  match type of H with context [if ?b then Throw OutOfRange else _] => destruct b; cbn [bind] in H; [discriminate|] end.
  assert (G := f_equal (fun r => match r with Ok x => x | _ => [] end) H). cbn iota beta in G. clear H. subst g. rewrite !vbuild_length. split; [exact LM|]. split; [congruence|]. split; [exact NE|].
  assert (LE : (nth k (c_lo c) 0%R <= nth k (c_up c) 0%R)%R).
  { assert (Q : (vget (c_up c) k <! vget (c_lo c) k) = false). { destruct (vget (c_up c) k <! vget (c_lo c) k) eqn:QQ; [|reflexivity]. assert (existsb (fun i => vget (c_up c) i <! vget (c_lo c) i) (seq 0 (length (c_lo c))) = true); [|congruence]. apply existsb_exists. exists k. split; [apply in_seq; lia|exact QQ]. }
    unfold vget in Q. cbn [nltb RNum n0] in Q. unfold Rltb in Q. destruct (Rlt_dec (nth k (c_up c) 0%R) (nth k (c_lo c) 0%R)); [discriminate|lra]. }
  assert (NV : forall n (f : nat -> R) i, (i < n)%nat -> nth i (vbuild n f) 0%R = f i). { intros n f i Hi. unfold vbuild. rewrite (nth_indep _ 0%R (f 0%nat)) by (rewrite map_length, seq_length; exact Hi). rewrite map_nth, seq_nth by exact Hi. reflexivity. }
  rewrite NV by lia. replace (Nat.ltb k (c_dim c)) with true by (symmetry; apply Nat.ltb_lt; exact Hk). unfold vget. cbn [n0 RNum]. rewrite NV by lia. rewrite !NV by lia.
  assert (CL : forall x, clamp (nth k (c_lo c) 0%R) (nth k (c_up c) 0%R) x = into (nth k (c_lo c) 0%R) (nth k (c_up c) 0%R) x).
  { intros x. unfold clamp, into. cbn [nltb RNum]. unfold Rltb, Rmin, Rmax. destruct (Rlt_dec x (nth k (c_lo c) 0%R)), (Rle_dec (nth k (c_lo c) 0%R) x); try lra; repeat (match goal with |- context [Rlt_dec ?a ?b] => destruct (Rlt_dec a b) | |- context [Rle_dec ?a ?b] => destruct (Rle_dec a b) end); lra. }
  rewrite CL. f_equal. cbn [nltb RNum]. unfold Rltb. destruct (Rlt_dec (m k) (c_mutp c)).
  - unfold unif. cbn [nadd nmul nsub RNum]. lra.
  - unfold normal_between, spread. cbn [nadd nmul nsub ndiv nabs nofZ neqb n0 n1 RNum]. set (a := nth k (i_genes mo) 0%R). set (b := nth k (i_genes fa) 0%R). unfold Reqb. rewrite (Rabs_minus_sym b a).
    destruct (Req_EM_T a b) as [E|E]; destruct (Req_EM_T (Rabs (a - b) / 6)%R 0%R) as [Z|Z].
    + lra.
    + destruct Z. rewrite E, Rminus_diag_eq, Rabs_R0 by reflexivity. lra.
    + assert (Rabs (a - b) = 0)%R by lra. destruct E. destruct (Req_dec (a - b)%R 0%R) as [Q|Q]; [lra|]. apply Rabs_no_R0 in Q. lra.
    + lra.
Qed.

(** concrete cases *)
Example C96_example : let c := ea_settings [EDimension 1; EBox 0%R 1%R; EMutation 2%R; EMutation (/ 2)%R; ESize 3; ENew 2; EDeaths 5; EGenerations 4; EMaximum 0; EMaximum 9] ec_new in
  c_mutp c = (/ 2)%R /\ c_max c = 9%nat /\ c_lo c = [0%R] /\ c_bset c = true /\ ~ startable c /\ startable (ea_after (EDeaths 4) c).
Proof.
  cbv zeta. destruct (C96_ea_settings [EDimension 1; EBox 0%R 1%R; EMutation 2%R; EMutation (/ 2)%R; ESize 3; ENew 2; EDeaths 5; EGenerations 4; EMaximum 0; EMaximum 9] ec_new) as (A1 & A2 & A3 & A4 & A5 & A6 & A7 & A8). cbv zeta in *.
  destruct (C96_ea_bounds [EDimension 1; EBox 0%R 1%R; EMutation 2%R; EMutation (/ 2)%R; ESize 3; ENew 2; EDeaths 5; EGenerations 4; EMaximum 0; EMaximum 9]) as (B1 & B2). cbv zeta in *.
  set (c := ea_settings _ ec_new) in *.
  assert (B : c_bset c = true). { apply B1. exists [EDimension 1], (EBox 0%R 1%R), [EMutation 2%R; EMutation (/ 2)%R; ESize 3; ENew 2; EDeaths 5; EGenerations 4; EMaximum 0; EMaximum 9]. eexists. split; [reflexivity|]. split; [cbn; lia|reflexivity]. }
  assert (L : c_lo c = [0%R]). { destruct (B2 B) as (pre & x & post & E & BS & _). destruct x; try (destruct BS; fail).
    - destruct BS as (_ & BE). assert (c_lo c = repeat lb (latest ea_dimension 0%nat pre)) as -> by congruence. do 10 (destruct pre as [|? pre]; [try discriminate; injection E as <- <- _; reflexivity|injection E as <- E]). destruct pre; discriminate.
    - exfalso. do 10 (destruct pre as [|? pre]; [discriminate|injection E as <- E]). destruct pre; discriminate.
    - exfalso. do 10 (destruct pre as [|? pre]; [discriminate|injection E as <- E]). destruct pre; discriminate. }
  assert (MU : c_mutp c = (/ 2)%R). { rewrite A7. cbn. unfold Rltb. destruct (Rlt_dec 0%R 2%R); [|lra]. destruct (Rlt_dec 2%R 1%R); [lra|]. cbn. destruct (Rlt_dec 0%R (/ 2)%R); [|lra]. destruct (Rlt_dec (/ 2)%R 1%R); [reflexivity|lra]. }
  clearbody c. cbn in A1, A2, A3, A4, A5, A6. split; [exact MU|]. split; [exact A6|]. split; [exact L|]. split; [exact B|]. split.
  - intros (_ & _ & _ & _ & _ & _ & D). lia.
  - unfold startable, ea_after. cbn [ea_set c_bset c_new c_size c_dim c_gens c_max c_deaths]. repeat split; auto; lia.
Qed.
Example C97_example : exists g, ea_crossOver (mkEC 2 [0%R; 0%R] [4%R; 4%R] true (/ 10)%R 2 1 1 1 10 (fun _ => Ok 0%R)) (mkI 1 2 [1%R; 2%R] 0%R 0%R 0%R 0%R) (mkI 2 2 [4%R; 2%R] 0%R 0%R 0%R 0%R) (fun _ => 1%R) (fun _ => 0%R) (fun _ => (/ 2)%R) = Ok g /\
  nth 0 g 0%R = 3%R /\ nth 1 g 0%R = 3%R.
Proof.
  set (c := mkEC 2 [0%R; 0%R] [4%R; 4%R] true (/ 10)%R 2 1 1 1 10 (fun _ => Ok 0%R)). set (mo := mkI 1 2 [1%R; 2%R] 0%R 0%R 0%R 0%R). set (fa := mkI 2 2 [4%R; 2%R] 0%R 0%R 0%R 0%R).
  assert (H : exists g, ea_crossOver c mo fa (fun _ => 1%R) (fun _ => 0%R) (fun _ => (/ 2)%R) = Ok g).
  { unfold ea_crossOver, ea_mutate, vec_randomBetween. cbn. unfold Rleb, Rltb. destruct (Rle_dec (/ 10)%R 0%R); [lra|]. destruct (Rle_dec 1%R (/ 10)%R); [lra|]. cbn. destruct (Rlt_dec 4%R 0%R); [lra|]. cbn. eauto. }
  destruct H as (g & H). exists g. split; [exact H|].
  destruct (C97_gene c mo fa _ _ _ g 0%nat H eq_refl eq_refl ltac:(cbn; lia)) as (_ & _ & _ & E0). destruct (C97_gene c mo fa _ _ _ g 1%nat H eq_refl eq_refl ltac:(cbn; lia)) as (_ & _ & _ & E1).
  rewrite E0, E1. subst c mo fa. cbn [c_mutp c_lo c_up i_genes nth]. unfold into, spread. destruct (Rlt_dec (/ 2)%R (/ 10)%R); [lra|]. destruct (Req_EM_T 1%R 4%R); [lra|]. destruct (Req_EM_T 2%R 2%R); [|lra].
  replace (Rabs (1 - 4)) with 3%R by (rewrite Rabs_minus_sym, Rabs_pos_eq; lra). rewrite !Rmax_right, !Rmin_right; try lra; rewrite ?Rmax_right; lra.
Qed.
Print Assumptions C96_ea_accepts.
Print Assumptions C96_ea_settings.
Print Assumptions C96_ea_bounds.
Print Assumptions C96_ea_refused.
Print Assumptions C96_ea_started.
Print Assumptions C96_mutation_unset_refuted.
Print Assumptions C96_box_order_refuted.
Print Assumptions C96_late_dimension_refuted.
Print Assumptions C96_gradient_accepts.
Print Assumptions C96_gradient_settings.
Print Assumptions C96_gradient_bounds_and_start.
Print Assumptions C96_gradient_refused.
Print Assumptions C96_gradient_started.
Print Assumptions C96_negative_budget_refuted.
Print Assumptions C97_gene.
