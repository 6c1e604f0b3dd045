From Coq Require Import List Arith Bool ZArith Lia.
From Verif Require Import Base StM Num VecModel VecProofs VecProofs2 MatModel MatLemmas MatSpec MatProofs BoundsModel DataProofs DesignModel HistModel HistSpec HistProofs KrigModel OptModel OptProofs.
Import ListNotations.

(** inversion of one step of a program *)
Lemma sbind_inv {S A B} (m : SM S A) (k : A -> SM S B) s s' r : sbind m k s = (s', r) ->
  (exists s1 a, m s = (s1, Ok a) /\ k a s1 = (s', r)) \/ (m s = (s', match r with Ok _ => UB | Throw e => Throw e | UB => UB end) /\ isOk r = false).
Proof.
  unfold sbind. destruct (m s) as [s1 [a|e|]] eqn:E; intros H.
  - left. eauto.
  - injection H as <- <-. right. auto.
  - injection H as <- <-. right. auto.
Qed.
(** programs that only read the state *)
Definition keeps {S A} (m : SM S A) : Prop := forall s, fst (m s) = s.
Lemma keeps_bind {S A B} (m : SM S A) (k : A -> SM S B) : keeps m -> (forall a, keeps (k a)) -> keeps (sbind m k).
Proof. intros H1 H2 s. unfold sbind. specialize (H1 s). destruct (m s) as [s1 [a|e|]]; cbn in *; subst; auto. apply H2. Qed.
Lemma keeps_get {S A} (f : S -> A) : keeps (sget f). Proof. intros s; reflexivity. Qed.
Lemma keeps_lift {S A} (r : Res A) : keeps (S := S) (slift r). Proof. intros s; reflexivity. Qed.
Lemma keeps_ret {S A} (a : A) : keeps (S := S) (sret a). Proof. intros s; reflexivity. Qed.
Lemma keeps_throw_if {S} b e : keeps (S := S) (sthrow_if b e). Proof. intros s; destruct b; reflexivity. Qed.
Section Run.
  Context {T : Type} {NT : Num T}.
  Implicit Types (c : cfg T) (e : env T) (s : ost T).

  Lemma mostPromising_frame c e s s' r : mostPromising c e s = (s', r) -> s' = s.
  Proof.
    assert (keeps (mostPromising c e)) as K.
    { unfold mostPromising. repeat (apply keeps_bind; [first [apply keeps_get|apply keeps_throw_if|apply keeps_lift]|intros ?]). apply keeps_ret. }
    intros H. specialize (K s). rewrite H in K. exact K.
  Qed.
  Lemma findDesign_frame c e s s' r : findDesign c e s = (s', r) -> exists d', s' = set_cur d' s /\
    (d' = s_cur s \/ exists x xn, d' = ds_set_point x xn (s_cur s)) /\ (isOk r = false -> d' = s_cur s).
  Proof.
    unfold findDesign. intros H. assert (s = set_cur (s_cur s) s) as Es by (destruct s; reflexivity).
    apply sbind_inv in H as [(s1 & cb & H1 & H)|[H ?]].
    2:{ apply mostPromising_frame in H. subst. exists (s_cur s). auto. }
    apply mostPromising_frame in H1. subst s1. rewrite (sbind_ok _ _ _ s s) in H by reflexivity.
    destruct (maximize _ _ _ _ _ _) as [[dv a]|]. 2:{ injection H as <- <-. exists (s_cur s). auto. }
    apply sbind_inv in H as [(s1 & x & H1 & H)|[H ?]]; [unfold slift in H1; injection H1 as <- _|unfold slift in H; injection H as <- _; exists (s_cur s); auto].
    apply sbind_inv in H as [(s1 & x' & H1 & H)|[H ?]]; [unfold slift in H1; injection H1 as <- _|unfold slift in H; injection H as <- _; exists (s_cur s); auto].
    unfold on_cur, smod in H. injection H as <- <-. eexists. split; [reflexivity|]. split. right; eauto. discriminate.
  Qed.
  Lemma evalConstraints_frame c s s' r : evalConstraints c s = (s', r) -> exists d', s' = set_cur d' s /\
    ds_x d' = ds_x (s_cur s) /\ ds_f d' = ds_f (s_cur s).
  Proof.
    unfold evalConstraints. intros H. assert (s = set_cur (s_cur s) s) as Es by (destruct s; reflexivity).
    destruct (c_cons c). { unfold sret in H. injection H as <- _. eauto. }
    rewrite (sbind_ok _ _ _ s (s_cur s)) in H by reflexivity.
    apply sbind_inv in H as [(s1 & v & H1 & H)|[H ?]]; [unfold slift in H1; injection H1 as <- _|unfold slift in H; injection H as <- _; eauto].
    rewrite (sbind_ok _ _ _ (set_cur (ds_set_con v (s_cur s)) s) tt) in H by reflexivity.
    apply sbind_inv in H as [(s1 & f & H1 & H)|[H ?]]; [unfold slift in H1; injection H1 as <- _|unfold slift in H; injection H as <- _; eexists; split; [reflexivity|split; reflexivity]].
    unfold on_cur, smod in H. injection H as <- _. cbn. eexists. split; [reflexivity|]. auto.
  Qed.
  Lemma findOptimum_frame c s s' r : findOptimum c s = (s', r) -> exists g, s' = set_gopt g s.
  Proof.
    unfold findOptimum. intros H. assert (s = set_gopt (s_gopt s) s) as Es by (destruct s; reflexivity).
    destruct (c_boxset c); cbn [negb sthrow_if] in H. 2:{ injection H as <- _. eauto. }
    rewrite (sbind_ok _ _ _ s tt) in H by reflexivity. rewrite (sbind_ok _ _ _ s (s_hist s)) in H by reflexivity.
    destruct (_ || _)%bool; cbn [sthrow_if] in H. { injection H as <- _. eauto. }
    rewrite (sbind_ok _ _ _ s tt) in H by reflexivity. unfold in_gopt, szoom in H. destruct (gopt_fromHistory _ _) as [g r']. injection H as <- _. eauto.
  Qed.
  Lemma crowding_frame (h h' : hist T) r : hist_crowding h = (h', r) -> exists k, h' = mkH (h_dim h) (h_cn h) (h_data h) k (h_doe h).
  Proof.
    unfold hist_crowding. intros H. assert (h = mkH (h_dim h) (h_cn h) (h_data h) (h_crowd h) (h_doe h)) as Es by (destruct h; reflexivity).
    rewrite (sbind_ok _ _ _ h h) in H by reflexivity. cbv zeta in H. destruct (_ || _)%bool; cbn [sthrow_if] in H. { injection H as <- _. eauto. }
    rewrite (sbind_ok _ _ _ h tt) in H by reflexivity.
    apply sbind_inv in H as [(s1 & m & H1 & H)|[H ?]]; [unfold slift in H1; injection H1 as <- _|unfold slift in H; injection H as <- _; eauto].
    unfold smod in H. injection H as <- _. eauto.
  Qed.
  Lemma adjust_frame e s s' r : adjustSigma e s = (s', r) ->
    exists k sg, s' = set_sig (s_delta s) (s_mult s) sg (s_coef s) (set_hist (mkH (h_dim (s_hist s)) (h_cn (s_hist s)) (h_data (s_hist s)) k (h_doe (s_hist s))) s).
  Proof.
    unfold adjustSigma. intros H. apply sbind_inv in H as [(s1 & v & H1 & H)|[H ?]].
    - unfold in_hist, szoom in H1. destruct (hist_crowding (s_hist s)) as [h r'] eqn:E. injection H1 as <- _. apply crowding_frame in E as (k & ->).
      unfold smod in H. injection H as <- _. cbn. eauto.
    - unfold in_hist, szoom in H. destruct (hist_crowding (s_hist s)) as [h r'] eqn:E. injection H as <- _. apply crowding_frame in E as (k & ->).
      exists k, (s_sigma s). destruct s; reflexivity.
  Qed.
  Lemma trUpdate_frame s : exists l su fa bd mu, trUpdate s = set_sig bd mu (s_sigma s) (s_coef s) (set_tr l su fa s).
  Proof.
    unfold trUpdate. destruct (nltb _ _).
    - unfold trSuccess. destruct (if Nat.eqb _ _ then _ else _) as [l su]. cbv zeta. do 5 eexists. reflexivity.
    - unfold trFailure. destruct (if Nat.eqb _ _ then _ else _) as [l fa]. exists l, 0, fa, (s_delta s), (s_mult s). destruct s; reflexivity.
  Qed.

  (** *** One iteration, whatever its outcome.  [progress s s' x row]: what the optimiser has recorded. *)
  Definition train_at c (k : nat) : list nat := if Nat.eqb (k mod c_how c) 1 then [k] else [].
  Definition hist_same (h h' : hist T) : Prop := h_data h' = h_data h /\ h_dim h' = h_dim h /\ h_cn h' = h_cn h /\ h_doe h' = h_doe h.
  Definition hist_grows (h h' : hist T) (row : list T) : Prop :=
    rows (h_data h') = rows (h_data h) ++ [row] /\ hist_ok h' /\ h_dim h' = h_dim h /\ h_cn h' = h_cn h /\ h_doe h' = h_doe h.
  Lemma iteration_generic c e s s' r : hist_ok (s_hist s) -> iteration c e s = (s', r) ->
    s_iter s' = S (s_iter s) /\
    ( (* stopped before the simulation delivered a value *)
      (isOk r = false /\ s_evals s' = s_evals s /\ hist_same (s_hist s) (s_hist s') /\
        (s_pts s' = s_pts s \/ exists x, s_pts s' = s_pts s ++ [x] /\ isOk (e_eval e x) = false) /\
        (s_trained s' = s_trained s \/ s_trained s' = s_trained s ++ train_at c (S (s_iter s))))
    \/ (* the simulation delivered a value *)
      (exists x f, c_how c <> 0 /\ s_evals s' = S (s_evals s) /\ s_pts s' = s_pts s ++ [x] /\ e_eval e x = Ok f /\
        s_trained s' = s_trained s ++ train_at c (S (s_iter s)) /\
        ((isOk r = false /\ hist_same (s_hist s) (s_hist s') /\ (nisnan f = true -> c_cons c = [] -> r = Throw RuntimeError)) \/
         (exists cs imp fe, nisnan f = false /\ (forall y, In y cs -> nisnan y = false) /\ length x = h_dim (s_hist s) /\ length cs = h_cn (s_hist s) /\
            hist_grows (s_hist s) (s_hist s') (history_row x f cs imp fe)))) ).
  Proof.
    intros Hh H. unfold iteration in H.
    set (s1 := set_iter (S (s_iter s)) s) in H. rewrite (sbind_ok _ _ _ s1 tt) in H by reflexivity. rewrite (sbind_ok _ _ _ s1 (S (s_iter s))) in H by reflexivity.
    assert (s_hist s1 = s_hist s) as Hs1 by reflexivity.
    destruct (Nat.eqb_spec (c_how c) 0) as [Z|NZ].
    { unfold sbind, slift in H. injection H as <- <-. split; auto. left. repeat split; auto. }
    apply sbind_inv in H as [(s2 & u & H1 & H)|[H Hr]].
    2:{ assert (s' = s1 /\ Nat.eqb (S (s_iter s) mod c_how c) 1 = true) as [-> Et].
        { unfold swhen in H. destruct (Nat.eqb _ 1); [|injection H; intros; destruct r; discriminate]. apply sbind_inv in H as [(s2 & u & H1 & H)|[H _]].
          - unfold smod in H. injection H; intros; destruct r; discriminate.
          - unfold slift in H. injection H as <- _. auto. }
        split; auto. left. repeat split; auto. }
    assert (s_hist s2 = s_hist s /\ s_iter s2 = S (s_iter s) /\ s_evals s2 = s_evals s /\ s_pts s2 = s_pts s /\ s_trained s2 = s_trained s ++ train_at c (S (s_iter s))) as (A1 & A2 & A3 & A4 & A5).
    { unfold train_at. unfold swhen in H1. destruct (Nat.eqb _ 1).
      - apply sbind_inv in H1 as [(s3 & u3 & H2 & H1)|[_ H1]]; [|discriminate]. unfold slift in H2. injection H2 as <- _. unfold smod in H1. injection H1 as <-. repeat split; auto.
      - injection H1 as <-. rewrite app_nil_r. repeat split; auto. }
    clear H1 u. clearbody s1. clear s1 Hs1.
    apply sbind_inv in H as [(s3 & u & H1 & H)|[H Hr]].
    2:{ apply findDesign_frame in H as (d' & -> & _ & _). cbn [s_iter s_evals s_hist s_pts s_trained set_cur]. split; auto. left. rewrite A1. repeat split; auto. }
    apply findDesign_frame in H1 as (d' & -> & _ & _). clear u.
    set (s3 := set_cur d' s2) in *. rewrite (sbind_ok _ _ _ s3 d') in H by reflexivity.
    set (x := ds_x d') in *. set (s4 := set_ghost (s_pts s3 ++ [x]) (s_trained s3) s3) in *. rewrite (sbind_ok _ _ _ s4 tt) in H by reflexivity.
    destruct (e_eval e x) as [f|ex|] eqn:Ee.
    2,3: unfold slift at 1, sbind at 1 in H; injection H as <- <-; cbn; split; auto; left; rewrite A1, A3, A4; repeat split; auto; right; exists x; rewrite Ee; auto.
    rewrite (sbind_ok _ _ _ s4 f) in H by reflexivity.
    set (s5 := set_evals (S (s_evals s)) (set_cur (ds_set_f f d') s4)) in *.
    rewrite (sbind_ok _ _ _ (set_cur (ds_set_f f d') s4) tt) in H by reflexivity.
    rewrite (sbind_ok _ _ _ s5 tt) in H by (unfold smod, s5; cbn; rewrite A3; reflexivity).
    assert (s_hist s5 = s_hist s /\ s_iter s5 = S (s_iter s) /\ s_evals s5 = S (s_evals s) /\ s_pts s5 = s_pts s ++ [x] /\ s_trained s5 = s_trained s ++ train_at c (S (s_iter s))) as (B1 & B2 & B3 & B4 & B5).
    { cbn. rewrite A4. repeat split; auto. }
    assert (ds_x (s_cur s5) = x /\ ds_f (s_cur s5) = f) as [B6 B7] by (split; reflexivity).
    clearbody s5 x. clear s4 s3 A1 A2 A3 A4 A5 s2 d'.
    apply sbind_inv in H as [(s6 & u & H1 & H)|[H Hr]].
    2:{ assert (c_cons c <> []) as Hc. { unfold evalConstraints in H. intros Ec. rewrite Ec in H. injection H as _ H. destruct r; discriminate. }
        apply evalConstraints_frame in H as (d1 & -> & _). cbn. split; auto. right. exists x, f. rewrite B1. repeat split; auto. left. repeat split; auto. intros; contradiction. }
    apply evalConstraints_frame in H1 as (d1 & -> & C1 & C2). clear u. rewrite B6 in C1. rewrite B7 in C2.
    destruct (improvement (s_best (set_cur d1 s5)) (ds_feas (s_cur (set_cur d1 s5))) (ds_f (s_cur (set_cur d1 s5)))) as [b im] eqn:Ei.
    set (d2 := ds_set_imp im d1) in *. set (s7 := set_best b (set_cur d2 (set_cur d1 s5))) in *.
    rewrite (sbind_ok _ _ _ s7 tt) in H by (unfold smod; rewrite Ei; reflexivity).
    rewrite (sbind_ok _ _ _ s7 d2) in H by reflexivity.
    assert (s_hist s7 = s_hist s /\ s_iter s7 = S (s_iter s) /\ s_evals s7 = S (s_evals s) /\ s_pts s7 = s_pts s ++ [x] /\ s_trained s7 = s_trained s ++ train_at c (S (s_iter s))) as (D1 & D2 & D3 & D4 & D5) by (cbn; auto).
    assert (ds_x d2 = x /\ ds_f d2 = f) as [D6 D7] by (unfold d2; cbn; auto).
    clearbody s7 d2. clear B1 B2 B3 B4 B5 B6 B7 C1 C2 Ei d1 s5 b im.
    destruct (design_hasNan d2) eqn:En; cbn [sthrow_if] in H.
    { unfold sthrow, sbind in H. injection H as <- <-. split; auto. right. exists x, f. rewrite D1. repeat split; auto. left. repeat split; auto. }
    assert (nisnan f = false) as Nf. { unfold design_hasNan in En. rewrite D7 in En. destruct (nisnan f); auto. }
    assert (forall y, In y (ds_con d2) -> nisnan y = false) as Nc.
    { intros y Hy. destruct (nisnan y) eqn:Ny; auto. assert (vec_has_nan (ds_con d2) = true) as V. { unfold vec_has_nan. apply existsb_exists. eauto. }
      unfold design_hasNan in En. rewrite V, !orb_true_r in En. discriminate. }
    rewrite (sbind_ok _ _ _ s7 tt) in H by reflexivity.
    apply sbind_inv in H as [(s8 & u & H1 & H)|[H Hr]].
    2:{ unfold slift in H. injection H as <- _. split; auto. right. exists x, f. rewrite D1. repeat split; auto. left. repeat split; auto. congruence. }
    unfold slift in H1. injection H1 as <- _. clear u.
    destruct (Nat.eq_dec (length x) (h_dim (s_hist s))) as [Lx|Lx].
    2:{ unfold sbind, in_hist, szoom in H. rewrite D1, hist_update_throws in H. 2:{ intros [F _]. apply Lx. congruence. }
        injection H as <- <-. cbn. split; auto. right. exists x, f. repeat split; auto. left. repeat split; auto. congruence. }
    destruct (le_lt_dec (h_cn (s_hist s)) (length (ds_con d2))) as [Lc|Lc].
    2:{ unfold sbind, in_hist, szoom in H. rewrite D1, hist_update_throws in H. 2:{ intros [_ F]. lia. }
        injection H as <- <-. cbn. split; auto. right. exists x, f. repeat split; auto. left. repeat split; auto. congruence. }
    destruct (hist_update_ok (s_hist s) d2 Hh) as (m & Eu & Tm & Rm & Cm). { split; auto. congruence. }
    set (s8 := set_hist (hset_data m (s_hist s)) s7) in *.
    rewrite (sbind_ok _ _ _ s8 tt) in H by (unfold in_hist, szoom; rewrite D1, Eu; reflexivity).
    destruct (trUpdate_frame s8) as (l & su & fa & bd & mu & Et). rewrite (sbind_ok _ _ _ (trUpdate s8) tt) in H by reflexivity. rewrite Et in H.
    set (s9 := set_sig bd mu (s_sigma s8) (s_coef s8) (set_tr l su fa s8)) in *.
    assert (hist_grows (s_hist s) (s_hist s9) (row_of (s_hist s) d2)) as G. { split; [exact Rm|]. split; [|cbn; auto]. split; [exact Tm|]. intros _. exact Cm. }
    assert (s_iter s9 = S (s_iter s) /\ s_evals s9 = S (s_evals s) /\ s_pts s9 = s_pts s ++ [x] /\ s_trained s9 = s_trained s ++ train_at c (S (s_iter s))) as (F2 & F3 & F4 & F5) by (cbn; auto).
    assert (forall h', hist_same (s_hist s9) h' -> hist_grows (s_hist s) h' (row_of (s_hist s) d2)) as Gs.
    { intros h' (I1 & I2 & I3 & I4). destruct G as (G1 & [G2 G2'] & G3 & G4 & G5). unfold hist_grows. rewrite I1, I2, I3, I4. split; auto. split; [|auto]. split.
      rewrite I1; auto. intros. rewrite I1. unfold hist_width. rewrite I2, I3. apply G2'. congruence. }
    assert (forall s', s_iter s' = s_iter s9 -> s_evals s' = s_evals s9 -> s_pts s' = s_pts s9 -> s_trained s' = s_trained s9 -> hist_same (s_hist s9) (s_hist s') ->
      s_iter s' = S (s_iter s) /\ (exists x f, c_how c <> 0 /\ s_evals s' = S (s_evals s) /\ s_pts s' = s_pts s ++ [x] /\ e_eval e x = Ok f /\ s_trained s' = s_trained s ++ train_at c (S (s_iter s)) /\
       ((isOk r = false /\ hist_same (s_hist s) (s_hist s') /\ (nisnan f = true -> c_cons c = [] -> r = Throw RuntimeError)) \/ exists cs imp fe, nisnan f = false /\ (forall y, In y cs -> nisnan y = false) /\ length x = h_dim (s_hist s) /\ length cs = h_cn (s_hist s) /\ hist_grows (s_hist s) (s_hist s') (history_row x f cs imp fe)))) as Fin.
    { intros t T1 T2 T3 T4 T5. rewrite T1, T2, T3, T4. split; auto. exists x, f. repeat split; auto. right.
      exists (firstn (h_cn (s_hist s)) (ds_con d2)), (ds_imp d2), (ds_feas d2). split; auto. split; [|split; auto].
      { intros y Hy. apply Nc. rewrite <- (firstn_skipn (h_cn (s_hist s))). apply in_or_app. auto. } split. rewrite firstn_length; lia.
      specialize (Gs _ T5). unfold row_of in Gs. rewrite D6, D7 in Gs. exact Gs. }
    clearbody s9. clear Et s8 l su fa bd mu.
    assert (forall (P : Prop) s', s_iter s' = s_iter s9 -> s_evals s' = s_evals s9 -> s_pts s' = s_pts s9 -> s_trained s' = s_trained s9 -> hist_same (s_hist s9) (s_hist s') -> s_iter s' = S (s_iter s) /\ (P \/ exists x f, c_how c <> 0 /\ s_evals s' = S (s_evals s) /\ s_pts s' = s_pts s ++ [x] /\ e_eval e x = Ok f /\ s_trained s' = s_trained s ++ train_at c (S (s_iter s)) /\
       ((isOk r = false /\ hist_same (s_hist s) (s_hist s') /\ (nisnan f = true -> c_cons c = [] -> r = Throw RuntimeError)) \/ exists cs imp fe, nisnan f = false /\ (forall y, In y cs -> nisnan y = false) /\ length x = h_dim (s_hist s) /\ length cs = h_cn (s_hist s) /\ hist_grows (s_hist s) (s_hist s') (history_row x f cs imp fe)))) as Fin'.
    { intros P t T1 T2 T3 T4 T5. destruct (Fin t T1 T2 T3 T4 T5). split; auto. }
    apply sbind_inv in H as [(s10 & u & H1 & H)|[H Hr]].
    - apply findOptimum_frame in H as (g & ->). unfold swhen in H1. destruct (c_var c).
      + apply sbind_inv in H1 as [(s11 & u1 & H2 & H1)|[H1 _]]; [|].
        * apply adjust_frame in H2 as (k & sg & ->). unfold smod in H1. injection H1 as <- _. apply Fin'; auto; cbn. repeat split.
        * apply adjust_frame in H1 as (k & sg & ->). apply Fin'; auto; cbn. repeat split.
      + injection H1 as <- _. apply Fin'; auto. cbn. repeat split.
    - unfold swhen in H. destruct (c_var c).
      + apply sbind_inv in H as [(s11 & u1 & H2 & H)|[H _]].
        * apply adjust_frame in H2 as (k & sg & ->). unfold smod in H. injection H as <- _. apply Fin'; auto; cbn. repeat split.
        * apply adjust_frame in H as (k & sg & ->). apply Fin'; auto; cbn. repeat split.
      + injection H as <- _. apply Fin'; auto. repeat split.
  Qed.

  (** *** The loop *)
  Definition budget (N it : nat) : nat := Nat.max 1 (N - it).
  (** what the i-th completed evaluation has left behind *)
  Definition evaluated (h : hist T) (e : env T) (x row : list T) : Prop :=
    exists f cs imp fe, e_eval e x = Ok f /\ nisnan f = false /\ (forall y, In y cs -> nisnan y = false) /\
      length x = h_dim h /\ length cs = h_cn h /\ row = history_row x f cs imp fe.
  Definition loop_result c (es : nat -> env T) (k : nat) s s' (r : Res unit) (new : list (list T * list T)) (extra : list (list T)) : Prop :=
    rows (h_data (s_hist s')) = rows (h_data (s_hist s)) ++ map snd new /\
    (forall i x row, nth_error new i = Some (x, row) -> evaluated (s_hist s) (es (k + i)) x row) /\
    s_pts s' = s_pts s ++ map fst new ++ extra /\ length extra <= 1 /\
    s_evals s + length new <= s_evals s' <= s_evals s + length new + length extra /\
    length new + length extra <= budget (c_N c) (s_iter s) /\
    (forall u, r = Ok u -> c_how c <> 0 /\ extra = [] /\ length new = budget (c_N c) (s_iter s) /\ s_iter s' = s_iter s + length new /\
      s_trained s' = s_trained s ++ flat_map (train_at c) (seq (S (s_iter s)) (length new))).
  Lemma loop_generic c es : forall fuel k s, hist_ok (s_hist s) -> budget (c_N c) (s_iter s) <= fuel ->
    exists s' r new extra, egoLoop fuel k c es s = Some (s', r) /\ loop_result c es k s s' r new extra.
  Proof.
    induction fuel as [|fuel IH]; intros k s Hh Hf. { unfold budget in Hf; lia. }
    cbn [egoLoop]. destruct (iteration c (es k) s) as [s1 r1] eqn:E. pose proof (iteration_generic c (es k) s s1 r1 Hh E) as (I1 & I2).
    assert (budget (c_N c) (s_iter s) >= 1) as Hb by (unfold budget; lia).
    destruct (isOk r1) eqn:Er.
    - destruct r1 as [u|?|]; try discriminate. destruct I2 as [[? _]|(x & f & Hw & J1 & J2 & J3 & J4 & [[? _]|(cs & imp & fe & Nf & Ncs & Lx & Lc & G)])]; try discriminate.
      destruct G as (G1 & G2 & G3 & G4 & G5).
      destruct (Nat.leb_spec (c_N c) (s_iter s1)).
      + exists s1, (Ok tt), [(x, history_row x f cs imp fe)], []. split; auto. split; auto. split.
        { intros i x' row Hi. destruct i as [|[|i]]; try discriminate Hi. injection Hi as <- <-. rewrite Nat.add_0_r. exists f, cs, imp, fe. auto 8. }
        split; auto. cbn [length seq flat_map]. split; [lia|]. split; [lia|]. split; [lia|]. intros _ _. split; auto. split; auto. split. unfold budget; lia. split; [lia|]. rewrite app_nil_r. auto.
      + assert (budget (c_N c) (s_iter s) = S (budget (c_N c) (s_iter s1))) as Eb by (unfold budget; lia).
        destruct (IH (S k) s1 G2 ltac:(lia)) as (s' & r & new & extra & E' & R1 & R2 & R3 & R4 & R5 & R6 & R7).
        exists s', r, ((x, history_row x f cs imp fe) :: new), extra. split; auto. split. { rewrite R1, G1, <- app_assoc. reflexivity. }
        split. { intros i x' row Hi. destruct i as [|i]. injection Hi as <- <-. rewrite Nat.add_0_r. exists f, cs, imp, fe. auto 8.
          cbn [nth_error] in Hi. specialize (R2 i x' row Hi). replace (k + S i) with (S k + i) by lia. destruct R2 as (f' & cs' & imp' & fe' & Q). exists f', cs', imp', fe'. rewrite <- G3, <- G4. exact Q. }
        split. { rewrite R3, J2, <- app_assoc. reflexivity. } split; auto. cbn [length]. split; [lia|]. split; [lia|].
        intros u' Hu. destruct (R7 u' Hu) as (Q1 & Q2 & Q3 & Q4 & Q5). split; auto. split; auto. split; [lia|]. split; [lia|].
        rewrite Q5, J4, I1, <- app_assoc. reflexivity.
    - assert (exists s2 r2, match r1 with Ok _ => if Nat.leb (c_N c) (s_iter s1) then Some (s1, Ok tt) else egoLoop fuel (S k) c es s1 | r => Some (s1, r) end = Some (s2, r2) /\ s2 = s1 /\ r2 = r1) as (s2 & r2 & -> & -> & ->).
      { destruct r1; try discriminate; eauto. }
      destruct I2 as [(_ & J1 & (J2 & J3) & J4 & J5)|(x & f & Hw & J1 & J2 & J3 & J4 & J5)].
      + exists s1, r1. destruct J4 as [J4|(x & J4 & _)].
        * exists [], []. split; auto. unfold loop_result. rewrite J1, J2, J4. cbn [length map app]. rewrite !app_nil_r. repeat split; auto; try lia. all: try (intros [|?]; discriminate). all: subst; discriminate.
        * exists [], [x]. split; auto. unfold loop_result. rewrite J1, J2, J4. cbn [length map app]. rewrite !app_nil_r. repeat split; auto; try lia. all: try (intros [|?]; discriminate). all: subst; discriminate.
      + exists s1, r1. destruct J5 as [(_ & (J5 & J6) & _)|(cs & imp & fe & Nf & Ncs & Lx & Lc & G)].
        * exists [], [x]. split; auto. unfold loop_result. rewrite J1, J2, J5. cbn [length map app]. rewrite !app_nil_r. repeat split; auto; try lia. all: try (intros [|?]; discriminate). all: subst; discriminate.
        * destruct G as (G1 & G2 & G3 & G4 & G5). exists [(x, history_row x f cs imp fe)], []. split; auto. unfold loop_result. rewrite J1, J2, G1. cbn [length map app]. split; auto. split.
          { intros [|[|i]] x' row Hi; try discriminate. injection Hi as <- <-. rewrite Nat.add_0_r. exists f, cs, imp, fe. auto 8. }
          split; auto. split; [lia|]. split; [lia|]. split; [lia|]. intros u ->. discriminate.
  Qed.
  (** a simulation value that is not a number ends the run without a history row *)
  Lemma nan_aborts c e s s' r x f : hist_ok (s_hist s) -> iteration c e s = (s', r) -> s_pts s' = s_pts s ++ [x] -> e_eval e x = Ok f -> nisnan f = true ->
    isOk r = false /\ (c_cons c = [] -> r = Throw RuntimeError) /\ rows (h_data (s_hist s')) = rows (h_data (s_hist s)) /\ s_evals s' = S (s_evals s).
  Proof.
    intros Hh E Hp Ee Nf. destruct (iteration_generic c e s s' r Hh E) as (I1 & [(Hr & J1 & _ & [J4|(x' & J4 & J5)] & _)|(x' & f' & _ & J1 & J2 & J3 & _ & [(J4 & [J5 _] & J6)|(? & ? & ? & J4 & _)])]).
    - exfalso. rewrite J4 in Hp. apply (f_equal (@length _)) in Hp. rewrite app_length in Hp. simpl in Hp. lia.
    - exfalso. rewrite J4 in Hp. apply app_inv_head in Hp. injection Hp as ->. rewrite Ee in J5. discriminate.
    - rewrite J2 in Hp. apply app_inv_head in Hp. injection Hp as ->. rewrite Ee in J3. injection J3 as <-. rewrite J5. auto.
    - exfalso. rewrite J2 in Hp. apply app_inv_head in Hp. injection Hp as ->. rewrite Ee in J3. injection J3 as <-. congruence.
  Qed.
End Run.
