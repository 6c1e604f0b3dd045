(** Whole runs of the optimiser in doubles: an invariant of the state, from the set-up on. *)
From Coq Require Import ZArith Bool Arith SpecFloat Reals Lra List Lia.
From Flocq Require Import Core BinarySingleNaN.
From Verif Require Import Base StM Num NumFloat FloatSpec FloatFlocq FloatProofs FloatOpt FloatDesign VecModel VecProofs MatModel MatSpec MatLemmas MatProofs MatProofs2 BoundsModel DataProofs DesignModel HistModel HistSpec HistProofs KrigModel OptModel OptProofs OptRun PropsRounding.
Import ListNotations.
Local Open Scope R_scope.

(** *** programs that end well *)
Definition hoare {S A} (P : S -> Prop) (m : SM S A) (Q : A -> S -> Prop) : Prop := forall s s' a, P s -> m s = (s', Ok a) -> Q a s'.
Lemma h_bind {S A B} (P : S -> Prop) (m : SM S A) (R : A -> S -> Prop) (k : A -> SM S B) (Q : B -> S -> Prop) : hoare P m R -> (forall a, hoare (R a) (k a) Q) -> hoare P (sbind m k) Q.
Proof. intros H1 H2 s s' b Hp H. apply sbind_inv in H as [(s1 & a & E1 & E2)|[_ ?]]; [|discriminate]. eapply H2; [|exact E2]. eapply H1; eauto. Qed.
Lemma h_mod {S} (P : S -> Prop) f (Q : unit -> S -> Prop) : (forall s, P s -> Q tt (f s)) -> hoare P (smod f) Q.
Proof. intros H s s' [] Hp E. unfold smod in E. injection E as <-. auto. Qed.
Lemma h_get {S A} (P : S -> Prop) (f : S -> A) (Q : A -> S -> Prop) : (forall s, P s -> Q (f s) s) -> hoare P (sget f) Q.
Proof. intros H s s' a Hp E. unfold sget in E. injection E as <- <-. auto. Qed.
Lemma h_lift {S A} (P : S -> Prop) (r : Res A) (Q : A -> S -> Prop) : (forall s a, P s -> r = Ok a -> Q a s) -> hoare P (slift r) Q.
Proof. intros H s s' a Hp E. apply lift_inv in E as [-> E]. auto. Qed.
Lemma h_throw {S} (P : S -> Prop) b e (Q : unit -> S -> Prop) : (forall s, P s -> b = false -> Q tt s) -> hoare P (sthrow_if b e) Q.
Proof. intros H s s' [] Hp E. destruct b; cbn in E; [discriminate|]. injection E as <-. auto. Qed.
Lemma h_assert {S} (P : S -> Prop) b (Q : unit -> S -> Prop) : (forall s, P s -> Q tt s) -> hoare P (sassert b) Q.
Proof. intros H s s' [] Hp E. destruct b; cbn in E; [|discriminate]. injection E as <-. auto. Qed.
Lemma h_when {S} (P : S -> Prop) b (m : SM S unit) (Q : unit -> S -> Prop) : hoare P m Q -> (forall s, P s -> Q tt s) -> hoare P (swhen b m) Q.
Proof. intros H1 H2 s s' [] Hp E. destruct b; cbn in E; [eapply H1; eauto|injection E as <-; auto]. Qed.
Lemma h_ret {S A} (P : S -> Prop) (a : A) (Q : A -> S -> Prop) : (forall s, P s -> Q a s) -> hoare P (sret a) Q.
Proof. intros H s s' b Hp E. unfold sret in E. injection E as <- <-. auto. Qed.
Lemma h_weak {S A} (P : S -> Prop) (m : SM S A) (Q Q' : A -> S -> Prop) : hoare P m Q -> (forall a s, Q a s -> Q' a s) -> hoare P m Q'.
Proof. intros H1 H2 s s' a Hp E. eapply H2, H1; eauto. Qed.
(** a member: whatever it becomes, P survives *)
Lemma h_zoom {K S A} (P : K -> Prop) (g : K -> S) p (m : SM S A) (Q : A -> K -> Prop) : (forall k s a, P k -> m (g k) = (s, Ok a) -> Q a (p s k)) -> hoare P (szoom g p m) Q.
Proof. intros H k k' a Hp E. unfold szoom in E. destruct (m (g k)) as [s r] eqn:Em. injection E as <- ->. eauto. Qed.
Lemma h_loop {S} (P : S -> Prop) n (f : nat -> SM S unit) : (forall i, hoare P (f i) (fun _ => P)) -> hoare P (sloop n f) (fun _ => P).
Proof.
  intros H. induction n as [|n IH]. { intros s s' [] Hp E. cbn in E. injection E as <-. auto. }
  cbn [sloop]. eapply h_bind; [apply IH|]. intros []. apply H.
Qed.

Section Run.
  Variable c : cfg F.
  Hypothesis Hd : (1 <= Z.of_nat (c_dim c) <= 2 ^ 53)%Z.
  Hypothesis Hbox : float_box (c_dim c) (c_lb c) (c_ub c).
  Notation d := (c_dim c).

  (** *** the trust region *)
  Definition size (x : F) : Prop := double x /\ finite x /\ 0 < val x <= 1.
  Definition lens (s : ost F) : Prop := size (s_trLen s) /\ size (s_trMax s) /\ size (s_trMin s).
  Lemma cap4 x : Rabs x <= 4 -> cap (rnd x).
  Proof.
    intros H. apply (cap_le _ 4); auto. change 4 with (IZR 4). apply fmt_Z. cbn. lia. change 4 with (bpow radix2 2). apply bpow_lt. lia.
  Qed.
  Lemma fmt1 : fmt 1. Proof. change 1 with (IZR 1). apply fmt_Z. cbn. lia. Qed.
  Lemma two_val : double (FofZ 2) /\ finite (FofZ 2) /\ val (FofZ 2) = 2.
  Proof. apply (ofZ_val 2). cbn. lia. Qed.
  Lemma grow_size l mx : size l -> size mx -> size (if lt_ mx (SFmul prec64 emax64 l (FofZ 2)) then mx else SFmul prec64 emax64 l (FofZ 2)).
  Proof.
    intros (D1 & F1 & V1) (D2 & F2 & V2). destruct two_val as (D3 & F3 & V3). destruct (mul_val l (FofZ 2)) as (D4 & F4 & V4); auto. { apply cap4. rewrite V3. apply Rabs_le. lra. }
    destruct (lt_ _ _) eqn:E. { repeat split; auto; lra. } split; auto. split; auto.
    assert (val (SFmul prec64 emax64 l (FofZ 2)) <= val mx). { apply Rnot_lt_le. intros L. apply (ltb_val mx) in L; auto. change (lt_ mx (SFmul prec64 emax64 l (FofZ 2))) with (SFltb mx (SFmul prec64 emax64 l (FofZ 2))) in E. congruence. }
    split; [|lra]. rewrite V4, V3. apply Rlt_le_trans with (val l); [lra|]. apply rnd_lb; [apply val_fmt; auto|lra].
  Qed.
  Lemma half_size l mn : size l -> size mn -> size (if lt_ (SFdiv prec64 emax64 l (FofZ 2)) mn then mn else SFdiv prec64 emax64 l (FofZ 2)).
  Proof.
    intros (D1 & F1 & V1) (D2 & F2 & V2). destruct two_val as (D3 & F3 & V3). destruct (div_val l (FofZ 2)) as (D4 & F4 & V4); auto. { rewrite V3. lra. } { apply cap4. rewrite V3. apply Rabs_le. lra. }
    destruct (lt_ _ _) eqn:E. { repeat split; auto; lra. } split; auto. split; auto.
    assert (val mn <= val (SFdiv prec64 emax64 l (FofZ 2))). { apply Rnot_lt_le. intros L. apply (ltb_val _ mn) in L; auto. change (lt_ (SFdiv prec64 emax64 l (FofZ 2)) mn) with (SFltb (SFdiv prec64 emax64 l (FofZ 2)) mn) in E. congruence. }
    split; [lra|]. rewrite V4, V3. apply rnd_ub; [apply fmt1|lra].
  Qed.
  Lemma trUpdate_lens s : lens s -> lens (trUpdate s).
  Proof.
    intros (A & B & C). unfold trUpdate. destruct (nltb _ _).
    - unfold trSuccess. destruct (Nat.eqb _ _); cbv zeta; cbn [nmul nofZ FNum]; (split; [|split; auto]); cbn [s_trLen set_sig set_tr]; auto. apply grow_size; auto.
    - unfold trFailure. destruct (Nat.eqb _ _); cbv zeta; cbn [ndiv nofZ FNum]; (split; [|split; auto]); cbn [s_trLen set_sig set_tr]; auto. apply half_size; auto.
  Qed.

  (** *** the best design *)
  Definition gbox (g : gopt F) : Prop := b_lo (go_box g) = c_lb c /\ b_up (go_box g) = c_ub c /\ ds_dim (go_d g) = d.
  Definition ok_point (v : list F) : Prop := forall x, In x v -> double x /\ ok_ x.
  Definition ok_rows (m : mat F) : Prop := forall r j, In r (rows m) -> (j < d)%nat -> moderate (pow2 1021) (vget r j).
  Lemma fin_ok x : finite x -> ok_ x. Proof. destruct x; intros []; discriminate. Qed.
  Lemma div_ok x y : double x -> double y -> finite x -> val y <> 0 -> ok_ (SFdiv prec64 emax64 x y).
  Proof.
    intros Dx Dy Fx Ny. destruct (ofB x Dx) as (x' & <-). destruct (ofB y Dy) as (y' & <-). rewrite div_equiv. rewrite val_B in Ny. rewrite finite_B in Fx.
    pose proof (Bdiv_correct prec64 emax64 _ _ mode_NE x' y' Ny) as H. destruct (Rlt_bool _ _).
    - destruct H as (_ & H & _). apply fin_ok, finite_B. rewrite H. exact Fx.
    - rewrite H. discriminate.
  Qed.
  Lemma norm_ok v xn : length v = d -> (forall i, (i < d)%nat -> moderate (pow2 1021) (vget v i)) -> vec_normalize v (c_lb c) (c_ub c) = Ok xn -> ok_point xn.
  Proof.
    intros Lv Hv H. unfold vec_normalize in H. destruct (_ || _)%bool; [discriminate|]. cbv zeta in H. injection H as <-. rewrite Lv.
    intros x Hx. apply (In_nth _ _ (S754_zero false)) in Hx. destruct Hx as (i & Hi & <-). rewrite vbuild_length in Hi.
    change (nth i (vbuild d ?f) (S754_zero false)) with (@vget F FNum (vbuild d f) i). rewrite vget_vbuild by auto.
    destruct Hbox as (_ & _ & B). destruct (B i Hi) as ((Dl & Fl & Ml) & (Du & Fu & Mu) & L). destruct (Hv i Hi) as (Dv & Fv & Mv).
    unfold nofnat. cbn [nmul nsub ndiv nofZ n1 FNum]. change (vget (c_lb c) i) with (ent (c_lb c) i). change (vget (c_ub c) i) with (ent (c_ub c) i).
    set (lb := ent (c_lb c) i) in *. set (ub := ent (c_ub c) i) in *. set (v0 := vget v i) in *. rewrite !pow2_b in *.
    assert (bpow radix2 1021 = 2 * bpow radix2 1020) as E1 by (change 1021%Z with (1 + 1020)%Z; rewrite bpow_plus; reflexivity).
    assert (bpow radix2 1022 = 4 * bpow radix2 1020) as E2 by (change 1022%Z with (2 + 1020)%Z; rewrite bpow_plus; reflexivity).
    assert (0 < bpow radix2 1020) as P by apply bpow_gt_0. assert (bpow radix2 1022 < big) as Bg by (apply bpow_lt; lia). assert (fmt (bpow radix2 1022)) as G2 by (apply fmt_pow; lia).
    apply Rabs_le_inv in Ml. apply Rabs_le_inv in Mu. apply Rabs_le_inv in Mv.
    destruct (sub_val v0 lb) as (D1 & F1 & V1); auto. { apply (cap_le _ (bpow radix2 1022)); auto. apply Rabs_le. lra. }
    destruct (sub_val ub lb) as (D2 & F2 & V2); auto. { apply (cap_le _ (bpow radix2 1022)); auto. apply Rabs_le. lra. }
    destruct (delta_ok d Hd _ D1 F1) as [D3 F3].
    assert (0 < val (SFsub prec64 emax64 ub lb)) as Pp.
    { rewrite V2. pose proof (sum_rel (val ub) (- val lb) (val_fmt _ Du) (generic_format_opp _ _ _ (val_fmt _ Dl))) as Q. fold (val ub - val lb) in Q. rewrite (Rabs_pos_eq (val ub - val lb)) in Q by lra.
      apply Rabs_le_inv in Q. pose proof uu_small as U. assert (uu * (val ub - val lb) <= / 1000 * (val ub - val lb)) by (apply Rmult_le_compat_r; lra). lra. }
    split. apply double_div; auto. apply div_ok; auto. lra.
  Qed.
  Lemma fromHistory_point m : ok_rows m -> hoare gbox (gopt_fromHistory m) (fun _ g => gbox g /\ ok_point (ds_xn (go_d g))).
  Proof.
    intros Hr. unfold gopt_fromHistory.
    eapply h_bind. { apply (h_get _ _ (fun g0 g => gbox g /\ g0 = g)). auto. } intros g0. cbv beta.
    eapply h_bind. { apply (h_throw _ _ _ (fun _ g => gbox g /\ g0 = g)). auto. } intros ?. cbv beta.
    eapply h_bind. { apply (h_throw _ _ _ (fun _ g => gbox g /\ g0 = g)). auto. } intros ?. cbv beta.
    eapply h_bind. { apply (h_throw _ _ _ (fun _ g => gbox g /\ g0 = g)). auto. } intros ?. cbv beta.
    eapply h_bind. { apply (h_lift _ _ (fun _ => gbox)). intros ? ? [? _]; auto. } intros fi.
    eapply h_bind. { apply (h_lift _ _ (fun r g => gbox g /\ exists i, (i < nrows m)%nat /\ r = mrow m i)). intros g r Hg E. split; auto. unfold mat_getRow in E.
      destruct (Z.leb_spec (Z.of_nat (nrows m)) (Z.of_nat (snd fi))); [discriminate|]. destruct (Z.ltb_spec (Z.of_nat (snd fi)) (-1)); [discriminate|]. destruct (Z.eqb_spec (Z.of_nat (snd fi)) (-1)); [lia|].
      destruct (Z.ltb_spec (Z.of_nat (snd fi)) 0); [lia|]. injection E as <-. exists (snd fi). split; [lia|]. rewrite Nat2Z.id. reflexivity. }
    intros r. cbv beta. eapply h_bind. { apply (h_mod _ _ (fun _ g => gbox g /\ exists i, (i < nrows m)%nat /\ r = mrow m i)). intros g [(A & B & C) Q]. split; auto. split; auto. }
    intros ?. cbv beta. unfold extract.
    eapply h_bind. { apply (h_get _ _ (fun g0 g => (gbox g /\ g0 = g) /\ exists i, (i < nrows m)%nat /\ r = mrow m i)). intros g [A B]; auto. } intros g1. cbv beta zeta.
    eapply h_bind. { apply (h_lift _ _ (fun dv g => gbox g /\ gbox g1 /\ length dv = d /\ forall i, (i < d)%nat -> moderate (pow2 1021) (vget dv i))).
      intros g dv [[Hg ->] (i & Hi & ->)] E. split; auto. split; auto. destruct Hg as (_ & _ & G3). rewrite G3 in E. unfold vec_head in E. rewrite mrow_length in E. destruct (Nat.ltb_spec (ncols m) d); [discriminate|]. injection E as <-.
      split. { rewrite firstn_length, mrow_length. lia. } intros j Hj. unfold vget. rewrite nth_firstn' . destruct (Nat.ltb_spec j d); [|lia]. apply (Hr (mrow m i) j); auto. rewrite <- (nth_rows m i []) by auto. apply nth_In. rewrite rows_length. auto. }
    intros dv. cbv beta. set (I := fun g => gbox g /\ gbox g1 /\ length dv = d /\ forall i, (i < d)%nat -> moderate (pow2 1021) (vget dv i)).
    assert (forall f, (forall s, ds_dim (f s) = ds_dim s) -> hoare I (in_god f) (fun _ => I)) as Hin. { intros f Hf. unfold in_god. apply h_mod. intros g ((A & B & C) & Q). split; auto. split; auto. split; auto. cbn. rewrite Hf. auto. }
    assert (forall A (r : Res A), hoare I (slift r) (fun _ => I)) as Hl. { intros A r0. apply h_lift. auto. }
    eapply h_bind. { apply Hin. reflexivity. } intros ?. cbv beta. eapply h_bind. { apply Hl. } intros f. eapply h_bind. { apply Hin. reflexivity. } intros ?. cbv beta. eapply h_bind. { apply Hl. } intros im.
    eapply h_bind. { apply Hin. reflexivity. } intros ?. cbv beta. eapply h_bind. { apply Hl. } intros con. eapply h_bind. { apply Hin. reflexivity. } intros ?. cbv beta.
    eapply h_bind. { apply (h_lift _ _ (fun xn g => gbox g /\ ok_point xn)). intros g xn (A & (B1 & B2 & _) & L & M) E. split; auto. rewrite B1, B2 in E. eapply norm_ok; eauto. }
    intros xn. unfold in_god. apply h_mod. intros g [(A & B & C) Q]. split. split; auto. exact Q.
  Qed.

  (** *** one iteration *)
  Definition K (s : ost F) : Prop := lens s /\ gbox (s_gopt s).
  Definition J (s : ost F) : Prop := K s /\ hist_ok (s_hist s) /\ ok_rows (h_data (s_hist s)) /\ ok_point (ds_xn (go_d (s_gopt s))).
  Lemma findOptimum_point (P : ost F -> Prop) : (forall s, P s -> K s) ->
    hoare P (findOptimum c) (fun _ s => K s /\ (ok_rows (h_data (s_hist s)) -> ok_point (ds_xn (go_d (s_gopt s))))).
  Proof.
    intros HP. unfold findOptimum. eapply h_bind. { apply (h_throw _ _ _ (fun _ => K)). auto. } intros ?. cbv beta.
    eapply h_bind. { apply (h_get _ _ (fun h s => K s /\ s_hist s = h)). auto. } intros h. cbv beta.
    eapply h_bind. { apply (h_throw _ _ _ (fun _ s => K s /\ s_hist s = h)). auto. } intros ?. cbv beta.
    unfold in_gopt. apply h_zoom. intros s g ? [[L G] Eh] E. split.
    - split. exact L. cbn. assert (gbox g) as Q; [|exact Q]. revert E.
      assert (hoare gbox (gopt_fromHistory (h_data h)) (fun _ => gbox)) as W; [|intros E; eapply W; eauto].
      unfold gopt_fromHistory, extract, in_god. repeat (eapply h_bind; [first [apply (h_get _ _ (fun _ => gbox))|apply (h_throw _ _ _ (fun _ => gbox))|apply (h_lift _ _ (fun _ => gbox))|apply (h_mod _ _ (fun _ => gbox))]; auto; intros ? (? & ? & ?); repeat split; auto|intros ?; cbv beta]).
      apply h_mod. intros ? (? & ? & ?); repeat split; auto.
    - intros Hr. cbn in *. rewrite Eh in Hr. destruct (fromHistory_point _ Hr _ _ _ G E) as [_ Q]. exact Q.
  Qed.
  Ltac kp := intros ? [? ?]; split; [assumption|assumption].
  Lemma iteration_K e : hoare K (iteration c e) (fun _ s => K s /\ (ok_rows (h_data (s_hist s)) -> ok_point (ds_xn (go_d (s_gopt s))))).
  Proof.
    unfold iteration.
    assert (forall A (r : Res A), hoare K (slift r) (fun _ => K)) as Hl by (intros A r0; apply h_lift; auto).
    assert (forall A (f : ost F -> A), hoare K (sget f) (fun _ => K)) as Hg by (intros A f; apply h_get; auto).
    eapply h_bind. { apply (h_mod _ _ (fun _ => K)). kp. } intros ?. cbv beta.
    eapply h_bind. { apply Hg. } intros it. cbv beta.
    eapply h_bind. { instantiate (1 := fun _ => K). destruct (Nat.eqb _ _); [apply Hl|]. apply h_when; auto. eapply h_bind. apply Hl. intros ?. apply h_mod. kp. } intros ?. cbv beta.
    eapply h_bind. { instantiate (1 := fun _ => K). intros s s' ? Hk E. apply findDesign_frame in E as (d' & -> & _). exact Hk. } intros ?. cbv beta.
    eapply h_bind. { apply Hg. } intros dd. cbv beta.
    eapply h_bind. { apply (h_mod _ _ (fun _ => K)). kp. } intros ?. cbv beta.
    eapply h_bind. { apply Hl. } intros f. cbv beta.
    eapply h_bind. { apply (h_mod _ _ (fun _ => K)). kp. } intros ?. cbv beta.
    eapply h_bind. { apply (h_mod _ _ (fun _ => K)). kp. } intros ?. cbv beta.
    eapply h_bind. { instantiate (1 := fun _ => K). intros s s' ? Hk E. apply evalConstraints_frame in E as (d' & -> & _). exact Hk. } intros ?. cbv beta.
    eapply h_bind. { apply (h_mod _ _ (fun _ => K)). intros s Hk. destruct (improvement _ _ _) as [b im]. exact Hk. } intros ?. cbv beta.
    eapply h_bind. { apply Hg. } intros d2. cbv beta.
    eapply h_bind. { apply (h_throw _ _ _ (fun _ => K)). auto. } intros ?. cbv beta.
    eapply h_bind. { apply Hl. } intros ?. cbv beta.
    eapply h_bind. { unfold in_hist. apply (h_zoom _ _ _ _ (fun _ => K)). intros s h ? Hk _. exact Hk. } intros ?. cbv beta.
    eapply h_bind. { apply (h_mod _ _ (fun _ => K)). intros s [H1 H2]. split. apply trUpdate_lens; auto. destruct (trUpdate_frame s) as (? & ? & ? & ? & ? & ->). exact H2. } intros ?. cbv beta.
    eapply h_bind. { instantiate (1 := fun _ => K). apply h_when; auto. eapply h_bind. { instantiate (1 := fun _ => K). intros s s' ? Hk E. apply adjust_frame in E as (k & sg & ->). exact Hk. } intros ?. cbv beta. apply h_mod. kp. } intros ?. cbv beta.
    apply findOptimum_point. auto.
  Qed.
  (** where the design of an iteration comes from *)
  Definition pres {A B} (f : ost F -> B) (m : SM (ost F) A) : Prop := forall s, f (fst (m s)) = f s.
  Lemma pres_bind {A A' B} (f : ost F -> B) (m : SM (ost F) A) (k : A -> SM (ost F) A') : pres f m -> (forall a, pres f (k a)) -> pres f (sbind m k).
  Proof. intros H1 H2 s. unfold sbind. specialize (H1 s). destruct (m s) as [s1 [a|?|]]; cbn in *; auto. rewrite <- H1. apply H2. Qed.
  Lemma pres_mod {B} (f : ost F -> B) g : (forall s, f (g s) = f s) -> pres f (smod g). Proof. intros H s. apply H. Qed.
  Lemma pres_keep {A B} (f : ost F -> B) (m : SM (ost F) A) : keeps m -> pres f m. Proof. intros H s. rewrite (H s). auto. Qed.
  Lemma trace e s s' r : iteration c e s = (s', r) -> s_pts s' = s_pts s \/
    exists s2 s3, findDesign c e s2 = (s3, Ok tt) /\ s_gopt s2 = s_gopt s /\ s_trLen s2 = s_trLen s /\ s_pts s' = s_pts s ++ [ds_x (s_cur s3)].
  Proof.
    intros H. unfold iteration in H.
    set (s1 := set_iter (S (s_iter s)) s) in H. rewrite (sbind_ok _ _ _ s1 tt) in H by reflexivity. rewrite (sbind_ok _ _ _ s1 (S (s_iter s))) in H by reflexivity.
    apply sbind_inv in H as [(s2 & u & H1 & H)|[H Hr]].
    2:{ left. assert (pres s_pts (if Nat.eqb (c_how c) 0 then slift UB else swhen (Nat.eqb (S (s_iter s) mod c_how c) 1) (run slift (e_train e); smod (fun s0 => set_init true (set_ghost (s_pts s0) (s_trained s0 ++ [S (s_iter s)]) s0))))) as W.
        { destruct (Nat.eqb _ 0). apply pres_keep, keeps_lift. unfold swhen. destruct (Nat.eqb _ 1); [|apply pres_keep, keeps_ret]. apply pres_bind. apply pres_keep, keeps_lift. intros ?. apply pres_mod. reflexivity. }
        specialize (W s1). rewrite H in W. exact W. }
    assert (s_pts s2 = s_pts s /\ s_gopt s2 = s_gopt s /\ s_trLen s2 = s_trLen s) as (A1 & A2 & A3).
    { assert (pres (fun s => (s_pts s, s_gopt s, s_trLen s)) (if Nat.eqb (c_how c) 0 then slift UB else swhen (Nat.eqb (S (s_iter s) mod c_how c) 1) (run slift (e_train e); smod (fun s0 => set_init true (set_ghost (s_pts s0) (s_trained s0 ++ [S (s_iter s)]) s0))))) as W.
      { destruct (Nat.eqb _ 0). apply pres_keep, keeps_lift. unfold swhen. destruct (Nat.eqb _ 1); [|apply pres_keep, keeps_ret]. apply pres_bind. apply pres_keep, keeps_lift. intros ?. apply pres_mod. reflexivity. }
      specialize (W s1). rewrite H1 in W. cbn [fst] in W. injection W. auto. }
    apply sbind_inv in H as [(s3 & u3 & H3 & H)|[H Hr]].
    2:{ left. apply findDesign_frame in H as (d' & -> & _). exact A1. }
    right. exists s2, s3. destruct u3. split; auto. split; auto. split; auto.
    pose proof (findDesign_frame _ _ _ _ _ H3) as (d' & E3 & _).
    rewrite (sbind_ok _ _ _ s3 (s_cur s3)) in H by reflexivity. set (s4 := set_ghost (s_pts s3 ++ [ds_x (s_cur s3)]) (s_trained s3) s3) in *. rewrite (sbind_ok _ _ _ s4 tt) in H by reflexivity.
    transitivity (s_pts s4). 2:{ unfold s4. cbn. rewrite E3. cbn. rewrite A1. reflexivity. }
    match type of H with ?m s4 = _ => assert (pres s_pts m) as W end; [|specialize (W s4); rewrite H in W; exact W].
    clear. apply pres_bind. apply pres_keep, keeps_lift. intros f. apply pres_bind. apply pres_mod; reflexivity. intros ?. apply pres_bind. apply pres_mod; reflexivity. intros ?.
    apply pres_bind. { intros s. destruct (evalConstraints c s) as [s' r] eqn:E. apply evalConstraints_frame in E as (d' & -> & _). reflexivity. } intros ?.
    apply pres_bind. { apply pres_mod. intros s. destruct (improvement _ _ _). reflexivity. } intros ?. apply pres_bind. apply pres_keep, keeps_get. intros d2. apply pres_bind. apply pres_keep, keeps_throw_if. intros ?.
    apply pres_bind. apply pres_keep, keeps_lift. intros ?. apply pres_bind. { intros s. unfold in_hist, szoom. destruct (hist_update d2 (s_hist s)). reflexivity. } intros ?.
    apply pres_bind. { apply pres_mod. intros s. destruct (trUpdate_frame s) as (? & ? & ? & ? & ? & ->). reflexivity. } intros ?.
    apply pres_bind. { unfold swhen. destruct (c_var c); [|apply pres_keep, keeps_ret]. apply pres_bind. { intros s. destruct (adjustSigma e s) as [s' r] eqn:E. apply adjust_frame in E as (k & sg & ->). reflexivity. } intros ?. apply pres_mod; reflexivity. } intros ?.
    intros s. destruct (findOptimum c s) as [s' r] eqn:E. apply findOptimum_frame in E as (g & ->). reflexivity.
  Qed.

  (** *** the loop *)
  Lemma inside_moderate x : almost_inside (pow2 (-50)) d (c_lb c) (c_ub c) x -> forall j, (j < d)%nat -> moderate (pow2 1021) (vget x j).
  Proof.
    intros (Lx & H) j Hj. destruct (H j Hj) as (A & B & C). split; [exact A|]. split; [exact B|]. change (vget x j) with (ent x j).
    destruct Hbox as (_ & _ & Q). destruct (Q j Hj) as ((_ & _ & M1) & (_ & _ & M2) & _).
    set (lb := val (ent (c_lb c) j)) in *. set (ub := val (ent (c_ub c) j)) in *.
    assert (Rmax (Rabs lb) (Rabs ub) <= pow2 1020) as MM by (apply Rmax_lub; auto).
    assert (0 <= Rmax (Rabs lb) (Rabs ub)) as M0 by (eapply Rle_trans; [apply Rabs_pos|apply Rmax_l]).
    apply Rabs_le_inv in M1. apply Rabs_le_inv in M2. assert (pow2 1021 = 2 * pow2 1020) as -> by (rewrite !pow2_b; change 1021%Z with (1 + 1020)%Z; rewrite bpow_plus; reflexivity).
    assert (0 <= pow2 (-50) <= 1) as P50. { rewrite pow2_b. split. apply bpow_ge_0. change 1 with (bpow radix2 0). apply bpow_le. lia. }
    assert (pow2 (-50) * Rmax (Rabs lb) (Rabs ub) <= 1 * pow2 1020) by (apply Rmult_le_compat; lra). apply Rabs_le. lra.
  Qed.
  Definition calm (e : env F) : Prop :=
    (forall i k, draw (e_u1 e i k)) /\ (forall i k, draw (e_u2 e i k)) /\ (forall f sg, never_wins (e_acq e f sg)) /\ (forall f sg v, double (e_ei e f sg v)).
  Hypothesis Hinc : increments d (c_disc c).
  Lemma step_ok e s s1 r : calm e -> J s -> iteration c e s = (s1, r) ->
    (s_pts s1 = s_pts s \/ exists x, s_pts s1 = s_pts s ++ [x] /\ almost_inside (pow2 (-50)) d (c_lb c) (c_ub c) x) /\ (forall u, r = Ok u -> J s1).
  Proof.
    intros (U1 & U2 & U3 & U4) (HK & Hh & Hr & Hp) E.
    assert (s_pts s1 = s_pts s \/ exists x, s_pts s1 = s_pts s ++ [x] /\ almost_inside (pow2 (-50)) d (c_lb c) (c_ub c) x) as T.
    { destruct (trace e s s1 r E) as [T|(s2 & s3 & T1 & T2 & T3 & T4)]; auto. right. exists (ds_x (s_cur s3)). split; auto.
      destruct HK as [((L1 & L2 & L3) & _) _]. apply (findDesign_inside c e s2 s3); auto; try (rewrite T3; assumption). rewrite T2. exact Hp. }
    split; auto. intros u ->. pose proof (iteration_K e s s1 u HK E) as [K1 K2].
    destruct (iteration_generic c e s s1 (Ok u) Hh E) as (_ & [(? & _)|(x & f & _ & _ & P & _ & _ & [(? & _)|(cs & imp & fe & _ & _ & _ & _ & G)])]); try discriminate.
    destruct T as [T|(x' & T & I)]. { exfalso. rewrite P in T. apply (f_equal (@length _)) in T. rewrite app_length in T. simpl in T. lia. }
    rewrite P in T. apply app_inv_head in T. injection T as ->. destruct G as (G1 & G2 & _).
    assert (ok_rows (h_data (s_hist s1))) as R1.
    { intros q j Hq Hj. rewrite G1 in Hq. apply in_app_iff in Hq as [Hq|[<-|[]]]; auto. unfold history_row, vget. rewrite app_nth1 by (destruct I as (-> & _); exact Hj). apply inside_moderate; auto. }
    split; auto. 
  Qed.
  Lemma loop_J es : (forall k, calm (es k)) -> forall fuel k s s', J s -> egoLoop fuel k c es s = Some (s', Ok tt) -> J s'.
  Proof.
    intros He. induction fuel as [|fuel IH]; intros k s s' HJ H; [discriminate|]. cbn [egoLoop] in H. destruct (iteration c (es k) s) as [s1 r1] eqn:E.
    destruct (step_ok _ _ _ _ (He k) HJ E) as [_ HJ1]. destruct r1 as [u|?|]; try discriminate. specialize (HJ1 u eq_refl). destruct (Nat.leb _ _). injection H as <-; auto. eauto.
  Qed.
  Lemma loop_inside es : (forall k, calm (es k)) -> forall fuel k s s' r, J s -> egoLoop fuel k c es s = Some (s', r) ->
    exists new, s_pts s' = s_pts s ++ new /\ forall x, In x new -> almost_inside (pow2 (-50)) d (c_lb c) (c_ub c) x.
  Proof.
    intros He. induction fuel as [|fuel IH]; intros k s s' r HJ H; [discriminate|]. cbn [egoLoop] in H. destruct (iteration c (es k) s) as [s1 r1] eqn:E.
    destruct (step_ok _ _ _ _ (He k) HJ E) as [T HJ1].
    assert (exists new, s_pts s1 = s_pts s ++ new /\ forall x, In x new -> almost_inside (pow2 (-50)) d (c_lb c) (c_ub c) x) as (new & N1 & N2).
    { destruct T as [T|(x & T & I)]. exists []. rewrite app_nil_r. split; auto. intros ? []. exists [x]. split; auto. intros ? [<-|[]]; auto. }
    destruct r1 as [u|?|]; try (injection H as <- <-; eauto). destruct (Nat.leb _ _). injection H as <- <-; eauto.
    destruct (IH _ _ _ _ (HJ1 u eq_refl) H) as (new2 & M1 & M2). exists (new ++ new2). rewrite M1, N1, app_assoc. split; auto. intros x Hx. apply in_app_iff in Hx as [Hx|Hx]; auto.
  Qed.

  (** *** the start of a run *)
  Definition good (m : mat F) : Prop := wf m /\ (d < ncols m)%nat /\ forall i j, (i < nrows m)%nat -> (j < d)%nat -> moderate (pow2 1021) (mget m i j).
  Lemma good_rows m : good m -> table m /\ ok_rows m.
  Proof.
    intros (W & C & G). split. split; auto. lia. intros r j Hr Hj. apply (In_nth _ _ []) in Hr as (i & Hi & <-). rewrite rows_length in Hi. rewrite nth_rows by auto. rewrite vget_mrow by lia. auto.
  Qed.
  Lemma good_mset m i j x : good m -> (i < nrows m)%nat -> (j < ncols m)%nat -> ((j < d)%nat -> moderate (pow2 1021) x) -> good (mset m i j x).
  Proof.
    intros (W & C & G) Hi Hj Hx. split. apply mset_wf; auto. split; auto. intros a b Ha Hb. change (nrows (mset m i j x)) with (nrows m) in Ha. rewrite mget_mset by auto.
    destruct (Nat.eqb_spec j b) as [->|]; [|rewrite andb_false_r; auto]. destruct (Nat.eqb i a); cbn [andb]; auto.
  Qed.
  Lemma good_put m i j x m' : good m -> (d <= j)%nat -> mat_put m i j x = Ok m' -> good m'.
  Proof.
    intros Hm Hj H. unfold mat_put in H. destruct (Nat.leb_spec (nrows m) i); [discriminate|]. destruct (Nat.leb_spec (ncols m) j); [discriminate|]. cbn [orb] in H. injection H as <-. apply good_mset; auto. lia.
  Qed.
  Lemma good_setCol m v k m' : good m -> ((k < d)%nat -> forall i, (i < length v)%nat -> moderate (pow2 1021) (vget v i)) -> mat_setCol m v k = Ok m' -> good m' /\ ncols m' = ncols m.
  Proof.
    intros Hm Hv H. unfold mat_setCol in H. destruct (Nat.leb_spec (ncols m) k); [discriminate|]. destruct (Nat.eqb_spec (length v) (nrows m)) as [E|]; [|discriminate]. cbn [negb] in H. injection H as <-.
    assert (good (loop (nrows m) (fun i a => mset a i k (vget v i)) m) /\ ncols (loop (nrows m) (fun i a => mset a i k (vget v i)) m) = ncols m /\ nrows (loop (nrows m) (fun i a => mset a i k (vget v i)) m) = nrows m) as (A & B & _); auto.
    apply (loop_inv (fun _ a => good a /\ ncols a = ncols m /\ nrows a = nrows m)); auto. intros i a Hi (A & B & C). split; auto. apply good_mset; auto; try lia. intros Hk. apply Hv; auto. lia.
  Qed.
  Lemma good_start m : (forall r j, In r (rows (c_data c)) -> (j < d)%nat -> moderate (pow2 1021) (ent r j)) -> startHistory c = Ok m -> good m.
  Proof.
    intros Hdat H. unfold startHistory in H. cbv zeta in H. destruct (Nat.ltb 0 _ && _)%bool; [discriminate|].
    destruct (mat_submat _ _ _ _ _); cbn [bind] in H; try discriminate.
    destruct (loopR (d + 1) _ _) as [m1|?|] eqn:E1; cbn [bind] in H; try discriminate.
    destruct (conColumns c (c_cons c) m1) as [m2|?|] eqn:E2; cbn [bind] in H; try discriminate.
    assert (good m1) as G1.
    { revert E1. apply (loopR_inv (fun _ a => good a)).
      - split. apply mat_zero_wf. split. cbn. lia. intros i j Hi Hj. cbn in Hi. rewrite mget_zero by (auto; lia). split. reflexivity. split. exact I. change (val n0) with 0. rewrite Rabs_R0, pow2_b. apply bpow_ge_0.
      - intros k t t' Hk Ht E. destruct (mat_getCol (c_data c) (Z.of_nat k)) as [v|?|] eqn:Ev; cbn [bind] in E; try discriminate.
        apply (good_setCol t v k t' Ht) in E as [E _]; auto. intros Hkd i Hi. unfold mat_getCol in Ev.
        destruct (Z.leb_spec (Z.of_nat (ncols (c_data c))) (Z.of_nat k)); [discriminate|]. destruct (Z.ltb_spec (Z.of_nat k) (-1)); [lia|]. destruct (Z.eqb_spec (Z.of_nat k) (-1)); [lia|]. destruct (Z.ltb_spec (Z.of_nat k) 0); [lia|].
        injection Ev as <-. rewrite vbuild_length in Hi. rewrite vget_vbuild by auto. rewrite Nat2Z.id. rewrite <- vget_mrow by lia. apply (Hdat (mrow (c_data c) i) k); auto. rewrite <- (nth_rows (c_data c) i []) by auto. apply nth_In. rewrite rows_length. auto. }
    assert (good m2) as G2.
    { revert G1 E2. clear. intros G1 E2. revert m1 G1 E2. generalize (c_cons c) at 1. induction l as [|oc l IH]; intros m1 G1 E2; cbn [conColumns] in E2. injection E2 as <-; auto.
      destruct (conColumn c oc m1) as [m3|?|] eqn:E3; cbn [bind] in E2; try discriminate. apply (IH m3); auto. unfold conColumn in E3. destruct (Nat.leb _ _); [discriminate|]. destruct (oc_user oc).
      - revert E3. apply (loopR_inv (fun _ a => good a)); auto. intros k t t' Hk Ht E. destruct (vec_head _ _); cbn [bind] in E; try discriminate. destruct (oc_fun _ _); cbn [bind] in E; try discriminate. revert E. apply good_put; auto. lia.
      - destruct (mat_submat _ _ _ _ _) as [xs|?|]; cbn [bind] in E3; try discriminate. revert E3. apply (loopR_inv (fun _ a => good a)); auto. intros k t t' Hk Ht E. destruct (vec_head _ _) as [x|?|]; cbn [bind] in E; try discriminate. destruct (mat_findRowIndex _ _ _) as [ix|?|]; cbn [bind] in E; try discriminate.
        destruct (if (0 <=? ix)%Z then _ else _); cbn [bind] in E; try discriminate. revert E. apply good_put; auto. lia. }
    unfold feasColumn in H. destruct (Nat.eqb _ _); [discriminate|]. destruct (Nat.eqb _ _); [discriminate|]. revert H. apply (loopR_inv (fun _ a => good a)); auto. intros k t t' Hk Ht E.
    assert (d <= ncols t - 1)%nat as Hc by (destruct Ht as (_ & ? & _); lia). destruct (c_cons c). revert E; apply good_put; auto. cbv zeta in E.
    destruct (vec_head _ _); cbn [bind] in E; try discriminate. destruct (loopR (length _) _ _); cbn [bind] in E; try discriminate. destruct (cons_feasible _ _); cbn [bind] in E; try discriminate. destruct (box_satisfied _ _ _ _); cbn [bind] in E; try discriminate. revert E. apply good_put; auto.
  Qed.
  Lemma limits : size (inv_ d) /\ size (SFmul prec64 emax64 (Flit 390625 (-8)) (inv_ d)).
  Proof.
    destruct (inv_val d Hd) as (A & B & V & C).
    assert (bpow radix2 (-53) <= val (inv_ d)) as Pd.
    { rewrite V. apply rnd_lb. apply fmt_pow; lia. change (bpow radix2 (-53)) with (/ IZR (2 ^ 53)). unfold Rdiv. rewrite Rmult_1_l. apply Rinv_le_contravar. apply IZR_lt. lia. apply IZR_le. lia. }
    pose proof (bpow_gt_0 radix2 (-53)) as P53.
    split. { split; auto. split; auto. lra. }
    set (q := S754_finite false 4503599627370496 (-61)). assert (val q = bpow radix2 (-9)) as Eq9. { unfold q. cbn [val]. change (powerRZ 2 (-61)) with (pow2 (-61)). rewrite pow2_b. replace (Z.pos 4503599627370496) with (radix2 ^ 52)%Z by reflexivity. rewrite IZR_Zpower by lia. rewrite <- bpow_plus. reflexivity. }
    assert (lt_fin q (Flit 390625 (-8)) = true) as L1 by (vm_compute; reflexivity). assert (lt_fin (Flit 390625 (-8)) (FofZ 1) = true) as L2 by (vm_compute; reflexivity).
    destruct (lt_fin_ok _ _ L1) as (_ & D & _ & Fl & V1). destruct (lt_fin_ok _ _ L2) as (_ & _ & _ & _ & V2). destruct (ofZ_val 1 ltac:(cbn; lia)) as (_ & _ & E1). rewrite Eq9 in V1. rewrite E1 in V2.
    revert D Fl V1 V2. clear L1 L2 q Eq9. generalize (Flit 390625 (-8)). intros l D Fl V1 V2. pose proof (bpow_gt_0 radix2 (-9)) as P9.
    assert (bpow radix2 (-62) <= val l * val (inv_ d)) as P. { replace (bpow radix2 (-62)) with (bpow radix2 (-9) * bpow radix2 (-53)) by (rewrite <- bpow_plus; reflexivity). apply Rmult_le_compat; lra. }
    assert (val l * val (inv_ d) <= 1) as P' by nra. pose proof (bpow_gt_0 radix2 (-62)) as P62.
    destruct (mul_val l (inv_ d)) as (D1 & F1 & Q); auto. { apply cap4. apply Rabs_le. lra. } split; auto. split; auto. rewrite Q. split. apply Rlt_le_trans with (bpow radix2 (-62)); auto. apply rnd_lb; auto. apply fmt_pow; lia. apply rnd_ub; [apply fmt1|lra].
  Qed.
  Definition P0 (s : ost F) : Prop := size (s_trLen s) /\ gbox (s_gopt s).
  Lemma startRun_J ini : (forall r j, In r (rows (c_data c)) -> (j < d)%nat -> moderate (pow2 1021) (ent r j)) -> hoare P0 (startRun c ini) (fun _ => J).
  Proof.
    intros Hdat. unfold startRun.
    eapply h_bind. { apply (h_throw _ _ _ (fun _ => P0)). auto. } intros ?. cbv beta.
    eapply h_bind. { apply (h_throw _ _ _ (fun _ => P0)). auto. } intros ?. cbv beta.
    eapply h_bind. { instantiate (1 := fun _ => P0). unfold settingsOk. eapply h_bind. { apply (h_throw _ _ _ (fun _ => P0)). auto. } intros ?. apply h_throw. auto. } intros ?. cbv beta.
    eapply h_bind. { instantiate (1 := fun _ => K). unfold initSettings. eapply h_bind. { apply (h_throw _ _ _ (fun _ => P0)). auto. } intros ?. apply h_mod. intros s [A B]. cbv zeta. split; [|exact B]. split. exact A. exact limits. } intros ?. cbv beta.
    eapply h_bind. { apply (h_lift _ _ (fun _ => K)). auto. } intros ?. cbv beta.
    eapply h_bind. { apply (h_mod _ _ (fun _ => K)). intros s [? ?]; split; assumption. } intros ?. cbv beta.
    eapply h_bind. { apply (h_zoom _ _ _ _ (fun _ => K)). intros s d' ? [? ?] _. split; assumption. } intros ?. cbv beta.
    eapply h_bind. { apply (h_mod _ _ (fun _ => K)). intros s [? ?]; split; assumption. } intros ?. cbv beta.
    unfold initHistory.
    eapply h_bind. { unfold in_hist. apply (h_zoom _ _ _ _ (fun _ => K)). intros s d' ? [? ?] _. split; assumption. } intros ?. cbv beta.
    eapply h_bind. { unfold in_hist. apply (h_zoom _ _ _ _ (fun _ => K)). intros s d' ? [? ?] _. split; assumption. } intros ?. cbv beta.
    eapply h_bind.
    { instantiate (1 := fun _ => J). unfold setHistory.
      eapply h_bind. { apply (h_lift _ _ (fun m s => K s /\ good m)). intros s m Hk E. split; auto. apply good_start; auto. } intros m. cbv beta.
      set (H1 := fun s => K s /\ hist_ok (s_hist s) /\ ok_rows (h_data (s_hist s))).
      eapply h_bind. { unfold in_hist. apply (h_zoom _ _ _ _ (fun _ => H1)). intros s h ? [[A B] G] E. destruct (good_rows m G) as [T R].
        assert (hist_ok h /\ ok_rows (h_data h)) as Q; [|split; [split; assumption|exact Q]].
        unfold hist_setData in E. rewrite (sbind_ok _ _ _ (s_hist s) (s_hist s)) in E by reflexivity.
        destruct (Nat.eqb _ 0); [discriminate E|]. rewrite (sbind_ok _ _ _ (s_hist s) tt) in E by reflexivity. destruct (mat_isEmpty m); [discriminate E|]. rewrite (sbind_ok _ _ _ (s_hist s) tt) in E by reflexivity.
        destruct (Nat.eqb_spec (ncols m) (hist_width (s_hist s))) as [W|]; [|discriminate E]. rewrite (sbind_ok _ _ _ (s_hist s) tt) in E by reflexivity. injection E as <-. split; [|exact R]. split; [exact T|]. intros _. exact W. }
      intros ?. cbv beta.
      eapply h_bind. { apply (h_get _ _ (fun _ => H1)). auto. } intros h. cbv beta.
      eapply h_bind. { apply (h_lift _ _ (fun _ => H1)). auto. } intros b. cbv beta.
      eapply h_bind. { apply (h_mod _ _ (fun _ => H1)). intros s ((? & ?) & ? & ?); split; [split; assumption|split; assumption]. } intros ?. cbv beta.
      eapply h_bind. { unfold in_hist. apply (h_zoom _ _ _ _ (fun _ => H1)). intros s h' ? ((? & ?) & Q) E. unfold hist_save in E. rewrite (sbind_ok _ _ _ (s_hist s) (s_hist s)) in E by reflexivity. destruct (mat_isEmpty _); [discriminate E|]. injection E as <-. split; [split; assumption|exact Q]. } intros ?. cbv beta.
      eapply h_bind. { unfold in_hist. apply (h_zoom _ _ _ _ (fun _ => H1)). intros s h' ? ((? & ?) & Q) E. injection E as <-. split; [split; assumption|exact Q]. } intros ?. cbv beta.
      intros s s' [] (Hk & Q1 & Q2) E. pose proof (findOptimum_point K (fun _ k => k) _ _ _ Hk E) as [K1 K2]. apply findOptimum_frame in E as (g & ->). split; [exact K1|]. split; [exact Q1|]. split; [exact Q2|]. apply K2. exact Q2. }
    intros ?. cbv beta. apply h_when; auto.
    eapply h_bind. { unfold in_hist. apply (h_zoom _ _ _ _ (fun _ => J)). intros s h' ? ((? & ?) & Q1 & Q2 & Q3) E.
      assert (h_data h' = h_data (s_hist s) /\ h_dim h' = h_dim (s_hist s) /\ h_cn h' = h_cn (s_hist s)) as (E1 & E2 & E3).
      { unfold hist_crowding in E. rewrite (sbind_ok _ _ _ (s_hist s) (s_hist s)) in E by reflexivity. cbv zeta in E. apply sbind_inv in E as [(h1 & ? & E1 & E)|[_ ?]]; [|discriminate].
        destruct (_ || _)%bool; [discriminate E1|]. injection E1 as <-. apply sbind_inv in E as [(h1 & mm & E1 & E)|[_ ?]]; [|discriminate]. apply lift_inv in E1 as [-> _].
        match type of E with smod _ _ = _ => injection E as <- end. auto. }
      split; [split; assumption|]. split. { unfold hist_ok, hist_width in *. cbn. rewrite E1, E2, E3. exact Q1. } split. { cbn. rewrite E1. exact Q2. } exact Q3. }
    intros ?. cbv beta. apply h_mod. intros s ((? & ?) & Q1 & Q2 & Q3). split; [split; assumption|]. auto.
  Qed.
  Lemma optSetup_P0 : forall s a, optSetup c ost_new = (s, Ok a) -> P0 s.
  Proof.
    assert (hoare (fun s => size (s_trLen s)) (optSetup c) (fun _ => P0)) as H.
    { unfold optSetup. set (A0 := fun s : ost F => size (s_trLen s)). set (A1 := fun s : ost F => size (s_trLen s) /\ ds_dim (go_d (s_gopt s)) = d).
      eapply h_bind. { apply (h_throw _ _ _ (fun _ => A0)). auto. } intros ?. cbv beta.
      eapply h_bind. { unfold on_god, in_gopt. apply (h_zoom _ _ _ _ (fun _ => A1)). intros s g ? A E. split; [exact A|]. unfold szoom, design_setDimension in E. destruct (Nat.eqb d 0); [discriminate|]. injection E as <-. reflexivity. } intros ?. cbv beta.
      eapply h_bind. { apply (h_zoom _ _ _ _ (fun _ => A1)). intros s g ? A E. exact A. } intros ?. cbv beta.
      eapply h_bind. { unfold in_hist. apply (h_zoom _ _ _ _ (fun _ => A1)). intros s g ? A E. exact A. } intros ?. cbv beta.
      eapply h_bind. { apply (h_loop A1). intros i. unfold on_god, in_gopt. apply h_zoom. intros s g ? [A B] E. split; [exact A|]. unfold szoom, design_setNumberOfConstraints in E. destruct (Nat.eqb _ 0); [discriminate|]. injection E as <-. exact B. } intros ?. cbv beta.
      eapply h_bind. { apply (h_throw _ _ _ (fun _ => A1)). auto. } intros ?. cbv beta.
      eapply h_bind. { apply (h_throw _ _ _ (fun _ => A1)). auto. } intros ?. cbv beta.
      eapply h_bind. { apply (h_assert _ _ (fun _ => A1)). auto. } intros ?. cbv beta.
      unfold in_gopt. apply h_zoom. intros s g ? [A B] E. split; [exact A|]. unfold gopt_setBox in E.
      apply sbind_inv in E as [(g1 & ? & E1 & E)|[_ ?]]; [|discriminate]. unfold sget in E1. apply pair_equal_spec in E1 as [<- E1]. injection E1 as <-.
      cbv beta in E. destruct (negb (b_set _)); [discriminate E|]. rewrite (sbind_ok _ _ _ (s_gopt s) tt) in E by reflexivity.
      destruct (negb (Nat.eqb _ _)); [discriminate E|]. rewrite (sbind_ok _ _ _ (s_gopt s) tt) in E by reflexivity. injection E as <-. split; auto. }
    intros s a E. refine (H _ _ _ _ E). assert (lt_fin (FofZ 0) (Flit 8 (-1)) = true) as L1 by (vm_compute; reflexivity). assert (lt_fin (Flit 8 (-1)) (FofZ 1) = true) as L2 by (vm_compute; reflexivity).
    destruct (lt_fin_ok _ _ L1) as (_ & D & _ & Fl & V1). destruct (lt_fin_ok _ _ L2) as (_ & _ & _ & _ & V2). destruct (ofZ_val 0 ltac:(cbn; lia)) as (_ & _ & E0). destruct (ofZ_val 1 ltac:(cbn; lia)) as (_ & _ & E1). rewrite E0 in V1. rewrite E1 in V2.
    split. exact D. split. exact Fl. change (s_trLen ost_new) with (Flit 8 (-1)). lra.
  Qed.
  Lemma pres_zoom {K A B} (f : ost F -> B) (g : ost F -> K) p (m : SM K A) : (forall k s, f (p k s) = f s) -> pres f (szoom g p m).
  Proof. intros H s. unfold szoom. destruct (m (g s)). apply H. Qed.
  Lemma pres_loop {B} (f : ost F -> B) n (m : nat -> SM (ost F) unit) : (forall i, pres f (m i)) -> pres f (sloop n m).
  Proof. intros H. induction n as [|n IH]; cbn [sloop]. apply pres_keep, keeps_ret. apply pres_bind; auto. Qed.
  Lemma pres_when {B} (f : ost F -> B) b (m : SM (ost F) unit) : pres f m -> pres f (swhen b m).
  Proof. intros H. destruct b; auto. intros s. reflexivity. Qed.
  Ltac prs := repeat first
    [ apply pres_bind; [|intros ?] | apply pres_keep, keeps_lift | apply pres_keep, keeps_get | apply pres_keep, keeps_throw_if
    | apply pres_mod; reflexivity | apply pres_zoom; reflexivity | apply pres_when | apply pres_loop; intros ? ].
  Lemma start_pts ini : pres s_pts (startRun c ini).
  Proof.
    unfold startRun, settingsOk, initSettings, initHistory, setHistory, on_cur, in_hist. prs.
  Qed.
  Lemma setup_pts : pres s_pts (optSetup c).
  Proof. unfold optSetup, on_god, in_gopt, in_hist. prs. intros s. destruct (c_objset c); reflexivity. Qed.
End Run.
