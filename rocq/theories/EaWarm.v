(** Runs that continue a population read from a file, and the population a completed run leaves for a file. *)
From Coq Require Import Ascii String ZArith Bool Arith Reals Lra List Lia.
From Verif Require Import Base StM Num RealNum RSpec VecModel MatModel MatSpec VecReal PropsStat StrModel StrSpec ExtModel CsvModel CsvSpec DriverDemo
  EaModel EaProofs EaRun EaReal EaDemo EaFileModel EaFileSpec EaFileProofs.
Import ListNotations.

Section Last.
  Context {T : Type} {NT : Num T}.
  Variable c : econf T.
  (** as [loop_ind], with the state before the last update *)
  Lemma loop_last (P : nat -> nat -> ea T -> Prop) ws
    (Hb : forall g k e e', P g (g * c_deaths c) e -> ea_births c (g_births (ws k)) e = Ok (Some e') -> P (S g) (g * c_deaths c) e')
    (Hu : forall g d e p, P g d e -> pop_update (e_pop e) = Ok p -> P g d (with_pop p e))
    (Hk : forall g d k j e e', P g d e -> updated (e_pop e) -> ea_kill (g_deaths (ws k) j) e = Ok e' -> P g (S d) e')
    (Hr : forall g d e, P g d e -> P g d (with_pop (pop_recompute (e_pop e)) e)) :
    forall n k g e e', P g (g * c_deaths c) e -> ea_loop c ws k (S n) e = Ok (Some e') ->
    exists j f p, P (g + S j) ((g + S j) * c_deaths c) f /\ pop_update (e_pop f) = Ok p /\ e' = with_pop (pop_recompute p) f.
  Proof.
    assert (forall k g e e', P g (g * c_deaths c) e -> ea_generation c (ws k) e = Ok (Some e') ->
      exists f p, P (S g) (S g * c_deaths c) f /\ pop_update (e_pop f) = Ok p /\ e' = with_pop (pop_recompute p) f) as HG.
    { intros k g e e' HP H. unfold ea_generation in H. ok_step H. destruct a as [e1|]; [|discriminate].
      apply (Hb _ _ _ _ HP) in E. ok_step H. ok_step H. ok_step H. injection H as <-.
      pose proof (Hu _ _ _ _ E E0) as H1. unfold ea_deaths in E1.
      assert (P (S g) (g * c_deaths c + c_deaths c) a0 /\ updated (e_pop a0)) as [H2 _].
      { refine (loopR_inv (fun j e => P (S g) (g * c_deaths c + j) e /\ updated (e_pop e)) _ _ _ _ _ _ E1).
        - rewrite Nat.add_0_r. split. exact H1. exists (e_pop e1). exact E0.
        - intros j t t' _ [Ht Hu'] Hk'. split. rewrite <- plus_n_Sm. eapply Hk; eauto.
          apply kill_spec in Hk'. destruct Hk' as (i & rm & p & q & _ & _ & _ & _ & Hq & ->). exists p. exact Hq. }
      exists a0, a1. split; [|split; [exact E2|reflexivity]]. cbn. rewrite Nat.add_comm. exact H2. }
    induction n; intros k g e e' HP H; cbn [ea_loop] in H; ok_step H; (destruct a as [e1|]; [|discriminate]); pose proof (HG _ _ _ _ HP E) as (f & p & H1 & H2 & H3).
    - exists 0, f, p. rewrite Nat.add_1_r. split; [exact H1|]. split; [exact H2|]. destruct (Nat.leb _ _); injection H as <-; exact H3.
    - destruct (Nat.leb_spec (c_max c) (e_total e1)) as [Hm|Hm].
      + injection H as <-. exists 0, f, p. rewrite Nat.add_1_r. auto.
      + assert (P1 : P (S g) (S g * c_deaths c) e1). { rewrite H3. exact (Hr _ _ _ (Hu _ _ _ _ H1 H2)). }
        apply (IHn _ _ _ _ P1) in H. destruct H as (j & f' & p' & A & B & D). exists (S j), f', p'. replace (g + S (S j)) with (S g + S j) by lia. auto.
  Qed.
End Last.

(** the dimension of the population never changes *)
Lemma addGroup_dim (p q : pop R) is : pop_addGroup p is = Ok q -> p_dim q = p_dim p.
Proof. intros H. refine (addGroup_ind (fun q => p_dim q = p_dim p) is p q eq_refl _ H). intros q0 i q1 E _ A. apply add_dim in A. congruence. Qed.
Lemma minmax_dim (J : R) id p : p_dim (pop_minmax J id p) = p_dim p.
Proof. unfold pop_minmax. destruct (_ >! _), (_ <! _); reflexivity. Qed.
Lemma recompute_dim (p : pop R) : p_dim (pop_recompute p) = p_dim p.
Proof.
  unfold pop_recompute. assert (H : forall l q, p_dim (fold_left (fun (q : pop R) i => pop_minmax (i_obj i) (i_id i) q) l q) = p_dim q).
  { induction l as [|i l IH]; intros q; cbn; [reflexivity|]. rewrite IH. apply minmax_dim. } rewrite H. reflexivity.
Qed.
Lemma removed_dim (p q : pop R) id : pop_removeById p id = Ok q -> p_dim q = p_dim p.
Proof. intros H. apply removeById_spec in H. destruct H as (a & x & b & _ & _ & _ & ->). destruct (_ || _); [rewrite recompute_dim|]; reflexivity. Qed.

Section Kept.
  Variable c : econf R.
  Open Scope R_scope.
  Lemma dbl_small : @ndblmin R RNum <= / 10000000000000.
  Proof.
    cbn [ndblmin RNum]. change (-1022)%Z with (- Z.of_nat 1022)%Z. rewrite powerRZ_neg', <- pow_powerRZ. apply Rinv_le_contravar; [lra|].
    assert (2 ^ 50 <= 2 ^ 1022) as B by (apply Rle_pow; [lra|lia]). assert (10000000000000 <= 2 ^ 50) as C by (simpl; lra). lra.
  Qed.
  Lemma dbl_big : 1000000 <= @ndblmax R RNum.
  Proof. pose proof (range_max 1000000) as H. rewrite Rabs_pos_eq in H by lra. apply H. lra. Qed.
  (** every number of a rated population that the run made is well inside the range of double *)
  Lemma small_range (x : R) (n : nat) : (Z.of_nat n <= 2147483647)%Z -> (1 <= n)%nat -> 1 / (100 * INR n) <= x <= 100 -> printable x.
  Proof.
    intros L P [A B]. right. pose proof dbl_small as RM. pose proof dbl_big as RX.
    assert (N : INR n <= 2147483647). { rewrite INR_IZR_INZ. apply IZR_le. exact L. }
    assert (N1 : 1 <= INR n). { change 1 with (INR 1). now apply le_INR. }
    assert (K : 1 / 1000000000000 <= x). { eapply Rle_trans; [|exact A]. unfold Rdiv. rewrite !Rmult_1_l. apply Rinv_le_contravar; nra. }
    rewrite Rabs_pos_eq by lra. lra.
  Qed.
  Lemma total_le (l : list R) b : (forall x, In x l -> x <= b) -> total l <= INR (length l) * b.
  Proof.
    induction l as [|a l IH]; intros H; [cbn; lra|]. change (total (a :: l)) with (a + total l). cbn [length]. rewrite S_INR. specialize (IH (fun x I => H x (or_intror I))). specialize (H a (or_introl eq_refl)). lra.
  Qed.
  Lemma total_ge (l : list R) b : (forall x, In x l -> b <= x) -> INR (length l) * b <= total l.
  Proof.
    induction l as [|a l IH]; intros H; [cbn; lra|]. change (total (a :: l)) with (a + total l). cbn [length]. rewrite S_INR. specialize (IH (fun x I => H x (or_intror I))). specialize (H a (or_introl eq_refl)). lra.
  Qed.
  Lemma rated_kept p0 p : rated p0 p -> p_min p0 < p_max p0 -> (forall i, In i (p_inds p) -> p_min p0 <= i_obj i <= p_max p0) -> (Z.of_nat (length (p_inds p)) <= 2147483647)%Z ->
    forall i, In i (p_inds p) -> printable (i_fit i) /\ printable (i_rep i) /\ printable (i_death i) /\ 0 < i_rep i <= 1 - / 1000000000 /\ 0 <= i_death i <= 1.
  Proof.
    intros RT LT BD LN i I. assert (NE : p_inds p <> []) by (intros Z; rewrite Z in I; destruct I). pose proof (rated_two _ _ RT NE) as N2.
    set (n := length (p_inds p)) in *. assert (P1 : 1 <= INR n). { change 1 with (INR 1). apply le_INR. lia. } assert (P2 : 2 <= INR n). { change 2 with (INR 2). now apply le_INR. }
    assert (FT : forall j, In j (p_inds p) -> 1 / 100 <= i_fit j <= 1). { intros j J. destruct (rt_fit _ _ RT j J) as [-> _]. apply quad_range; auto. }
    assert (T1 : total (map i_fit (p_inds p)) <= INR n). { rewrite <- (Rmult_1_r (INR n)). unfold n. rewrite <- (map_length i_fit). apply total_le. intros x X. apply in_map_iff in X. destruct X as (j & <- & J). apply FT; auto. }
    assert (T2 : i_fit i + 1 / 100 <= total (map i_fit (p_inds p))).
    { clear - I FT N2. unfold n in N2. clear n. apply in_split in I. destruct I as (a & b & E). rewrite E in *. rewrite map_app, total_app. cbn [map]. change (total (i_fit i :: map i_fit b)) with (i_fit i + total (map i_fit b)). rewrite app_length in N2. cbn [length] in N2.
      assert (GA : INR (length (map i_fit a)) * (1 / 100) <= total (map i_fit a)). { apply total_ge. intros x X. apply in_map_iff in X. destruct X as (j & <- & J). apply FT. apply in_or_app. auto. }
      assert (GB : INR (length (map i_fit b)) * (1 / 100) <= total (map i_fit b)). { apply total_ge. intros x X. apply in_map_iff in X. destruct X as (j & <- & J). apply FT. apply in_or_app. right. now right. }
      rewrite map_length in GA, GB. assert (1 <= INR (length a) + INR (length b)). { rewrite <- plus_INR. change 1 with (INR 1). apply le_INR. lia. } lra. }
    destruct (FT i I) as [F1 F2]. destruct (rt_rep _ _ RT i I) as [RE RB]. destruct (rt_death _ _ RT) as (q & _ & DD). destruct (DD i I) as [DE DB].
    assert (RL : 1 / (100 * INR n) <= i_rep i).
    { rewrite RE. apply (Rmult_le_reg_r (100 * INR n)); [nra|]. apply (Rmult_le_reg_r (total (map i_fit (p_inds p)))); [lra|]. field_simplify; [|lra|nra]. nra. }
    split; [apply (small_range _ n); auto; [lia|]; split; [|lra]; apply (Rmult_le_reg_r (100 * INR n)); [nra|]; field_simplify; [nra|nra]|].
    split; [apply (small_range _ n); auto; [lia|lra]|]. split; [|split; [|exact DB]].
    - rewrite DE. unfold wt at 1. destruct (Rltb q (i_fit i)) eqn:EW; [left; unfold Rdiv; lra|].
      assert (W1 : total (map (wt q) (map i_fit (p_inds p))) <= INR n * 100).
      { unfold n. rewrite <- (map_length i_fit), <- (map_length (wt q)). apply total_le. intros x X. apply in_map_iff in X. destruct X as (f & <- & X). apply in_map_iff in X. destruct X as (j & <- & J). destruct (FT j J). unfold wt. case (Rltb q (i_fit j)); [lra|].
        unfold Rdiv. rewrite Rmult_1_l. rewrite <- (Rinv_inv 100). apply Rinv_le_contravar; lra. }
      assert (IF : 1 <= 1 / i_fit i). { unfold Rdiv. rewrite Rmult_1_l, <- Rinv_1 at 1. apply Rinv_le_contravar; lra. }
      assert (W2 : 1 / i_fit i <= total (map (wt q) (map i_fit (p_inds p)))).
      { apply total_member. { intros x X. apply in_map_iff in X. destruct X as (f & <- & X). apply in_map_iff in X. destruct X as (j & <- & J). destruct (FT j J). unfold wt. case (Rltb q (i_fit j)); [lra|]. unfold Rdiv. rewrite Rmult_1_l. left. apply Rinv_0_lt_compat. lra. }
        apply in_map_iff. exists (i_fit i). split; [unfold wt; rewrite EW; reflexivity|]. now apply in_map. }
      apply (small_range _ n); auto; [lia|]. set (W := total (map (wt q) (map i_fit (p_inds p)))) in *. set (v := 1 / i_fit i) in *. clearbody W v. split.
      + apply (Rmult_le_reg_r (100 * INR n * W)); [nra|]. replace (1 / (100 * INR n) * (100 * INR n * W)) with W by (field; lra). replace (v / W * (100 * INR n * W)) with (v * (100 * INR n)) by (field; lra). nra.
      + apply (Rmult_le_reg_r W); [lra|]. replace (v / W * W) with v by (field; lra). nra.
    - split; [lra|]. rewrite RE. set (W := total (map i_fit (p_inds p))) in *. clearbody W. apply (Rmult_le_reg_r W); [lra|]. replace (i_fit i / W * W) with (i_fit i) by (field; lra). nra.
  Qed.

  Definition dim_inv (g d : nat) (e : ea R) : Prop := run_inv c g d e /\ p_dim (e_pop e) = c_dim c /\ forall i, In i (p_inds (e_hist e)) -> length (i_genes i) = c_dim c /\ c_f c (i_genes i) = Ok (i_obj i).
  Lemma initialize_kept us e : ea_initialize c us (ea_new (c_dim c)) = Ok e -> dim_inv 0 0 e.
  Proof.
    intros H. split; [exact (inv_init c _ _ _ H)|]. apply initialize_spec in H. destruct H as (l & p & h & q & _ & _ & HR & AP & AH & UP & _ & ->). cbn [e_pop e_hist].
    apply addGroup_dim in AP. apply update_dims in UP. destruct UP as [UP _]. split; [cbn in AP; congruence|]. apply addGroup_inds in AH. rewrite AH. cbn. intros i I. destruct (HR i I) as (k & t & HK).
    unfold ea_random in HK. ok_steps HK. apply call_spec in HK. destruct HK as (A & B & _ & D). rewrite B. auto.
  Qed.
  Lemma final_state us ws e : ea_optimize c us ws (ea_new (c_dim c)) = Ok (Some e) -> exists g f p, dim_inv g (g * c_deaths c) f /\ pop_update (e_pop f) = Ok p /\ e = with_pop (pop_recompute p) f.
  Proof.
    unfold ea_optimize. intros H. ok_step H. cbn [e_pop e_gen e_rem e_hist e_init ea_new] in H. fold (ea_new (T:=R) (c_dim c)) in H. ok_step H. ok_step H.
    destruct a1 as [e1|]; [|discriminate]. ok_step H. injection H as <-. apply initialize_kept in E0.
    assert (c_gens c <> 0%nat) as Hg. { intros Z. unfold ec_check in E. rewrite Z in E. ok_steps E. }
    destruct (c_gens c) as [|n] eqn:EG; [lia|].
    destruct (loop_last c dim_inv ws) with (n := n) (k := 0%nat) (g := 0%nat) (e := a0) (e' := e1) as (j & f & p & A & B & D); auto.
    - intros g k e e' (RI & DM & HH) BR. split; [eapply inv_births; eauto|]. apply births_spec in BR. destruct BR as (l0 & l & p & gn & h & HC & HF & _ & _ & AP & _ & AH & ->). cbn [e_pop e_hist].
      apply addGroup_dim in AP. split; [congruence|]. apply addGroup_inds in AH. rewrite AH. intros i I. apply in_app_or in I. destruct I as [I|I]; auto.
      destruct (forall2_in_r _ _ _ _ HF I) as (j & J1 & J2). apply call_spec in J2. destruct J2 as (J2 & J3 & _ & J4). rewrite J3. auto.
    - intros g d e p (RI & DM & HH) UP. split; [eapply inv_update; eauto|]. apply update_dims in UP. destruct UP as [UP _]. split; [cbn; congruence|exact HH].
    - intros g d k j e e' (RI & DM & HH) _ KL. split; [eapply inv_kill; eauto|]. apply kill_spec in KL. destruct KL as (i & rm & p & q & _ & _ & _ & RM & UP & ->). cbn [e_pop e_hist]. apply removed_dim in RM. apply update_dims in UP. destruct UP as [UP _]. split; [congruence|exact HH].
    - intros g d e (RI & DM & HH). split; [apply inv_recompute; exact RI|]. split; [cbn; rewrite recompute_dim; exact DM|exact HH].
    - exists (0 + S j)%nat, f, p. auto.
  Qed.
  Lemma final_kept us ws e : ea_optimize c us ws (ea_new (c_dim c)) = Ok (Some e) -> (Z.of_nat (e_total e) <= 2147483647)%Z ->
    (forall i, In i (p_inds (e_hist e)) -> printable (i_obj i)) -> (forall i g, In i (p_inds (e_pop e)) -> In g (i_genes i) -> printable g) ->
    p_dim (e_pop e) = c_dim c /\ forall i, In i (p_inds (e_pop e)) -> keepable (c_dim c) i.
  Proof.
    intros H TL PF PG. destruct (final_state us ws e H) as (g & f & p & ((BK & EX) & DM & HH) & UP & ->). cbn [with_pop e_pop e_total e_hist] in *. rewrite recompute_inds, recompute_dim in *.
    pose proof (update_dims _ _ UP) as [UD _]. split; [congruence|]. pose proof (update_core _ _ UP) as [UC UE].
    assert (FH : finite (e_hist f)).
    { intros i I. apply PF in I. pose proof dbl_big as RX. change (Rltb (i_obj i) ndblmax = true). destruct (Rltb_spec (i_obj i) ndblmax) as [L|L]; [reflexivity|exfalso]. destruct I as [Z|[_ Z]]; [lra|]. pose proof (Rle_abs (i_obj i)). lra. }
    destruct (EX FH) as [(M1 & _ & M3) (X1 & _ & X3)].
    assert (FR : forall i, In i (p_inds p) -> exists j, In j (p_inds (e_pop f)) /\ core j = core i).
    { intros i I. apply cores_in in I. rewrite UC in I. unfold cores in I. apply in_map_iff in I. destruct I as (j & E & J). eauto. }
    assert (BD : forall i, In i (p_inds p) -> p_min (e_pop f) <= i_obj i <= p_max (e_pop f)).
    { intros i I. destruct (FR i I) as (j & J & E). injection E as _ _ <-. specialize (M1 j J). specialize (X1 j J). change (Rltb (i_obj j) (p_min (e_pop f)) = false) in M1. change (Rltb (p_max (e_pop f)) (i_obj j) = false) in X1.
      destruct (Rltb_spec (i_obj j) (p_min (e_pop f))); [discriminate|]. destruct (Rltb_spec (p_max (e_pop f)) (i_obj j)); [discriminate|]. lra. }
    pose proof (update_rated _ _ UP) as RT. pose proof (bk_pop _ _ _ _ BK) as BP. pose proof (bk_total _ _ _ _ BK) as BT.
    assert (LN : length (p_inds p) = length (p_inds (e_pop f))) by now apply cores_len.
    intros i I. assert (LT : p_min (e_pop f) < p_max (e_pop f)). { pose proof (rt_ne _ _ RT). destruct (BD i I). lra. }
    destruct (rated_kept (e_pop f) p RT LT BD) with (i := i) as (K1 & K2 & K3 & K4 & K5); [lia|exact I|].
    destruct (FR i I) as (j & J & E). assert (JH : exists h, In h (p_inds (e_hist f)) /\ core h = core j).
    { apply cores_in in J. apply (subl_in _ _ _ (bk_sub _ _ _ _ BK)) in J. unfold cores in J. apply in_map_iff in J. destruct J as (h & A & B). eauto. }
    destruct JH as (h & H1 & H2). rewrite E in H2. injection H2 as HI HG HO. destruct (HH h H1) as [GL GF].
    assert (ID : (i_id h < S (e_total f))%nat).
    { pose proof (in_map i_id _ _ H1) as IM. rewrite (bk_ids _ _ _ _ BK) in IM. rewrite BT. apply in_app_or in IM. destruct IM as [IM|IM]; apply in_seq in IM; lia. }
    split; [lia|]. split; [congruence|]. split; [intros x X; eapply PG; eauto|]. split; [rewrite <- HO; apply PF; exact H1|]. tauto.
  Qed.
End Kept.

(** ** A run that starts from the population of a file *)
Lemma read_extremes name fs d (p : pop R) : pop_readFromCSV name fs (pop_new d) = (p, Ok tt) -> (forall i, In i (p_inds p) -> exists l, row_of d l i) /\ p_dim p = d /\ pop_addGroup (pop_new d) (p_inds p) = Ok p.
Proof.
  unfold pop_readFromCSV, sbind at 1, sthrow_if. destruct (is_empty name); [discriminate|]. unfold sret. destruct (fs name) as [t|]; [|discriminate]. unfold sbind, smod. destruct (pieces nl t) as [|h ls]; [discriminate|]. intros H.
  assert (K : forall ls (p0 q : pop R), p_dim p0 = d -> read_lines ls p0 = (q, Ok tt) -> exists is, Forall2 (row_of d) ls is /\ pop_addGroup p0 is = Ok q).
  { clear. induction ls as [|l ls IH]; intros p0 q D H; cbn [read_lines] in H. { injection H as <-. exists []. split; [constructor|reflexivity]. }
    unfold sbind, sget, slift, smod in H. destruct (read_ind (p_dim p0) l) as [i| |] eqn:RI; [|discriminate|discriminate]. destruct (pop_add p0 i) as [p1| |] eqn:AD; [|discriminate|discriminate].
    rewrite D in RI. apply read_ind_iff in RI. destruct (IH p1 q) as (is & F & G); [apply add_dim in AD; congruence|exact H|]. exists (i :: is). split; [now constructor|]. cbn [pop_addGroup]. rewrite AD. exact G. }
  destruct (K ls (pset_inds [] (pop_new d)) p eq_refl H) as (is & F & G). change (pset_inds [] (pop_new d)) with (pop_new (T:=R) d) in G. pose proof (addGroup_inds _ _ _ G) as GI. cbn in GI. rewrite GI. split; [|split; [apply addGroup_dim in G; exact G|exact G]].
  intros i I. destruct (forall2_in_r _ _ _ _ F I) as (l & _ & R0). eauto.
Qed.
Section Warm.
  Variable c : econf R.
  Variable p1 : pop R.
  Notation m := (c_new c).
  Record wbook (g d : nat) (e : ea R) : Prop := mkWb {
    wb_pop : length (p_inds (e_pop e)) + d = length (p_inds p1) + g * m;
    wb_total : e_total e = g * m;
    wb_ids : map i_id (p_inds (e_hist e)) = seq 0 (g * m);
    wb_in : forall i, In i (p_inds (e_pop e)) -> In (core i) (cores p1) \/ In (core i) (cores (e_hist e));
    wb_gen : p_inds (e_gen e) = p_inds (e_hist e);
    wb_rem : length (p_inds (e_rem e)) = d;
    wb_remin : forall i, In i (p_inds (e_rem e)) -> In (core i) (cores p1) \/ In (core i) (cores (e_hist e));
    wb_sound : forall i, In i (p_inds (e_hist e)) -> sound c (core i);
    wb_ext : finite p1 -> finite (e_hist e) -> min_ok (e_pop e) /\ max_ok (e_pop e) }.
  Hypothesis P1 : pop_addGroup (pop_new (c_dim c)) (p_inds p1) = Ok p1.
  Hypothesis LG : forall i, In i (p_inds p1) -> length (i_genes i) = c_dim c.
  Lemma in_core (p : pop R) x : In x (cores p) -> exists i, In i (p_inds p) /\ core i = x.
  Proof. unfold cores. rewrite in_map_iff. intros (i & E & I). eauto. Qed.
  Lemma wb_finite g d e : wbook g d e -> finite p1 -> finite (e_hist e) -> finite (e_pop e).
  Proof.
    intros B F1 F2 i I. apply (wb_in _ _ _ B) in I. destruct I as [I|I]; apply in_core in I; destruct I as (j & J & E); injection E as _ _ <-; auto.
  Qed.
  Lemma wb_start : wbook 0 0 (mkEA p1 (pop_new (c_dim c)) (pop_new (c_dim c)) (pop_new (c_dim c)) 0 true).
  Proof.
    split; cbn [e_pop e_gen e_rem e_hist e_total p_inds pop_new length]; auto; try tauto; try lia.
    - intros i I. left. apply cores_in. exact I.
    - intros i [].
    - intros F _. split; [eapply (addGroup_min (p_inds p1)); [apply new_min|exact F|exact P1]|eapply (addGroup_max (p_inds p1)); [apply new_max|exact P1]].
  Qed.
  Lemma wb_births g d ws e e' : wbook g d e -> ea_births c ws e = Ok (Some e') -> wbook (S g) d e'.
  Proof.
    intros B H. apply births_spec in H. destruct H as (l0 & l & p & gn & h & HC & HF & L1 & L2 & Ep & Eg & Eh & ->).
    pose proof (addGroup_inds _ _ _ Ep) as Ip. apply addGroup_inds in Eg. apply addGroup_inds in Eh. pose proof (wb_total _ _ _ B) as WT.
    assert (SN : forall i, In i l -> sound c (core i)).
    { intros i Hi. destruct (forall2_in_r _ _ _ _ HF Hi) as (j & J1 & J2). apply children_spec in HC. destruct HC as (_ & _ & HC). destruct (HC j J1) as (k' & HK). apply call_spec in J2. destruct J2 as (J2 & J3 & _). split; cbn; rewrite J3; auto.
      eapply child_inside; [|exact HK]. intros x Hx. apply (wb_in _ _ _ B) in Hx. destruct Hx as [Hx|Hx]; apply in_core in Hx; destruct Hx as (y & Y1 & Y2); injection Y2 as _ Y3 _; rewrite <- Y3; [apply LG; exact Y1|]. apply (wb_sound _ _ _ B) in Y1. apply (proj1 (proj1 Y1)). }
    destruct B as [B1 B2 B3 B4 B5 B6 B7 B8 B9].
    assert (CH : forall x, In x (cores (e_hist e)) -> In x (cores h)). { intros x X. unfold cores. rewrite Eh, map_app. apply in_or_app. now left. }
    split; cbn [e_pop e_gen e_rem e_hist e_total].
    - rewrite Ip, app_length. cbn. lia.
    - cbn. lia.
    - rewrite Eh, map_app, B3, L2, B2, <- seq_app. f_equal. cbn. lia.
    - intros i I. rewrite Ip in I. apply in_app_or in I. destruct I as [I|I]. { apply B4 in I. destruct I; auto. } right. unfold cores. rewrite Eh, map_app. apply in_or_app. right. now apply in_map.
    - rewrite Eg, Eh, B5. reflexivity.
    - exact B6.
    - intros i I. apply B7 in I. destruct I; auto.
    - intros i I. rewrite Eh in I. apply in_app_or in I. destruct I; auto.
    - intros F1 F2. assert (F0 : finite (e_hist e)). { intros i I. apply F2. rewrite Eh. apply in_or_app. auto. } destruct (B9 F1 F0) as [K1 K2].
      split; [eapply (addGroup_min l _ p); [exact K1| |exact Ep]|eapply (addGroup_max l _ p); [exact K2|exact Ep]]. intros i I. apply F2. rewrite Eh. apply in_or_app. auto.
  Qed.
  Lemma wb_same g d e p : wbook g d e -> cores p = cores (e_pop e) -> (finite p1 -> finite (e_hist e) -> min_ok p /\ max_ok p) -> wbook g d (with_pop p e).
  Proof.
    intros [B1 B2 B3 B4 B5 B6 B7 B8 B9] H K. pose proof (cores_len _ _ H). split; cbn [with_pop e_pop e_gen e_rem e_hist e_total]; auto; [lia|].
    intros i I. apply cores_in in I. rewrite H in I. apply in_core in I. destruct I as (j & J & <-). auto.
  Qed.
  Lemma wb_update g d e p : wbook g d e -> pop_update (e_pop e) = Ok p -> wbook g d (with_pop p e).
  Proof.
    intros B H. apply update_core in H. destruct H as [H1 H2]. apply wb_same; auto. intros F1 F2. destruct (wb_ext _ _ _ B F1 F2). split; [eapply min_ok_core; eauto|eapply max_ok_core; eauto].
  Qed.
  Lemma wb_recompute g d e : wbook g d e -> wbook g d (with_pop (pop_recompute (e_pop e)) e).
  Proof.
    intros B. apply wb_same; auto. { unfold cores. rewrite recompute_inds. reflexivity. } intros F1 F2. split; [|apply recompute_max_ok]. apply recompute_min_ok. eapply wb_finite; eauto.
  Qed.
  Lemma wb_kill g d r e e' : wbook g d e -> ea_kill r e = Ok e' -> wbook g (S d) e'.
  Proof.
    intros B H. apply kill_spec in H. destruct H as (i & rm & p & q & _ & Hi & Er & Ep & Eq & ->). pose proof (wb_finite _ _ _ B) as FN. destruct B as [B1 B2 B3 B4 B5 B6 B7 B8 B9].
    pose proof (update_nonempty _ _ Eq) as NE. apply update_core in Eq. destruct Eq as [Q1 Q2]. pose proof (cores_len _ _ Q1) as EL. pose proof Ep as Ep'. apply removed_inds in Ep. destruct Ep as (a & x & b & H1 & H2 & H3 & H4). apply add_inds in Er.
    split; cbn [e_pop e_gen e_rem e_hist e_total]; auto.
    - rewrite EL, H4, app_length. rewrite H1, app_length in B1. cbn in B1. lia.
    - intros j J. apply cores_in in J. rewrite Q1 in J. apply in_core in J. destruct J as (y & Y & <-). apply B4. rewrite H1. rewrite H4 in Y. apply in_app_or in Y. apply in_or_app. cbn. tauto.
    - rewrite Er, app_length. cbn. lia.
    - intros j J. rewrite Er in J. apply in_app_or in J. destruct J as [J|[<-|[]]]; auto.
    - intros F1 F2. destruct (B9 F1 F2) as [K1 K2]. split; [eapply min_ok_core; eauto; eapply removeById_min_ok; eauto|eapply max_ok_core; eauto; eapply removeById_max_ok; eauto].
  Qed.
End Warm.
Lemma warm_run c file fs ws e : ea_optimizeWarm c file fs ws (ea_new (c_dim c)) = Ok (Some e) ->
  exists name p1 g s, file = Some name /\ pop_readFromCSV name fs (pop_new (c_dim c)) = (p1, Ok tt) /\ 1 <= g <= c_gens c /\ wbook c p1 g (g * c_deaths c) e /\
    (g = c_gens c \/ c_max c <= g * c_new c) /\ (forall j, 1 <= j < g -> j * c_new c < c_max c) /\ ea_solution e = Ok s.
Proof.
  unfold ea_optimizeWarm. intros H. ok_step H. destruct file as [name|]; [|discriminate]. unfold ea_readWarm, any_to_runtime in H. cbn [e_pop e_gen e_rem e_hist e_total e_init ea_new] in H.
  destruct (pop_readFromCSV name fs (pop_new (c_dim c))) as [p1 [u|x|]] eqn:RD; [|discriminate|discriminate]. ok_step H. destruct a0 as [e1|]; [|discriminate]. ok_step H. injection H as <-.
  assert (c_gens c <> 0) as Hg. { intros Z. unfold ec_check in E. rewrite Z in E. ok_steps E. } destruct u.
  destruct (read_extremes _ _ _ _ RD) as (RW & RDm & RA).
  assert (LG : forall i, In i (p_inds p1) -> length (i_genes i) = c_dim c). { intros i I. destruct (RW i I) as (l & cells & z & _ & _ & _ & _ & _ & _ & _ & _ & _ & _ & _ & L & _). exact L. }
  destruct (c_gens c) as [|n] eqn:EG; [lia|].
  destruct (loop_ind c (wbook c p1) ws) with (n := n) (k := 0) (g := 0) (e := mkEA p1 (pop_new (c_dim c)) (pop_new (c_dim c)) (pop_new (c_dim c)) 0 true) (e' := e1) as (j & Hj & A & B & D); auto.
  - intros; eapply wb_births; eauto.
  - intros; eapply wb_update; eauto.
  - intros; eapply wb_kill; eauto.
  - intros; eapply wb_recompute; eauto.
  - apply wb_start. exact RA.
  - exists name, p1, (S j), a0. split; [reflexivity|]. split; [exact RD|]. split; [lia|]. split; [exact A|]. rewrite (wb_total _ _ _ _ _ A) in B. split; [destruct B; [left; lia|right; exact H]|]. split; [|exact E1].
    intros [|i] Hi; [lia|]. destruct (D i) as (f & F1 & F2); [lia|]. rewrite (wb_total _ _ _ _ _ F1) in F2. exact F2.
Qed.
