(** From a training data file to a fitted Kriging model. *)
From Coq Require Import Reals Lra List Arith Lia ZArith Bool Permutation.
From Verif Require Import Base StM Num RealNum RSpec VecModel MatModel MatLemmas MatSpec VecProofs VecReal MatProofs MatProofs2 MatReal CholProofs CholProofs2 DetSpec LuProofs LuProofs2 LuComplete
  LinSolverModel LinSolverProofs BoundsModel CorrModel CorrProofs CorrSpec PsdKernel CorrObj DataModel DataSpec DataProofs DataReal KrigModel KrigSpec KrigMath KrigProofs KrigProofs2.
Import ListNotations.
Local Open Scope R_scope.

Definition ztol : R := 1 / 10 ^ 9.
Lemma zero_tol_eq : @zero_tol R RNum = ztol.
Proof. unfold zero_tol, ztol. simpl. unfold Rlit. simpl. lra. Qed.

(** a data object that has not been given a validation ratio *)
Record dconf (s : sdata R) (d : nat) (b : bnds R) : Prop := {
  dc_dim : d_dim s = 0%nat \/ d_dim s = d; dc_box : d_box s = b; dc_fg : f_grad s = false; dc_fd : f_dd s = false; dc_ratio : (d_ratio s >! n0) = false; dc_nv : d_nv s = 0%nat }.
(** a data object just after reading: [tr] the training rows *)
Record dloaded (s : sdata R) (d : nat) (b : bnds R) (tr : list (list R)) (file : mat R) : Prop := {
  dl_tr : shows_training s d tr; dl_ne : (0 < length tr)%nat; dl_raw : d_raw s = file; dl_read : f_read s = true; dl_fg : f_grad s = false; dl_fd : f_dd s = false;
  dl_box : d_box s = b; dl_wf : wf (d_X s); dl_c : ncols (d_X s) = d; dl_val : (0 < d_nv s)%nat -> ncols (d_Xval s) = d }.
Definition upts (b : bnds R) (d : nat) (tr : list (list R)) : list (list R) := map (unit_row b d) (inputs d tr).
Lemma upts_length b d tr : length (upts b d tr) = length tr.
Proof. unfold upts, inputs. rewrite !map_length. auto. Qed.
Lemma outputs_length d (tr : list (list R)) : length (outputs d tr) = length tr.
Proof. unfold outputs. apply map_length. Qed.
Lemma upts_row b d tr i : (i < length tr)%nat -> length (nth i (upts b d tr) []) = d.
Proof.
  intros H. unfold upts. rewrite (nth_indep _ [] (unit_row b d [])) by (rewrite map_length; unfold inputs; rewrite map_length; auto).
  rewrite (map_nth (unit_row b d)). unfold unit_row. rewrite map_length, seq_length. auto.
Qed.

Lemma read_plain_loaded (s : sdata R) d b file perm : dconf s d b -> (0 < d)%nat -> table file -> (0 < nrows file)%nat -> ncols file = S d ->
  exists s', data_read file perm s = (s', Ok tt) /\ dloaded s' d b (rows file) file /\ d_nv s' = 0%nat /\ d_ratio s' = d_ratio s.
Proof.
  intros [] Hd Ht Hn Hc. destruct (data_read_plain s file perm d (proj1 Ht) Hn Hd) as (s' & E & A1 & A2 & A3 & A4 & A5 & A6 & A7 & A8 & A9 & A10 & A11 & A12); auto.
  { rewrite dc_fg0, dc_fd0. simpl. lia. } { rewrite dc_fg0. auto. }
  exists s'. split; auto. split; [|auto]. constructor; try congruence. rewrite rows_length; auto. intros; lia.
Qed.

Definition after_norm (s : sdata R) (d : nat) (b : bnds R) (tr : list (list R)) : Prop :=
  nrows (d_X s) = length tr /\ ncols (d_X s) = d /\ rows (d_X s) = upts b d tr /\ d_y s = outputs d tr /\ d_n s = length tr /\ d_dim s = d.
Lemma normalize_loaded s d b tr file : dloaded s d b tr file -> box_ok ztol d b -> (0 < d)%nat ->
  exists s', data_normalize ztol s = (s', Ok tt) /\ normalized b d s s' /\ after_norm s' d b tr.
Proof.
  intros [(S1 & S2 & S3 & S4 & S5 & S6) Hne Hraw Hrd Hg Hdd Hbx Hw Hc Hv] Hb Hd. subst b.
  assert (nrows (d_X s) = length tr) as HR. { rewrite <- rows_length, S3. unfold inputs. apply map_length. }
  destruct (normalize_data_ok ztol d s) as (s' & E & N); auto. { lia. } { rewrite Hg. discriminate. } exists s'. split; auto. split; auto. 
  destruct (z_X _ _ _ _ N) as (_ & X1 & X2 & X3). unfold after_norm. rewrite X1, X2, X3, (z_y _ _ _ _ N), (z_n _ _ _ _ N), (z_dim _ _ _ _ N), S3. unfold upts. auto 10.
Qed.

(** configuration of the model *)
Record kconf (k : krig R) (d : nat) (b : bnds R) (lin : bool) (eps : R) : Prop := {
  kc_dim : k_dim k = d; kc_lin : k_uselin k = lin; kc_avg : k_avg k = false; kc_eps : cb_eps (ec_b (k_cf k)) = eps;
  kc_cf : k_cfinit k = true -> length (ec_theta (k_cf k)) = d /\ length (ec_gamma (k_cf k)) = d;
  kc_lconf : lin = true -> l_dim (k_lin k) = d /\ dconf (l_data (k_lin k)) d b }.

Definition krig_load (file : mat R) (perm : list nat) : SM (krig R) unit :=
  run krig_readData file perm; run krig_normalizeData; krig_initialize.

(** what a successful load leaves *)
Record fitted (k : krig R) (d : nat) (b : bnds R) (lin : bool) (eps : R) (tr : list (list R)) (file : mat R) (c : nat -> R) (th ga ys : list R) : Prop := {
  ft_conf : kconf k d b lin eps; ft_ready : kready k d (upts b d tr) ys th ga eps; ft_init : k_init k = true; ft_cfi : k_cfinit k = true;
  ft_raw : d_raw (k_data k) = file; ft_dn : d_n (k_data k) = length tr; ft_ddim : d_dim (k_data k) = d; ft_X : rows (d_X (k_data k)) = upts b d tr /\ nrows (d_X (k_data k)) = length tr /\ ncols (d_X (k_data k)) = d;
  ft_ys : forall i, (i < length tr)%nat -> vget ys i = nth i (outputs d tr) 0 - (if lin then lpredict d c (nth i (upts b d tr) []) else 0);
  ft_lin : lin = true -> c = vget (l_w (k_lin k)) /\ length (l_w (k_lin k)) = S d /\ normal_eqs d (upts b d (rows file)) (vget (outputs d (rows file))) (1 / 10 ^ 8) c;
  ft_solved : kparams d th ga -> kregular d th ga eps (upts b d tr) -> ksolved k d (upts b d tr) ys th ga eps }.

Lemma lin_all_ok (s : lmodel R) d X : l_dim s = d -> length (l_w s) = S d -> ncols X = d ->
  exists v, lin_interpolateAll s X = Ok v /\ length v = nrows X /\ forall i, (i < nrows X)%nat -> vget v i = lpredict d (vget (l_w s)) (nth i (rows X) []).
Proof.
  intros Hd Hw Hc. unfold lin_interpolateAll. rewrite Hc, Hd, Nat.eqb_refl. cbn [negb].
  assert (forall m, (m <= nrows X)%nat -> exists v, loopR m (fun i acc => f <- lin_interpolate s (mrow X i) ;; Ok (acc ++ [f])) [] = Ok v /\ length v = m /\
    forall i, (i < m)%nat -> vget v i = lpredict d (vget (l_w s)) (nth i (rows X) [])) as H.
  { induction m; intros Hm. exists []. split; auto. split; auto. intros; lia.
    destruct IHm as (v & E & L & H). lia. exists (v ++ [lpredict d (vget (l_w s)) (mrow X m)]). cbn [loopR]. rewrite E. cbn [bind].
    rewrite (lin_interpolate_ok s d) by (auto; rewrite mrow_length; auto). cbn [bind]. split; auto. split. rewrite app_length. simpl. lia.
    intros i Hi. unfold vget. destruct (Nat.eq_dec i m) as [->|]. rewrite app_nth2, L, Nat.sub_diag by lia. rewrite nth_rows by lia. auto.
    rewrite app_nth1 by lia. apply H. lia. }
  apply H. lia.
Qed.

Lemma krig_load_ok k d b lin eps file perm s1 tr : kconf k d b lin eps -> box_ok ztol d b -> (0 < d)%nat -> (lin = true -> (d < 100)%nat) -> table file -> (0 < nrows file)%nat -> ncols file = S d ->
  data_read file perm (k_data k) = (s1, Ok tt) -> dloaded s1 d b tr file ->
  exists k' c th ga ys s2, krig_load file perm k = (k', Ok tt) /\ fitted k' d b lin eps tr file c th ga ys /\ k_data k' = set_y ys s2 /\ normalized b d s1 s2 /\
    (k_cfinit k = true -> th = ec_theta (k_cf k) /\ ga = ec_gamma (k_cf k)) /\ (k_cfinit k = false -> th = repeat 1 d /\ ga = repeat (9 / 5) d).
Proof.
  intros [kd kl ka ke kcf klc] Hb Hd Hlin Ht Hn Hc ER DL. pose proof DL as [(S1 & S2 & S3 & S4 & S5 & S6) Hne Hraw Hrd Hg Hdd Hbx Hw HcX Hv].
  destruct (normalize_loaded s1 d b tr file DL Hb Hd) as (s2 & EN & N & (X1 & X2 & X3 & X4 & X5 & X6)).
  set (n := length tr) in *. set (pts := upts b d tr) in *. assert (length pts = n) as Lp by (unfold pts; apply upts_length).
  (* readData *)
  assert (exists kl1, krig_readData file perm k = (kset_flags true (k_norm k) (k_init k) (kset_n n (kset_lin kl1 (kset_data s1 k))), Ok tt) /\
    (lin = false -> kl1 = k_lin k) /\ (lin = true -> l_dim kl1 = d /\ l_read kl1 = true /\ l_n kl1 = nrows file /\ dloaded (l_data kl1) d b (rows file) file /\ d_nv (l_data kl1) = 0%nat /\ (d_ratio (l_data kl1) >! n0) = false)) as (kl1 & E1 & L1 & L1').
  { unfold krig_readData. unfold sbind at 1, sget at 1. rewrite kd. destruct (Nat.eqb_spec d 0) as [|_]; [lia|]. unfold sthrow_if. unfold sbind at 1, sret at 1.
    unfold sbind at 1, srethrow at 1, in_kdata, szoom at 1. rewrite ER. rewrite kl. destruct lin.
    - destruct (klc eq_refl) as (ld & lc). destruct (read_plain_loaded (l_data (k_lin k)) d b file [] lc Hd Ht Hn Hc) as (ls & ELs & DLs & Nv & Rv).
      assert (d_n ls = nrows file) as Dn. { destruct (dl_tr _ _ _ _ _ DLs) as (_ & A & _). rewrite A, rows_length. auto. }
      exists (mkL (l_dim (k_lin k)) (nrows file) ls (l_w (k_lin k)) (l_reg (k_lin k)) true (l_norm (k_lin k)) (l_init (k_lin k))).
      unfold sbind at 1, swhen at 1, srethrow at 1, in_klin, szoom at 1. change (k_lin (kset_data s1 k)) with (k_lin k).
      unfold lin_readData. unfold sbind at 1, in_ldata, szoom at 1. rewrite ELs. unfold smod at 1. cbn [l_data lset_data l_dim l_w l_reg l_read l_norm l_init]. rewrite Dn.
      unfold smod. split. { kset. kproj. rewrite S2. reflexivity. } split; [discriminate|]. intros _. cbn [l_data l_dim l_read l_n]. rewrite Rv. destruct lc. auto 10.
    - exists (k_lin k). unfold sbind at 1, swhen at 1, sret at 1. unfold smod. split; [|split; [auto|discriminate]]. kset. kproj. rewrite S2. reflexivity. }
  (* normalizeData *)
  assert (exists kl2, krig_normalizeData (kset_flags true (k_norm k) (k_init k) (kset_n n (kset_lin kl1 (kset_data s1 k)))) =
      (kset_flags true true (k_init k) (kset_n n (kset_lin kl2 (kset_data s2 k))), Ok tt) /\
      (lin = true -> l_dim kl2 = d /\ l_read kl2 = true /\ l_norm kl2 = true /\ l_n kl2 = nrows file /\ after_norm (l_data kl2) d b (rows file) /\ dconf (l_data kl2) d b)) as (kl2 & E2 & L2).
  { unfold krig_normalizeData. unfold sbind at 1, sget at 1. kset; kproj. cbn [negb]. unfold sthrow_if. unfold sbind at 1, sret at 1. unfold sbind at 1, in_kdata, szoom at 1. kproj. rewrite zero_tol_eq, EN. kset; kproj. rewrite kl.
    destruct lin.
    - destruct (L1' eq_refl) as (A1 & A2 & A3 & A4 & A5 & A6). destruct (normalize_loaded _ _ _ _ _ A4 Hb Hd) as (ls & ELs & Nl & AN).
      exists (mkL (l_dim kl1) (l_n kl1) ls (l_w kl1) (l_reg kl1) (l_read kl1) true (l_init kl1)).
      unfold sbind at 1, swhen at 1, in_klin, szoom at 1. kproj. unfold lin_normalizeData. unfold sbind at 1, sget at 1. rewrite A2. unfold sassert. unfold sbind at 1, sret at 1. unfold sbind at 1, in_ldata, szoom at 1.
      rewrite zero_tol_eq, ELs. unfold smod. split. { unfold lset_data. cbn [l_data l_dim l_read l_n l_norm l_w l_reg l_init]. rewrite A2. reflexivity. } intros _. cbn [l_data l_dim l_read l_n l_norm]. split; auto. split; auto. split; auto. split; auto. split; auto.
      destruct Nl, A4. constructor; try congruence. right. destruct AN as (_ & _ & _ & _ & _ & E). auto.
    - exists kl1. unfold sbind at 1, swhen at 1, sret at 1. unfold smod. split; [reflexivity|discriminate]. }
  set (k2 := kset_flags true true (k_init k) (kset_n n (kset_lin kl2 (kset_data s2 k)))) in *.
  (* initialize *)
  set (X := d_X s2) in *.
  assert (mat_isEmpty X = false) as Xne. { unfold mat_isEmpty. rewrite X1, X2. destruct (Nat.eqb_spec n 0); [lia|]. destruct (Nat.eqb_spec d 0); [lia|]. auto. }
  set (cfi := k_cfinit k) in *.
  set (th := if cfi then ec_theta (k_cf k) else repeat 1 d). set (ga := if cfi then ec_gamma (k_cf k) else repeat (9 / 5) d).
  assert (length th = d /\ length ga = d) as (Lth & Lga). { unfold th, ga. destruct cfi eqn:EC. apply kcf; auto. rewrite !repeat_length. auto. }
  set (cf3 := mkE (mkCB X n d (mat_zero n n) eps true) th ga).
  assert (exists kl3 ys c, krig_initialize k2 = sbind krig_update (fun _ => smod (fun k => kset_flags (k_read k) (k_norm k) true k))
      (mkK d n (2 * d) (set_y ys s2) cf3 true kl3 lin (k_sys k) (k_Rys k) (k_RI k) (k_Rysb k) (k_ones k) (k_beta0 k) (k_s2 k) false true true (k_init k)) /\
      length ys = n /\ (forall i, (i < n)%nat -> vget ys i = nth i (outputs d tr) 0 - (if lin then lpredict d c (nth i pts []) else 0)) /\
      (lin = true -> l_dim kl3 = d /\ dconf (l_data kl3) d b /\ c = vget (l_w kl3) /\ length (l_w kl3) = S d /\ normal_eqs d (upts b d (rows file)) (vget (outputs d (rows file))) (1 / 10 ^ 8) c)) as (kl3 & ys & c & E3 & Lys & Hys & L3).
  { assert (forall m, krig_initialize k2 = m <->
      sbind (swhen lin
      (run in_klin lin_initialize;
       get k1 <-- sget (fun k => k);
       get yl <-- slift (lin_interpolateAll (k_lin k1) (d_X (k_data k1)));
       get r <-- slift (vec_sub (d_y (k_data k1)) yl);
       in_kdata (data_setOutput r))) (fun _ => sbind krig_update (fun _ => smod (fun k => kset_flags (k_read k) (k_norm k) true k)))
       (mkK d n (2 * d) s2 cf3 true kl2 lin (k_sys k) (k_Rys k) (k_RI k) (k_Rysb k) (k_ones k) (k_beta0 k) (k_s2 k) false true true (k_init k)) = m) as Step.
    { intros m. unfold krig_initialize. unfold sbind at 1, sget at 1. unfold k2. kset; kproj. rewrite kd, kl. cbn [negb]. destruct (Nat.eqb_spec d 0) as [|_]; [lia|]. destruct (Nat.eqb_spec n 0) as [|_]; [lia|]. unfold sthrow_if.
      do 4 (unfold sbind at 1, sret at 1). unfold sbind at 1, in_kcf, szoom at 1. kproj. unfold cb_setInput. fold X. rewrite Xne. rewrite X1, X2, ke.
      fold cfi. assert (forall kk, sbind (swhen (negb cfi) (run szoom k_cf (fun c k => mkK (k_dim k) (k_n k) (k_nhyp k) (k_data k) c (k_cfinit k) (k_lin k) (k_uselin k) (k_sys k) (k_Rys k) (k_RI k) (k_Rysb k) (k_ones k) (k_beta0 k) (k_s2 k) (k_avg k) (k_read k) (k_norm k) (k_init k)) ecf_initialize; smod (kset_cfinit true))) (fun _ : unit => kk)
        (mkK d n (k_nhyp k) s2 (mkE (mkCB X n d (mat_zero n n) eps true) (ec_theta (k_cf k)) (ec_gamma (k_cf k))) cfi kl2 lin (k_sys k) (k_Rys k) (k_RI k) (k_Rysb k) (k_ones k) (k_beta0 k) (k_s2 k) (k_avg k) true true (k_init k)) =
        (kk : SM (krig R) unit) (mkK d n (k_nhyp k) s2 cf3 true kl2 lin (k_sys k) (k_Rys k) (k_RI k) (k_Rysb k) (k_ones k) (k_beta0 k) (k_s2 k) (k_avg k) true true (k_init k))) as Cf.
      { intros kk. unfold cf3, th, ga. destruct cfi; cbn [negb swhen].
        - unfold sbind, sret. reflexivity.
        - unfold sbind at 1. unfold sbind at 1, szoom at 1. kproj. unfold ecf_initialize, ecf_setTheta, ecf_setGamma. cbn [ec_b cb_dim ec_theta ec_gamma]. rewrite !repeat_length, Nat.eqb_refl. destruct (Nat.eqb_spec d 0) as [|_]; [lia|]. cbn [orb negb ec_b cb_dim ec_theta ec_gamma]. rewrite ?Nat.eqb_refl. cbn [orb negb ec_b cb_dim ec_theta ec_gamma].
          unfold smod. kset; kproj. replace (@nlit R RNum 18 (-1)) with (9 / 5). reflexivity. simpl. unfold Rlit. simpl. lra. }
      rewrite ka in *. match goal with |- (?a = m <-> ?b = m) => assert (a = b) as ->; [|reflexivity] end. refine (eq_trans (Cf _) _). reflexivity. }
    destruct lin.
    - destruct (L2 eq_refl) as (A1 & A2 & A3 & A4 & (B1 & B2 & B3 & B4 & B5 & B6) & A6).
      assert (lready kl2 d (upts b d (rows file)) (outputs d (rows file))) as LQ.
      { constructor; auto; rewrite ?upts_length, ?outputs_length, ?rows_length; auto. rewrite B1, rows_length; auto. }
      destruct (lin_initialize_ok kl2 d _ _ LQ) as (I1 & I2). destruct (I2 (Hlin eq_refl)) as (kl3 & EI). destruct (I1 kl3 EI) as (w & W1 & W2 & W3 & W4 & W5).
      destruct (lin_all_ok kl3 d X W2) as (v & Ev & Lv & Hv'). congruence. auto.
      set (ys := vbuild n (fun i => vget (outputs d tr) i - vget v i)).
      exists kl3, ys, (vget w). split.
      { apply Step. unfold swhen. unfold sbind at 1. unfold sbind at 1, in_klin, szoom at 1. kproj. rewrite EI. unfold sbind at 1, sget at 1. kset; kproj. fold X. rewrite Ev. unfold sbind at 1, slift at 1. rewrite X4. unfold vec_sub. rewrite outputs_length, Lv, X1. fold n. rewrite Nat.eqb_refl.
        unfold sbind at 1, slift at 1. change (vbuild n (fun i => vget (outputs d tr) i -! vget v i)) with ys. unfold in_kdata, szoom at 1. kproj. unfold data_setOutput. unfold sbind at 1, sget at 1. unfold ys at 1. rewrite vbuild_length, X5, Nat.eqb_refl. unfold sassert. unfold sbind at 1, sret at 1. unfold smod at 1. kset; kproj. reflexivity. }
      split. apply vbuild_length. split.
      { intros i Hi. unfold ys. rewrite vget_vbuild by auto. rewrite Hv' by lia. rewrite X3, W1. auto. }
      intros _. rewrite W3, <- W1. split; auto. split; auto. split; auto. split. congruence. rewrite W1. auto.
    - exists kl2, (outputs d tr), (fun _ => 0). split.
      { apply Step. unfold swhen. unfold sbind at 1, sret at 1. rewrite <- X4. destruct s2; reflexivity. }
      split. apply outputs_length. split; [|discriminate]. intros i Hi. unfold vget. change (@n0 R RNum) with 0. ring. }
  set (k3 := mkK d n (2 * d) (set_y ys s2) cf3 true kl3 lin (k_sys k) (k_Rys k) (k_RI k) (k_Rysb k) (k_ones k) (k_beta0 k) (k_s2 k) false true true (k_init k)) in *.
  assert (kready k3 d pts ys th ga eps) as Q3. { constructor; cbn [k3 cf3 ec_b ec_theta ec_gamma cb_set cb_dim cb_N cb_X cb_eps]; kproj; auto; try lia. { rewrite Lp. exact X1. } { rewrite Lp. exact X5. } }
  destruct (krig_update_ok k3 d pts ys th ga eps Q3) as (k4 & E4 & Q4 & (P1 & P2 & P3 & P4 & P5 & P6 & P7 & P8 & P9 & P10 & P11 & P12 & P13 & P14 & P15 & P16 & P17 & P18) & So & _).
  exists (kset_flags (k_read k4) (k_norm k4) true k4), c, th, ga, ys, s2. split.
  { unfold krig_load. rewrite (sbind_ok _ _ _ _ _ E1), (sbind_ok _ _ _ _ _ E2). rewrite E3, (sbind_ok _ _ _ _ _ E4). reflexivity. }
  split. 2:{ split. kset; kproj. rewrite P4. reflexivity. split; auto. unfold th, ga. destruct cfi; split; intros; try discriminate; auto. }
  constructor; auto; kset; kproj.
  - constructor; kproj.
    + rewrite P1; reflexivity.
    + rewrite P7; reflexivity.
    + rewrite P8; reflexivity.
    + rewrite P17; reflexivity.
    + intros _. rewrite P12, P13. auto.
    + intros Hl. rewrite P6. destruct (L3 Hl) as (A1 & A2 & _). auto.
  - destruct Q4; constructor; auto.
  - rewrite P4. cbn [k3 k_data]. unfold set_y; dproj. rewrite (z_raw _ _ _ _ N). auto.
  - rewrite P4. auto.
  - rewrite P4. auto.
  - rewrite P4. auto.
  - intros Hl. rewrite P6. destruct (L3 Hl) as (A1 & A2 & A3). auto.
  - intros HP He. specialize (So HP He). destruct So; constructor; auto.
Qed.
