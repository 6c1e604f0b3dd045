(** The Kriging and linear model objects refine the specification of KrigSpec. *)
From Coq Require Import Reals Lra List Arith Lia ZArith Bool Permutation.
From Verif Require Import Base StM Num RealNum RSpec VecModel MatModel MatLemmas MatSpec VecProofs VecReal MatProofs MatProofs2 MatReal CholProofs CholProofs2 DetSpec LuProofs LuProofs2 LuComplete
  LinSolverModel LinSolverProofs BoundsModel CorrModel CorrProofs CorrSpec PsdKernel CorrObj DataModel DataSpec DataProofs DataReal KrigModel KrigSpec KrigMath.
Import ListNotations.
Local Open Scope R_scope.

Ltac kproj := cbn [k_dim k_n k_nhyp k_data k_cf k_cfinit k_lin k_uselin k_sys k_Rys k_RI k_Rysb k_ones k_beta0 k_s2 k_avg k_read k_norm k_init].
Ltac kset := unfold kset_dim, kset_n, kset_nhyp, kset_data, kset_cf, kset_cfinit, kset_lin, kset_uselin, kset_sys, kset_sol, kset_avg, kset_flags.

(** state in which updateAuxilliaryFields can be called; [pts] the normalised inputs, [y] the outputs, [th], [ga], [eps] the parameters *)
Record kready (k : krig R) (d : nat) (pts : list (list R)) (y th ga : list R) (eps : R) : Prop := {
  q_read : k_read k = true; q_norm : k_norm k = true; q_cfi : k_cfinit k = true; q_n : k_n k = length pts; q_n0 : (0 < length pts)%nat;
  q_dim : k_dim k = d; q_d0 : (0 < d)%nat; q_nhyp : k_nhyp k = (2 * d)%nat; q_set : cb_set (ec_b (k_cf k)) = true; q_cd : cb_dim (ec_b (k_cf k)) = d;
  q_N : cb_N (ec_b (k_cf k)) = length pts; q_r : nrows (cb_X (ec_b (k_cf k))) = length pts; q_c : ncols (cb_X (ec_b (k_cf k))) = d; q_rows : rows (cb_X (ec_b (k_cf k))) = pts;
  q_eps : cb_eps (ec_b (k_cf k)) = eps; q_th : ec_theta (k_cf k) = th; q_ga : ec_gamma (k_cf k) = ga; q_lth : length th = d; q_lga : length ga = d;
  q_y : d_y (k_data k) = y; q_ly : length y = length pts; q_dn : d_n (k_data k) = length pts; q_avg : k_avg k = false }.

(** the matrix that computeCorrelationMatrix builds *)
Definition cmat (d : nat) (th ga : list R) (eps : R) (pts : list (list R)) (i j : nat) : R :=
  (if Nat.eqb i j then 1 else exp_corr (nth i pts []) (nth j pts []) th ga d) + eps * delta i j.
Lemma cmat_kmat d th ga eps pts i j : kparams d th ga -> cmat d th ga eps pts i j = kmat d th ga eps pts i j.
Proof.
  intros HP. unfold cmat, kmat. f_equal. destruct (Nat.eqb_spec i j). subst. rewrite kcorr_self; auto. unfold kcorr. rewrite Kexp_eq. auto.
Qed.
Lemma cmat_sym d th ga eps pts n : symmetric n (cmat d th ga eps pts).
Proof.
  intros i j _ _. unfold cmat. rewrite (Nat.eqb_sym i j), (exp_corr_sym (nth i pts [])). f_equal. f_equal. unfold delta. rewrite (Nat.eqb_sym i j). auto.
Qed.

(** solution fields after a successful factorisation *)
Record ksolved (k : krig R) (d : nat) (pts : list (list R)) (y th ga : list R) (eps : R) : Prop := {
  v_done : cs_done (k_sys k) = true;
  v_solve : forall b, length b = length pts -> exists x, chol_solve (k_sys k) b = Ok x /\ length x = length pts /\
     (kparams d th ga -> kregular d th ga eps pts -> forall i, (i < length pts)%nat -> mv (length pts) (kmat d th ga eps pts) (vget x) i = vget b i);
  v_w : chol_solve (k_sys k) (vec_subs y (k_beta0 k)) = Ok (k_Rysb k);
  v_y : chol_solve (k_sys k) y = Ok (k_Rys k);
  v_1 : chol_solve (k_sys k) (repeat 1 (length pts)) = Ok (k_RI k);
  v_ones : k_ones k = repeat 1 (length pts);
  v_beta : k_beta0 k = 1 / rsum (length pts) (vget (k_RI k)) * rsum (length pts) (vget (k_Rys k));
  v_s2 : k_s2 k = 1 / INR (length pts) * rsum (length pts) (fun i => (vget y i - k_beta0 k) * vget (k_Rysb k) i) }.

Lemma vec_dot_ok (v w : list R) n : length v = n -> length w = n -> vec_dot v w = Ok (rsum n (fun i => vget v i * vget w i)).
Proof. intros H1 H2. unfold vec_dot. rewrite H1, H2, Nat.eqb_refl. rewrite nsum_rsum. auto. Qed.
Lemma vget_repeat (a : R) n i : (i < n)%nat -> vget (repeat a n) i = a.
Proof. intros. unfold vget. rewrite (nth_indep _ _ a) by (rewrite repeat_length; auto). apply nth_repeat. Qed.
Lemma dot_ones (w : list R) n : length w = n -> vec_dot (repeat 1 n) w = Ok (rsum n (vget w)).
Proof. intros H. rewrite (vec_dot_ok _ _ n); auto. 2: apply repeat_length. f_equal. apply rsum_ext. intros. rewrite vget_repeat by auto. ring. Qed.

(** the state except the solution fields *)
Definition same_but_solution (k k' : krig R) : Prop :=
  k_dim k' = k_dim k /\ k_n k' = k_n k /\ k_nhyp k' = k_nhyp k /\ k_data k' = k_data k /\ k_cfinit k' = k_cfinit k /\ k_lin k' = k_lin k /\ k_uselin k' = k_uselin k /\
  k_avg k' = k_avg k /\ k_read k' = k_read k /\ k_norm k' = k_norm k /\ k_init k' = k_init k /\ ec_theta (k_cf k') = ec_theta (k_cf k) /\ ec_gamma (k_cf k') = ec_gamma (k_cf k) /\
  cb_X (ec_b (k_cf k')) = cb_X (ec_b (k_cf k)) /\ cb_N (ec_b (k_cf k')) = cb_N (ec_b (k_cf k)) /\ cb_dim (ec_b (k_cf k')) = cb_dim (ec_b (k_cf k)) /\ cb_eps (ec_b (k_cf k')) = cb_eps (ec_b (k_cf k)) /\ cb_set (ec_b (k_cf k')) = cb_set (ec_b (k_cf k)).

Lemma backward_length L (y : list R) n : length (chol_backward L y n) = n.
Proof.
  unfold chol_backward. apply (loop_down_inv (fun _ x => length x = n)). apply repeat_length. intros k t _ H. rewrite upd_length. auto.
Qed.
Lemma solve_dims (L : mat R) n (b : list R) : nrows L = n -> ncols L = n -> length b = n -> exists x, mat_solveCholesky L b = Ok x /\ length x = n.
Proof.
  intros Hr Hc Hl. unfold mat_solveCholesky. rewrite Hr, Hc, Hl, !Nat.eqb_refl. cbn [andb negb]. eexists. split; [reflexivity|]. apply backward_length.
Qed.

Lemma krig_update_ok (k : krig R) d pts y th ga eps : kready k d pts y th ga eps ->
  exists k', krig_update k = (k', Ok tt) /\ kready k' d pts y th ga eps /\ same_but_solution k k' /\
    (kparams d th ga -> kregular d th ga eps pts -> ksolved k' d pts y th ga eps) /\
    (cs_done (k_sys k') = true -> ksolved k' d pts y th ga eps) /\
    (cs_done (k_sys k') = false -> k_beta0 k' = 0 /\ k_s2 k' = 0 /\ k_Rysb k' = repeat 0 (length pts)).
Proof.
  intros []. set (n := length pts) in *.
  set (c := k_cf k) in *. set (X := cb_X (ec_b c)) in *.
  set (Rm := mat_addEps (corr_loops X (fun x y => exp_corr x y th ga d)) eps).
  set (c' := mkE (mkCB X n d Rm eps true) th ga).
  assert (ecf_computeMatrix c = (c', Ok tt)) as EC.
  { unfold ecf_computeMatrix. fold X. rewrite q_set0, q_c0, q_th0, q_ga0, q_lth0, q_lga0, Nat.ltb_irrefl. cbn [negb orb]. unfold c', Rm. rewrite q_N0, q_cd0, q_eps0. auto. }
  assert (is_mat Rm n n (cmat d th ga eps pts)) as HR.
  { destruct (exp_compute_ok _ _ EC) as (_ & _ & _ & _ & _ & _ & H). fold X in H. rewrite q_r0, q_c0, q_th0, q_ga0, q_eps0 in H. change (cb_R (ec_b c')) with Rm in H.
    destruct H as (W & H1 & H2 & H3). split; auto. split; auto. split; auto. intros i j Hi Hj. rewrite H3 by auto. unfold cmat. rewrite <- q_rows0.
    rewrite !nth_rows by (rewrite q_r0; auto). auto. }
  pose proof HR as (WR & HRr & HRc & HRv).
  assert (symmetric (nrows Rm) (mget Rm)) as HS. { intros i j Hi Hj. rewrite HRr in Hi, Hj. rewrite !HRv by auto. apply (cmat_sym d th ga eps pts n); auto. }
  set (z := repeat (@n0 R RNum) n). set (sys1 := chol_setMatrix (k_sys k) Rm).
  (* run the prefix *)
  assert (forall kk, krig_update k = kk <->
    (let '(sys2, r) := chol_factorize sys1 in
     let k2 := mkK (k_dim k) (k_n k) (k_nhyp k) (k_data k) c' (k_cfinit k) (k_lin k) (k_uselin k) sys2 z z z (repeat 1 n) 0 0 (k_avg k) (k_read k) (k_norm k) (k_init k) in
     swhen (chol_isDone sys2)
      (let ys := y in
       get Rys <-- slift (chol_solve sys2 ys);
       get RI <-- slift (chol_solve sys2 (repeat 1 n));
       get a <-- slift (vec_dot (repeat 1 n) RI);
       get b <-- slift (vec_dot (repeat 1 n) Rys);
       get beta0 <-- slift (Ok (1 / a * b));
       let d := vec_subs ys beta0 in
       get Rysb <-- slift (chol_solve sys2 d);
       get q <-- slift (vec_dot d Rysb);
       smod (kset_sol Rys RI Rysb (repeat 1 n) beta0 (1 / INR n * q))) k2) = kk) as Prefix.
  { intros kk. unfold krig_update. unfold sbind at 1, sget at 1. rewrite q_read0, q_norm0, q_cfi0, q_n1, q_dim0. fold n.
    destruct (Nat.eqb_spec n 0) as [|_]; [lia|]. destruct (Nat.eqb_spec d 0) as [|_]; [lia|]. cbn [negb]. unfold sthrow_if.
    do 5 (unfold sbind at 1, sret at 1). unfold sbind at 1, in_kcf, szoom at 1. fold c. rewrite EC.
    unfold sbind at 1, smod at 1. kset. kproj. unfold sbind at 1, in_ksys, szoom at 1. kproj. change (cb_R (ec_b c')) with Rm. fold sys1.
    assert (exists s2, chol_factorize sys1 = (s2, Ok tt)) as (sys2 & EF).
    { unfold chol_factorize. change (cs_A sys1) with Rm. destruct (cholesky_cases Rm ltac:(lia)) as [(L & E & _)|(E & _)]; rewrite E; eauto. }
    rewrite EF. unfold sbind at 1, krig_reset, smod at 1. kset; kproj. unfold sbind at 1, krig_resize. unfold sbind at 1, sget at 1. kproj. rewrite q_n1. fold n.
    destruct (Nat.eqb_spec n 0) as [|_]; [lia|]. unfold sthrow_if. unfold sbind at 1, sret at 1. unfold smod at 1. kset; kproj. unfold sbind at 1, sget at 1. kproj.
    rewrite q_avg0, q_y0. cbv zeta. unfold nofnat. rewrite INR_IZR_INZ, q_read0, q_norm0, q_cfi0, q_dim0. reflexivity. }
  unfold chol_factorize in Prefix. change (cs_A sys1) with Rm in Prefix. change (cs_dim sys1) with (nrows Rm) in Prefix. change (cs_set sys1) with true in Prefix.
  destruct (cholesky_cases Rm ltac:(lia)) as [(L & EL & CI)|(EL & _)].
  - rewrite EL in Prefix. set (sys2 := mkChol (nrows Rm) Rm (Some L) true true) in *.
    destruct (cholesky_sound Rm L HS EL) as (_ & WL & Lr & Lc & _ & _ & _). rewrite HRr in Lr, Lc.
    assert (forall b, length b = n -> exists x, chol_solve sys2 b = Ok x /\ length x = n) as SD. { intros b Hb. unfold chol_solve. cbn [cs_done sys2 negb cs_fact]. apply solve_dims; auto. }
    destruct (SD y q_ly0) as (Rys & E1 & L1). destruct (SD (repeat 1 n) (repeat_length _ _)) as (RI & E2 & L2).
    set (beta0 := 1 / rsum n (vget RI) * rsum n (vget Rys)).
    assert (length (vec_subs y beta0) = n) as Lb. { unfold vec_subs. rewrite vbuild_length. auto. }
    destruct (SD (vec_subs y beta0) Lb) as (Rysb & E3 & L3).
    set (s2 := 1 / INR n * rsum n (fun i => (vget y i - beta0) * vget Rysb i)).
    set (k2 := mkK (k_dim k) (k_n k) (k_nhyp k) (k_data k) c' (k_cfinit k) (k_lin k) (k_uselin k) sys2 Rys RI Rysb (repeat 1 n) beta0 s2 (k_avg k) (k_read k) (k_norm k) (k_init k)).
    exists k2. split.
    { apply Prefix. cbn [chol_isDone cs_done sys2 swhen]. fold sys2. cbv zeta. unfold sbind, slift. rewrite E1, E2. rewrite !dot_ones by auto. fold beta0. rewrite E3.
      rewrite (vec_dot_ok _ _ n) by auto. unfold smod, kset_sol. kproj. unfold k2, s2. f_equal. f_equal. f_equal. apply rsum_ext. intros i Hi. unfold vec_subs. rewrite vget_vbuild by (rewrite q_ly0; auto). auto. }
    split. { constructor; auto. }
    split. { unfold same_but_solution. cbn [k2]. kproj. fold c. cbn [c' ec_theta ec_gamma ec_b cb_X cb_N cb_dim cb_eps cb_set]. rewrite q_th0, q_ga0, q_N0, q_cd0, q_eps0, q_set0. auto 20. }
    assert (ksolved k2 d pts y th ga eps) as KS.
    { constructor; auto. intros b Hb. destruct (SD b Hb) as (x & Ex & Lx). exists x. split; auto. split; auto. intros HP He i Hi.
      assert (forall i j, (i < n)%nat -> (j < n)%nat -> mget Rm i j = kmat d th ga eps pts i j) as HK. { intros i0 j0 Hi0 Hj0. rewrite HRv by auto. apply cmat_kmat; auto. }
      assert (posdef n (mget Rm)) as PD. { intros u Hu. rewrite (quad_ext n (mget Rm) (kmat d th ga eps pts)) by auto. apply (proj2 He); auto. }
      destruct (cholesky_complete Rm) as (L' & EL' & _ & Pos); try lia; auto. { rewrite HRr; auto. }
      assert (L' = L) by congruence. subst L'. rewrite HRr in Pos. destruct (cholesky_solve Rm L b) as (x' & Ex' & _ & Sx); auto. { rewrite HRr. intros j Hj. specialize (Pos j Hj). lra. } { rewrite HRr; auto. }
      unfold chol_solve in Ex. cbn [cs_done sys2 negb cs_fact k2 k_sys] in Ex. assert (x' = x) by congruence. subst x'. rewrite HRr in Sx. specialize (Sx i Hi). unfold vget at 2. change (@n0 R RNum) with 0. rewrite <- Sx.
      unfold mv. apply rsum_ext. intros j Hj. rewrite HK by auto. auto. }
    split; auto. split; auto. intros Hf. discriminate Hf.
  - rewrite EL in Prefix. set (sys2 := mkChol (nrows Rm) Rm None false true) in *.
    eexists. split. { apply Prefix. cbn [chol_isDone cs_done sys2 swhen]. unfold sret. reflexivity. }
    split. { constructor; auto. }
    split. { unfold same_but_solution. kproj. fold c. cbn [c' ec_theta ec_gamma ec_b cb_X cb_N cb_dim cb_eps cb_set]. rewrite q_th0, q_ga0, q_N0, q_cd0, q_eps0, q_set0. auto 20. }
    split. { intros HP He. exfalso. destruct (cholesky_complete Rm) as (L' & EL' & _); try lia; auto; [|congruence]. rewrite HRr.
      intros u Hu. rewrite (quad_ext n (mget Rm) (kmat d th ga eps pts)). apply (proj2 He); auto. intros i0 j0 Hi0 Hj0. rewrite HRv by auto. apply cmat_kmat; auto. }
    split. { intros Hf. discriminate Hf. }
    intros _. kproj. auto.
Qed.
