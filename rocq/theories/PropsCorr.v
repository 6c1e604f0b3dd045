(** Properties C25-C28: correlation matrices and correlation function objects.
    [Kgauss], [Kexp], [co] are in CorrSpec; [psd], [symmetric], [delta] in RSpec.  [grun ops] / [erun ops] is the state of a
    Gaussian / exponential correlation object after any list of calls (calls that throw included). *)
From Coq Require Import Reals Lra Psatz List Arith Lia ZArith Bool.
From Verif Require Import Base Num RealNum RSpec CorrSpec VecModel MatModel MatLemmas CholProofs2 CorrModel CorrProofs CorrDeriv PsdKernel CorrObj.
Import ListNotations.
Local Open Scope R_scope.

(** ** C25 *)
Theorem C25_gaussian_matrix : forall ops s', let s := grun ops in gcf_computeMatrix s = (s', Ok tt) ->
  let X := cb_X (gc_b s) in let n := nrows X in let d := ncols X in let theta := gc_theta s in let C := cb_R (gc_b s') in
  length theta = d /\ wf C /\ nrows C = n /\ ncols C = n /\ 0 <= cb_eps (gc_b s) < 1 /\
  (forall i j, (i < n)%nat -> (j < n)%nat -> mget C i j = Kgauss d (co theta) (mget X i) (mget X j) + cb_eps (gc_b s) * delta i j) /\
  (forall i j, (i < n)%nat -> (j < n)%nat -> mget C i j = mget C j i) /\
  (forall i, (i < n)%nat -> mget C i i = 1 + cb_eps (gc_b s)) /\
  ((forall k, (k < d)%nat -> 0 <= co theta k) -> forall i j, (i < n)%nat -> (j < n)%nat -> i <> j -> 0 < mget C i j <= 1).
Proof.
  intros ops s' s E X n d theta C. destruct (gauss_compute_ok s s' E) as (H1 & H2 & H3 & H4 & (W & Hr & Hc & H)).
  fold X in H1, W, Hr, Hc, H. fold n d theta in H1, Hr, Hc, H. fold C in W, Hr, Hc, H. pose proof (proj1 (grun_inv ops)) as He. fold s in He.
  split; auto. split; auto. split; auto. split; auto. split; auto.
  assert (forall i j, (i < n)%nat -> (j < n)%nat -> mget C i j = Kgauss d (co theta) (mget X i) (mget X j) + cb_eps (gc_b s) * delta i j) as HK.
  { intros i j Hi Hj. rewrite H by auto. f_equal. rewrite <- Kgauss_eq. apply Kgauss_ext; intros k Hk; apply co_mrow; auto. }
  split; [exact HK|]. split; [|split].
  - intros i j Hi Hj. rewrite !H by auto. rewrite gauss_corr_sym. f_equal. unfold delta. rewrite Nat.eqb_sym. auto.
  - intros i Hi. rewrite H by auto. rewrite gauss_corr_self. unfold delta. rewrite Nat.eqb_refl. ring.
  - intros Ht i j Hi Hj Hne. rewrite H by auto. unfold delta. destruct (Nat.eqb_spec i j); [contradiction|]. rewrite Rmult_0_r, Rplus_0_r. apply gauss_corr_range. auto.
Qed.
Print Assumptions C25_gaussian_matrix.
Theorem C25_exponential_matrix : forall ops s', let s := erun ops in ecf_computeMatrix s = (s', Ok tt) ->
  let X := cb_X (ec_b s) in let n := nrows X in let d := ncols X in let theta := ec_theta s in let gamma := ec_gamma s in let C := cb_R (ec_b s') in
  (d <= length theta)%nat /\ (d <= length gamma)%nat /\ wf C /\ nrows C = n /\ ncols C = n /\ 0 <= cb_eps (ec_b s) < 1 /\
  (forall i j, (i < n)%nat -> (j < n)%nat -> i <> j -> mget C i j = Kexp d (co theta) (co gamma) (mget X i) (mget X j)) /\
  (forall i j, (i < n)%nat -> (j < n)%nat -> mget C i j = mget C j i) /\
  (forall i, (i < n)%nat -> mget C i i = 1 + cb_eps (ec_b s)) /\
  ((forall k, (k < d)%nat -> 0 <= co theta k) -> forall i j, (i < n)%nat -> (j < n)%nat -> i <> j -> 0 < mget C i j <= 1).
Proof.
  intros ops s' s E X n d theta gamma C. destruct (exp_compute_ok s s' E) as (H1 & H1' & H2 & H2' & H3 & H4 & (W & Hr & Hc & H)).
  fold X in H1, H1', H. fold X in Hr, Hc. fold n d theta gamma in H1, H1', Hr, Hc, H. fold C in W, Hr, Hc, H. pose proof (proj1 (erun_inv ops)) as He. fold s in He.
  split; auto. split; auto. split; auto. split; auto. split; auto. split; auto. split; [|split; [|split]].
  - intros i j Hi Hj Hne. rewrite H by auto. unfold delta. destruct (Nat.eqb_spec i j); [contradiction|]. rewrite Rmult_0_r, Rplus_0_r.
    rewrite <- Kexp_eq. apply Kexp_ext; intros k Hk; apply co_mrow; auto.
  - intros i j Hi Hj. rewrite !H by auto. unfold delta. rewrite (Nat.eqb_sym j i). destruct (Nat.eqb i j); auto. rewrite exp_corr_sym. auto.
  - intros i Hi. rewrite H by auto. unfold delta. rewrite Nat.eqb_refl. ring.
  - intros Ht i j Hi Hj Hne. rewrite H by auto. unfold delta. destruct (Nat.eqb_spec i j); [contradiction|]. rewrite Rmult_0_r, Rplus_0_r. apply exp_corr_range. auto.
Qed.
Print Assumptions C25_exponential_matrix.
(** the correlation vector of a query point *)
Theorem C25_correlation_vector : forall gops eops x,
  (let s := grun gops in let X := cb_X (gc_b s) in cb_set (gc_b s) = true -> length x = ncols X -> length (gc_theta s) = ncols X ->
   exists r, gcf_corrVector s x = Ok r /\ length r = nrows X /\
     forall i, (i < nrows X)%nat -> nth i r 0 = Kgauss (ncols X) (co (gc_theta s)) (co x) (mget X i)) /\
  (let s := erun eops in let X := cb_X (ec_b s) in cb_set (ec_b s) = true -> length x = ncols X -> length (ec_theta s) = ncols X -> length (ec_gamma s) = ncols X ->
   exists r, ecf_corrVector s x = Ok r /\ length r = nrows X /\
     forall i, (i < nrows X)%nat -> nth i r 0 = Kexp (ncols X) (co (ec_theta s)) (co (ec_gamma s)) (co x) (mget X i)).
Proof.
  intros gops eops x. split.
  - intros s X Hs Hx Ht. pose proof (proj2 (grun_inv gops) Hs) as HN. fold s X in HN. unfold gcf_corrVector. fold X. rewrite Hs, Hx, Ht, !Nat.ltb_irrefl. cbn [negb orb].
    eexists. split; [reflexivity|]. rewrite vbuild_length. split; auto. intros i Hi. change (nth i (vbuild ?a ?f) 0) with (vget (vbuild a f) i). rewrite vget_vbuild by lia.
    rewrite <- Kgauss_eq. apply Kgauss_ext; auto. intros; apply co_mrow; auto.
  - intros s X Hs Hx Ht Hg. pose proof (proj2 (erun_inv eops) Hs) as HN. fold s X in HN. unfold ecf_corrVector. fold X. rewrite Hs, Hx, Ht, Hg, !Nat.ltb_irrefl. cbn [negb orb].
    eexists. split; [reflexivity|]. rewrite vbuild_length. split; auto. intros i Hi. change (nth i (vbuild ?a ?f) 0) with (vget (vbuild a f) i). rewrite vget_vbuild by lia.
    rewrite <- Kexp_eq. apply Kexp_ext; auto. intros; apply co_mrow; auto.
Qed.
Print Assumptions C25_correlation_vector.
(** nothing is computed before the samples are given, and a theta of the wrong length is refused by the Gaussian object *)
Theorem C25_rejected : forall (s : gcf R) (e : ecf R),
  (cb_set (gc_b s) = false -> gcf_computeMatrix s = (s, Throw LogicError)) /\
  (cb_set (ec_b e) = false -> ecf_computeMatrix e = (e, Throw InvalidArgument)) /\
  (cb_set (gc_b s) = true -> length (gc_theta s) <> ncols (cb_X (gc_b s)) -> gcf_computeMatrix s = (s, Throw InvalidArgument)).
Proof.
  intros s e. split; [|split].
  - intros H. unfold gcf_computeMatrix. rewrite H. auto.
  - intros H. unfold ecf_computeMatrix. rewrite H. auto.
  - intros H H'. unfold gcf_computeMatrix, corrmat_gauss. rewrite H. cbn [negb]. destruct (Nat.eqb_spec (ncols (cb_X (gc_b s))) (length (gc_theta s))); [congruence|auto].
Qed.
Print Assumptions C25_rejected.
(** the exponential object does not check: after setDimension the parameters may be shorter than the samples (out-of-bounds read) *)
Theorem C25_parameter_lengths_checked_refuted : exists ops s', ecf_computeMatrix (erun ops) = (s', UB).
Proof. exists [EInput (mkMat 2 2 [0;1;2;3]); EDim 1; EInit]. eexists. unfold ecf_computeMatrix. simpl. reflexivity. Qed.
Print Assumptions C25_parameter_lengths_checked_refuted.
Example C25_example : let X := mkMat 3 2 [0;1;2;0;1;5] in
  (exists s', gcf_computeMatrix (grun [GInput X; GHyper [1; 3]]) = (s', Ok tt) /\ nrows (cb_X (gc_b s')) = 3%nat) /\
  (exists s', ecf_computeMatrix (erun [EInput X; EHyper [1; 3; 1; 2]]) = (s', Ok tt) /\ nrows (cb_X (ec_b s')) = 3%nat).
Proof. intros X. split; eexists; (split; [unfold gcf_computeMatrix, ecf_computeMatrix; simpl; reflexivity|reflexivity]). Qed.

(** ** C26 *)
(** the kernels themselves: for any n points in dimension d *)
Theorem C26_gaussian_kernel_psd : forall n d (p : nat -> nat -> R) theta, (forall k, (k < d)%nat -> 0 <= theta k) ->
  psd n (fun i j => Kgauss d theta (p i) (p j)).
Proof.
  intros n d p theta Ht. apply smul_psd. apply (smul_ext n (fun i j => exp (- rsum d (fun k => theta k * Rpow (Rabs (p i k - p j k)) 2)))).
  - intros i j _ _. unfold Kgauss. f_equal. f_equal. apply rsum_ext. intros k Hk. f_equal. set (t := p i k - p j k). unfold Rpow. destruct (Req_EM_T (Rabs t) 0) as [E|E].
    + destruct (Req_EM_T 2 0); [lra|]. destruct (Req_dec t 0) as [Z|Z]. rewrite Z; ring. exfalso. apply (Rabs_no_R0 _ Z). auto.
    + pose proof (Rabs_pos t). replace 2 with (INR 2) by (simpl; lra). rewrite Rpower_pow by lra. rewrite RPow_abs. apply Rabs_right. apply Rle_ge. apply pow2_ge_0.
  - apply (smul_exp_kernel n d p theta (fun _ => 2)); auto. intros; lra.
Qed.
Print Assumptions C26_gaussian_kernel_psd.
Theorem C26_exponential_kernel_psd : forall n d (p : nat -> nat -> R) theta gamma,
  (forall k, (k < d)%nat -> 0 <= theta k) -> (forall k, (k < d)%nat -> 0 <= gamma k <= 2) ->
  psd n (fun i j => Kexp d theta gamma (p i) (p j)).
Proof. intros n d p theta gamma Ht Hg. apply smul_psd. apply smul_exp_kernel; auto. Qed.
Print Assumptions C26_exponential_kernel_psd.
(** the stored matrix always factorises, with positive diagonal, once epsilon > 0 *)
Theorem C26_gaussian_cholesky_succeeds : forall ops s', let s := grun ops in gcf_computeMatrix s = (s', Ok tt) ->
  (forall t, In t (gc_theta s) -> 0 <= t) -> 0 < cb_eps (gc_b s) ->
  let n := nrows (cb_X (gc_b s)) in
  posdef n (mget (cb_R (gc_b s'))) /\ exists L, mat_cholesky (cb_R (gc_b s')) = Ok (Some L) /\ forall i, (i < n)%nat -> 0 < mget L i i.
Proof.
  intros ops s' s E Ht He n. destruct (gauss_compute_ok s s' E) as (H1 & H2 & H3 & H4 & HM). fold n in HM.
  assert (posdef n (fun i j => gauss_corr (mrow (cb_X (gc_b s)) i) (mrow (cb_X (gc_b s)) j) (gc_theta s) (ncols (cb_X (gc_b s))) + cb_eps (gc_b s) * delta i j)) as HP.
  { apply psd_plus_eps; auto. apply psd_gauss. intros k Hk. apply Ht. apply nth_In. lia. }
  split. eapply quad_is_mat; eauto. eapply chol_of_is_mat; eauto.
  intros i j Hi Hj. rewrite gauss_corr_sym. unfold delta. rewrite Nat.eqb_sym. auto.
Qed.
Print Assumptions C26_gaussian_cholesky_succeeds.
Theorem C26_exponential_cholesky_succeeds : forall ops s', let s := erun ops in ecf_computeMatrix s = (s', Ok tt) ->
  (forall t, In t (ec_theta s) -> 0 <= t) -> (forall g, In g (ec_gamma s) -> 0 <= g <= 2) -> 0 < cb_eps (ec_b s) ->
  let n := nrows (cb_X (ec_b s)) in
  posdef n (mget (cb_R (ec_b s'))) /\ exists L, mat_cholesky (cb_R (ec_b s')) = Ok (Some L) /\ forall i, (i < n)%nat -> 0 < mget L i i.
Proof.
  intros ops s' s E Ht Hg He n. destruct (exp_compute_ok s s' E) as (H1 & H1' & H2 & H2' & H3 & H4 & HM). fold n in HM.
  eassert (posdef n _) as HP.
  { apply psd_plus_eps. 2: exact He. apply (psd_exp_matrix n (ncols (cb_X (ec_b s))) (fun i => mrow (cb_X (ec_b s)) i) (ec_theta s) (ec_gamma s)).
    intros k Hk. apply Ht. apply nth_In. lia. intros k Hk. apply Hg. apply nth_In. lia. }
  split. eapply quad_is_mat; eauto. eapply chol_of_is_mat; eauto.
  intros i j Hi Hj. cbv beta. unfold delta. rewrite (Nat.eqb_sym j i). rewrite exp_corr_sym. auto.
Qed.
Print Assumptions C26_exponential_cholesky_succeeds.
(** the default epsilon is positive and the default parameters qualify; samples may even coincide *)
Example C26_example : let X := mkMat 3 2 [0;0;2;1;1;5] in
  exists s', ecf_computeMatrix (erun [EInput X; EInit]) = (s', Ok tt) /\
  (forall t, In t (ec_theta (erun [EInput X; EInit])) -> 0 <= t) /\ (forall g, In g (ec_gamma (erun [EInput X; EInit])) -> 0 <= g <= 2) /\ 0 < cb_eps (ec_b (erun [EInput X; EInit])).
Proof.
  intros X. eexists. split. unfold ecf_computeMatrix. simpl. reflexivity. simpl. split; [|split].
  - intros t [<-|[<-|[]]]; lra.
  - intros t Ht. assert (t = Rlit 18 (-1)) as -> by (destruct Ht as [Ht|[Ht|[]]]; auto). unfold Rlit. simpl. lra.
  - unfold Rlit. simpl. lra.
Qed.

(** ** C27 *)
(** [shift x d t n] is x + t*d (first n components) *)
Theorem C27_gaussian_dot : forall xi xj dir theta n t,
  derivable_pt_lim (fun s => Kgauss n (co theta) (co xi) (fun k => co xj k + s * co dir k)) t
    (gauss_corr_dot xi (map (fun k => co xj k + t * co dir k) (seq 0 n)) dir theta n).
Proof.
  intros. apply (deriv_ext (fun s => gauss_corr xi (shift xj dir s n) theta n)). 2: apply gauss_dot_deriv.
  intros s. rewrite <- Kgauss_eq. apply Kgauss_ext; auto. intros k Hk. apply nth_shift; auto.
Qed.
Print Assumptions C27_gaussian_dot.
(** the second derivative, both directions moving the second sample *)
Theorem C27_gaussian_dotdot : forall xi xj dir1 dir2 theta n t,
  derivable_pt_lim (fun s => gauss_corr_dot xi (map (fun k => co xj k + s * co dir2 k) (seq 0 n)) dir1 theta n) t
    (gauss_corr_dotdot xi (map (fun k => co xj k + t * co dir2 k) (seq 0 n)) dir1 dir2 theta n).
Proof. intros. apply gauss_dotdot_deriv. Qed.
Print Assumptions C27_gaussian_dotdot.
(** hence the mixed derivative (first sample moved along dir2) is its negative *)
Theorem C27_mixed_derivative_is_negative : forall xi xj dir1 dir2 theta n t,
  derivable_pt_lim (fun s => gauss_corr_dot (map (fun k => co xi k + s * co dir2 k) (seq 0 n)) xj dir1 theta n) t
    (- gauss_corr_dotdot (map (fun k => co xi k + t * co dir2 k) (seq 0 n)) xj dir1 dir2 theta n).
Proof. intros. apply gauss_dotdot_mixed. Qed.
Print Assumptions C27_mixed_derivative_is_negative.
(** the exponential correlation, where the two points differ in every component *)
Theorem C27_exponential_dot : forall xi xj dir theta gamma n t, (forall k, (k < n)%nat -> co xi k <> co xj k + t * co dir k) ->
  derivable_pt_lim (fun s => Kexp n (co theta) (co gamma) (co xi) (fun k => co xj k + s * co dir k)) t
    (exp_corr_dot xi (map (fun k => co xj k + t * co dir k) (seq 0 n)) dir theta gamma n).
Proof.
  intros xi xj dir theta gamma n t H. apply (deriv_ext (fun s => exp_corr xi (shift xj dir s n) theta gamma n)). 2: apply exp_dot_deriv; auto.
  intros s. rewrite <- Kexp_eq. apply Kexp_ext; auto. intros k Hk. apply nth_shift; auto.
Qed.
Print Assumptions C27_exponential_dot.
Example C27_example : gauss_corr_dot [1] [0] [1] [1] 1 = 2 * exp (- 1) /\ gauss_corr_dotdot [0] [0] [1] [1] [1] 1 = - 2 /\ co [1] 0 <> co [0] 0 + 0 * co [1] 0.
Proof.
  rewrite gauss_dot_eq, gauss_dotdot_eq, !gauss_corr_eq. unfold co. cbn [rsum nth]. split; [|split; [|lra]].
  - replace (- (0 + 1 * ((1 - 0) * (1 - 0)))) with (- (1)) by ring. replace (-(1)) with (-1) by ring. ring.
  - replace (- (0 + 1 * ((0 - 0) * (0 - 0)))) with 0 by ring. rewrite exp_0. ring.
Qed.

(** ** C28 *)
Theorem C28_exponential_round_trip : forall ops v, let s := erun ops in let d := cb_dim (ec_b s) in (0 < d)%nat ->
  (length v = (2 * d)%nat ->
     exists s', ecf_setHyper s v = (s', Ok tt) /\ ecf_getHyper s' = Ok v /\
       (forall k, (k < d)%nat -> nth k (ec_theta s') 0 = nth k v 0 /\ nth k (ec_gamma s') 0 = nth (d + k) v 0) /\
       length (ec_theta s') = d /\ length (ec_gamma s') = d /\ ec_b s' = ec_b s) /\
  (length v <> (2 * d)%nat -> ecf_setHyper s v = (s, Throw InvalidArgument)).
Proof.
  intros ops v s d Hd. destruct (ecf_setHyper_ok s v Hd) as [H1 H2]. fold d in H1, H2. split; auto.
  intros Hl. destruct (H1 Hl) as (th & ga & L1 & L2 & -> & E). exists (mkE (ec_b s) th ga). split; auto. split. apply ecf_getHyper_ok; auto.
  cbn [ec_theta ec_gamma ec_b]. split; auto. intros k Hk. split. rewrite app_nth1 by lia; auto. rewrite app_nth2 by lia. f_equal. lia.
Qed.
Print Assumptions C28_exponential_round_trip.
Theorem C28_gaussian_round_trip : forall ops v, let s := grun ops in let d := cb_dim (gc_b s) in (0 < d)%nat ->
  (length v = d -> exists s', gcf_setHyper s v = (s', Ok tt) /\ gcf_getHyper s' = v /\ gc_b s' = gc_b s) /\
  (length v <> d -> gcf_setHyper s v = (s, Throw InvalidArgument)).
Proof.
  intros ops v s d Hd. unfold gcf_setHyper. fold d. split; intros H.
  - rewrite H. destruct (Nat.eqb_spec d 0); [lia|]. rewrite Nat.eqb_refl. cbn [negb]. eexists. split; [reflexivity|]. auto.
  - destruct (Nat.eqb_spec (length v) 0); auto. destruct (Nat.eqb_spec (length v) d); auto. contradiction.
Qed.
Print Assumptions C28_gaussian_round_trip.
(** the parameter check accepts exactly the right lengths with theta >= 0 and gamma in [0,2] *)
Theorem C28_check : forall (s : ecf R), let d := cb_dim (ec_b s) in (0 < d)%nat -> exists b, ecf_check s = Ok b /\
  (b = true <-> length (ec_theta s) = d /\ length (ec_gamma s) = d /\
     (forall k, (k < d)%nat -> 0 <= nth k (ec_theta s) 0) /\ (forall k, (k < d)%nat -> 0 <= nth k (ec_gamma s) 0 <= 2)).
Proof. intros s d Hd. apply ecf_check_ok; auto. Qed.
Print Assumptions C28_check.
(** the setters themselves do not check values *)
Theorem C28_setter_accepts_invalid_refuted : exists ops v s', ecf_setHyper (erun ops) v = (s', Ok tt) /\ ecf_check s' = Ok false.
Proof.
  exists [EDim 1], [-1; 3]. eexists. split. cbn. reflexivity.
  destruct (ecf_check_ok (mkE (mkCB mat_empty 0 1 mat_empty (nlit 1 (-12)) false) [-1] [3]) ltac:(simpl; lia)) as ([|] & E & H).
  - exfalso. destruct (proj1 H eq_refl) as (_ & _ & H1 & _). specialize (H1 0%nat ltac:(simpl; lia)). simpl in H1. lra.
  - exact E.
Qed.
Print Assumptions C28_setter_accepts_invalid_refuted.
Example C28_example : cb_dim (ec_b (erun [EDim 2])) = 2%nat /\ cb_dim (gc_b (grun [GDim 2])) = 2%nat.
Proof. split; reflexivity. Qed.
