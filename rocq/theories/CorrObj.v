(** The correlation function objects: call histories, stored matrix, positive definiteness. *)
From Coq Require Import Reals Lra Psatz List Arith Lia ZArith Bool.
From Verif Require Import Base Num RealNum RSpec VecModel MatModel MatLemmas VecReal VecProofs VecProofs2 CholProofs2 CorrModel CorrProofs CorrSpec PsdKernel.
Import ListNotations.
Local Open Scope R_scope.

Lemma Kgauss_eq d theta v w : Kgauss d (co theta) (co v) (co w) = gauss_corr v w theta d.
Proof. rewrite gauss_corr_eq. unfold Kgauss, co. f_equal. f_equal. apply rsum_ext. intros. ring. Qed.
Lemma Kexp_eq d theta gamma v w : Kexp d (co theta) (co gamma) (co v) (co w) = exp_corr v w theta gamma d.
Proof. rewrite exp_corr_eq. auto. Qed.
Lemma Kgauss_ext d theta x y x' y' : (forall k, (k < d)%nat -> x k = x' k) -> (forall k, (k < d)%nat -> y k = y' k) -> Kgauss d theta x y = Kgauss d theta x' y'.
Proof. intros E1 E2. unfold Kgauss. f_equal. f_equal. apply rsum_ext. intros. rewrite E1, E2; auto. Qed.
Lemma Kexp_ext d theta gamma x y x' y' : (forall k, (k < d)%nat -> x k = x' k) -> (forall k, (k < d)%nat -> y k = y' k) -> Kexp d theta gamma x y = Kexp d theta gamma x' y'.
Proof. intros E1 E2. unfold Kexp. f_equal. f_equal. apply rsum_ext. intros. rewrite E1, E2; auto. Qed.
Lemma co_mrow (X : mat R) i k : (k < ncols X)%nat -> co (mrow X i) k = mget X i k.
Proof. intros. exact (vget_mrow X i k H). Qed.

(** operations of a GaussianCorrelationFunction / ExponentialCorrelationFunction object *)
Inductive gop := GInput (X : mat R) | GDim (d : nat) | GEps (e : R) | GInit | GHyper (v : list R) | GCompute.
Definition gwithb (s : gcf R) (r : cbase R * Res unit) : gcf R * Res unit := (mkG (fst r) (gc_theta s), snd r).
Definition gstep (s : gcf R) (o : gop) : gcf R * Res unit :=
  match o with
  | GInput X => gwithb s (cb_setInput (gc_b s) X)
  | GDim d => gwithb s (cb_setDimension (gc_b s) d)
  | GEps e => gwithb s (cb_setEpsilon (gc_b s) e)
  | GInit => gcf_initialize s
  | GHyper v => gcf_setHyper s v
  | GCompute => gcf_computeMatrix s
  end.
Definition grun (ops : list gop) : gcf R := fold_left (fun s o => fst (gstep s o)) ops gcf_new.
Inductive eop := EInput (X : mat R) | EDim (d : nat) | EEps (e : R) | EInit | EHyper (v : list R) | ETheta (v : list R) | EGamma (v : list R) | ECompute.
Definition ewithb (s : ecf R) (r : cbase R * Res unit) : ecf R * Res unit := (mkE (fst r) (ec_theta s) (ec_gamma s), snd r).
Definition estep (s : ecf R) (o : eop) : ecf R * Res unit :=
  match o with
  | EInput X => ewithb s (cb_setInput (ec_b s) X)
  | EDim d => ewithb s (cb_setDimension (ec_b s) d)
  | EEps e => ewithb s (cb_setEpsilon (ec_b s) e)
  | EInit => ecf_initialize s
  | EHyper v => ecf_setHyper s v
  | ETheta v => ecf_setTheta s v
  | EGamma v => ecf_setGamma s v
  | ECompute => ecf_computeMatrix s
  end.
Definition erun (ops : list eop) : ecf R := fold_left (fun s o => fst (estep s o)) ops ecf_new.

Definition binv (b : cbase R) : Prop := 0 <= cb_eps b < 1 /\ (cb_set b = true -> cb_N b = nrows (cb_X b)).
Lemma binv_new : binv cbase_new.
Proof. unfold binv; simpl. split; [|discriminate]. unfold Rlit. simpl. assert (10 ^ 12 <> 0) by (apply pow_nonzero; lra).
  assert (0 < / 10 ^ 12). { apply Rinv_0_lt_compat. apply pow_lt. lra. }
  assert (/ 10 ^ 12 < 1). { rewrite <- Rinv_1. apply Rinv_lt_contravar; simpl; lra. }
  simpl in *. lra.
Qed.
Lemma binv_input b X : binv b -> binv (fst (cb_setInput b X)).
Proof. intros [H1 H2]. unfold cb_setInput. destruct (mat_isEmpty X); split; auto. Qed.
Lemma binv_dim b d : binv b -> binv (fst (cb_setDimension b d)).
Proof. intros [H1 H2]. unfold cb_setDimension. destruct (Nat.eqb d 0); split; auto. Qed.
Lemma binv_eps b e : binv b -> binv (fst (cb_setEpsilon b e)).
Proof.
  intros [H1 H2]. unfold cb_setEpsilon. destruct ((e <! n0) || (e >=! n1))%bool eqn:E; split; auto. simpl in *.
  apply orb_false_iff in E as [E1 E2]. apply Rltb_false in E1. apply Rleb_false in E2. lra.
Qed.
Lemma grun_inv ops : binv (gc_b (grun ops)).
Proof.
  unfold grun. assert (binv (gc_b gcf_new)) as H by apply binv_new. revert H. generalize (@gcf_new R RNum) as s.
  induction ops as [|o ops IH]; intros s H; auto. simpl. apply IH. destruct o; simpl.
  apply binv_input; auto. apply binv_dim; auto. apply binv_eps; auto.
  - unfold gcf_initialize. destruct (Nat.eqb _ 0); auto.
  - unfold gcf_setHyper. destruct (Nat.eqb _ 0); auto. destruct (negb _); auto.
  - unfold gcf_computeMatrix. destruct (cb_set (gc_b s)) eqn:Es; simpl; auto. destruct (corrmat_gauss _ _); auto. destruct H as [H1 H2]. split; auto.
Qed.
Lemma ecf_setTheta_b (s : ecf R) v : ec_b (fst (ecf_setTheta s v)) = ec_b s.
Proof. unfold ecf_setTheta. destruct (_ || _)%bool; auto. Qed.
Lemma ecf_setGamma_b (s : ecf R) v : ec_b (fst (ecf_setGamma s v)) = ec_b s.
Proof. unfold ecf_setGamma. destruct (_ || _)%bool; auto. Qed.
Lemma erun_inv ops : binv (ec_b (erun ops)).
Proof.
  unfold erun. assert (binv (ec_b ecf_new)) as H by apply binv_new. revert H. generalize (@ecf_new R RNum) as s.
  induction ops as [|o ops IH]; intros s H; auto. simpl. apply IH. destruct o; cbn [estep fst ewithb ec_b].
  apply binv_input; auto. apply binv_dim; auto. apply binv_eps; auto.
  - unfold ecf_initialize. destruct (Nat.eqb _ 0); auto. pose proof (ecf_setTheta_b s (repeat n1 (cb_dim (ec_b s)))) as E. destruct (ecf_setTheta _ _) as [s1 [| |]]; simpl in *.
    rewrite ecf_setGamma_b, E; auto. rewrite E; auto. rewrite E; auto.
  - unfold ecf_setHyper. destruct (negb _); auto. destruct (vec_head _ _); auto; destruct (vec_tail _ _); auto.
    pose proof (ecf_setTheta_b s a) as E. destruct (ecf_setTheta s a) as [s1 [| |]]; simpl in *. rewrite ecf_setGamma_b, E; auto. rewrite E; auto. rewrite E; auto.
  - rewrite ecf_setTheta_b; auto.
  - rewrite ecf_setGamma_b; auto.
  - unfold ecf_computeMatrix. destruct (cb_set (ec_b s)) eqn:Es; simpl; auto. destruct (_ || _)%bool; auto. destruct H as [H1 H2]. split; auto.
Qed.

Lemma gauss_compute_ok (s s' : gcf R) : gcf_computeMatrix s = (s', Ok tt) ->
  length (gc_theta s) = ncols (cb_X (gc_b s)) /\ gc_theta s' = gc_theta s /\ cb_X (gc_b s') = cb_X (gc_b s) /\ cb_eps (gc_b s') = cb_eps (gc_b s) /\
  is_mat (cb_R (gc_b s')) (nrows (cb_X (gc_b s))) (nrows (cb_X (gc_b s)))
    (fun i j => gauss_corr (mrow (cb_X (gc_b s)) i) (mrow (cb_X (gc_b s)) j) (gc_theta s) (ncols (cb_X (gc_b s))) + cb_eps (gc_b s) * delta i j).
Proof.
  unfold gcf_computeMatrix. destruct (cb_set (gc_b s)); simpl; [|discriminate]. destruct (corrmat_gauss (cb_X (gc_b s)) (gc_theta s)) as [C|e|] eqn:E; try discriminate.
  intros H. injection H as <-. simpl. destruct (gauss_matrix_ok _ _ _ E) as [H1 H2]. split; auto. split; auto. split; auto. split; auto.
  apply addEps_ok; auto.
Qed.
Lemma exp_compute_ok (s s' : ecf R) : ecf_computeMatrix s = (s', Ok tt) ->
  (ncols (cb_X (ec_b s)) <= length (ec_theta s))%nat /\ (ncols (cb_X (ec_b s)) <= length (ec_gamma s))%nat /\
  ec_theta s' = ec_theta s /\ ec_gamma s' = ec_gamma s /\ cb_X (ec_b s') = cb_X (ec_b s) /\ cb_eps (ec_b s') = cb_eps (ec_b s) /\
  is_mat (cb_R (ec_b s')) (nrows (cb_X (ec_b s))) (nrows (cb_X (ec_b s)))
    (fun i j => (if Nat.eqb i j then 1 else exp_corr (mrow (cb_X (ec_b s)) i) (mrow (cb_X (ec_b s)) j) (ec_theta s) (ec_gamma s) (ncols (cb_X (ec_b s)))) + cb_eps (ec_b s) * delta i j).
Proof.
  unfold ecf_computeMatrix. destruct (cb_set (ec_b s)); cbn [negb]; [|discriminate].
  destruct (Nat.ltb_spec (length (ec_theta s)) (ncols (cb_X (ec_b s)))); [discriminate|].
  destruct (Nat.ltb_spec (length (ec_gamma s)) (ncols (cb_X (ec_b s)))); [discriminate|]. cbn [orb].
  intros E. injection E as <-. cbn [ec_b ec_theta ec_gamma cb_R cb_X cb_eps]. do 6 (split; auto). apply addEps_ok. apply exp_loops_ok.
Qed.

(** the exponential matrix is psd for theta >= 0 and gamma in [0,2] *)
Lemma psd_diag n (c : nat -> R) : (forall i, (i < n)%nat -> 0 <= c i) -> psd n (fun i j => c i * delta i j).
Proof.
  intros H x. unfold quad. apply rsum_nonneg. intros i Hi. rewrite (rsum_single n i); auto.
  unfold delta. rewrite Nat.eqb_refl. specialize (H i Hi). nra. intros k Hk Hne. unfold delta. destruct (Nat.eqb_spec i k); [subst; contradiction|ring].
Qed.
Lemma psd_exp_matrix n dd (p : nat -> list R) theta gamma :
  (forall k, (k < dd)%nat -> 0 <= nth k theta 0) -> (forall k, (k < dd)%nat -> 0 <= nth k gamma 0 <= 2) ->
  psd n (fun i j => if Nat.eqb i j then 1 else exp_corr (p i) (p j) theta gamma dd).
Proof.
  intros Ht Hg.
  apply (psd_ext n (fun i j => exp (- rsum dd (fun k => nth k theta 0 * Rpow (Rabs (nth k (p i) 0 - nth k (p j) 0)) (nth k gamma 0))) +
                    (1 - exp_corr (p i) (p i) theta gamma dd) * delta i j)).
  - intros i j _ _. rewrite <- exp_corr_eq. unfold delta. destruct (Nat.eqb_spec i j). subst. ring. ring.
  - apply psd_plus. apply smul_psd. apply (smul_exp_kernel n dd (fun i k => nth k (p i) 0) (fun k => nth k theta 0) (fun k => nth k gamma 0)); auto.
    apply psd_diag. intros i Hi. pose proof (exp_corr_range (p i) (p i) theta gamma dd Ht). lra.
Qed.
Lemma quad_is_mat (m : mat R) n f : is_mat m n n f -> posdef n f -> posdef n (mget m).
Proof. intros (W & Hr & Hc & H) P x Hx. rewrite (quad_ext n (mget m) f). auto. intros; apply H; auto. Qed.
Lemma chol_of_is_mat (m : mat R) n f : is_mat m n n f -> symmetric n f -> posdef n f ->
  exists L, mat_cholesky m = Ok (Some L) /\ forall i, (i < n)%nat -> 0 < mget L i i.
Proof.
  intros M S P. pose proof M as (W & Hr & Hc & H). subst n. destruct (cholesky_complete m) as (L & E & _ & HL).
  - lia.
  - intros i j Hi Hj. rewrite !H by auto. apply S; auto.
  - eapply quad_is_mat; eauto.
  - eauto.
Qed.

(** ecf parameters *)
Lemma ecf_setHyper_ok (s : ecf R) v : (0 < cb_dim (ec_b s))%nat ->
  (length v = (2 * cb_dim (ec_b s))%nat -> exists th ga, length th = cb_dim (ec_b s) /\ length ga = cb_dim (ec_b s) /\ v = th ++ ga /\
     ecf_setHyper s v = (mkE (ec_b s) th ga, Ok tt)) /\
  (length v <> (2 * cb_dim (ec_b s))%nat -> ecf_setHyper s v = (s, Throw InvalidArgument)).
Proof.
  intros Hd. set (d := cb_dim (ec_b s)) in *. split; intros Hv.
  - pose proof (firstn_length d v) as L1. pose proof (skipn_length d v) as L2.
    exists (firstn d v), (skipn d v). split. lia. split. lia. split. symmetry; apply firstn_skipn.
    unfold ecf_setHyper. fold d. rewrite Hv, Nat.eqb_refl. cbn [negb]. unfold vec_head, vec_tail. rewrite Hv.
    destruct (Nat.ltb_spec (2 * d) d); [lia|]. replace (2 * d - d)%nat with d by lia.
    unfold ecf_setTheta. fold d. rewrite L1, Hv. replace (Nat.min d (2 * d)) with d by lia.
    destruct (Nat.eqb_spec d 0); [lia|]. rewrite Nat.eqb_refl. cbn [orb negb].
    unfold ecf_setGamma. cbn [ec_b]. fold d. rewrite L2, Hv. replace (2 * d - d)%nat with d by lia. destruct (Nat.eqb_spec d 0); [lia|]. rewrite Nat.eqb_refl. cbn [orb negb]. auto.
  - unfold ecf_setHyper. fold d. destruct (Nat.eqb_spec (length v) (2 * d)); [contradiction|auto].
Qed.
Lemma ecf_getHyper_ok (b : cbase R) th ga : (0 < cb_dim b)%nat -> length th = cb_dim b -> length ga = cb_dim b -> ecf_getHyper (mkE b th ga) = Ok (th ++ ga).
Proof.
  intros Hd H1 H2. unfold ecf_getHyper. cbn [ec_b ec_theta ec_gamma]. destruct (Nat.eqb_spec (cb_dim b) 0); [lia|]. rewrite H1, H2, Nat.ltb_irrefl. cbn [orb].
  f_equal. apply (list_ext _ _ 0). rewrite vbuild_length, app_length; lia.
  rewrite vbuild_length. intros k Hk. change (nth k (vbuild ?a ?f) 0) with (vget (vbuild a f) k). rewrite vget_vbuild by auto.
  destruct (Nat.ltb_spec k (cb_dim b)). rewrite app_nth1 by lia. auto. rewrite app_nth2 by lia. rewrite H1. auto.
Qed.
Lemma ecf_check_ok (s : ecf R) : (0 < cb_dim (ec_b s))%nat -> exists b, ecf_check s = Ok b /\
  (b = true <-> length (ec_theta s) = cb_dim (ec_b s) /\ length (ec_gamma s) = cb_dim (ec_b s) /\
     (forall k, (k < cb_dim (ec_b s))%nat -> 0 <= nth k (ec_theta s) 0) /\ (forall k, (k < cb_dim (ec_b s))%nat -> 0 <= nth k (ec_gamma s) 0 <= 2)).
Proof.
  intros Hd. unfold ecf_check. destruct (Nat.eqb_spec (length (ec_gamma s)) (cb_dim (ec_b s))) as [E1|E1]; cbn [negb].
  2:{ exists false. split; auto. split; [discriminate|]. intros (_ & H & _). contradiction. }
  destruct (Nat.eqb_spec (length (ec_theta s)) (cb_dim (ec_b s))) as [E2|E2]; cbn [negb].
  2:{ exists false. split; auto. split; [discriminate|]. intros (H & _). contradiction. }
  assert (ec_gamma s <> []) as Ng by (intros N; rewrite N in E1; simpl in E1; lia).
  assert (ec_theta s <> []) as Nt by (intros N; rewrite N in E2; simpl in E2; lia).
  destruct (findMax_ok (ec_gamma s) Ng (good_all _)) as (i & _ & -> & Hi & Mi & _).
  destruct (findMin_ok (ec_gamma s) Ng (good_all _)) as (j & _ & -> & Hj & Mj & _).
  destruct (findMin_ok (ec_theta s) Nt (good_all _)) as (k & _ & -> & Hk & Mk & _). simpl in *.
  destruct (Rltb 2 (nth i (ec_gamma s) 0)) eqn:G1; cbn [orb].
  { exists false. split; auto. split; [discriminate|]. intros (_ & _ & _ & H). apply Rltb_true in G1. specialize (H i ltac:(lia)). lra. }
  destruct (Rltb (nth j (ec_gamma s) 0) 0) eqn:G2.
  { exists false. split; auto. split; [discriminate|]. intros (_ & _ & _ & H). apply Rltb_true in G2. specialize (H j ltac:(lia)). lra. }
  apply Rltb_false in G1. apply Rltb_false in G2.
  eexists. split; [reflexivity|]. destruct (Rltb (nth k (ec_theta s) 0) 0) eqn:G3; cbn [negb].
  { split; [discriminate|]. intros (_ & _ & H & _). apply Rltb_true in G3. specialize (H k ltac:(lia)). lra. }
  split; auto. intros _. apply Rltb_false in G3. split; auto. split; auto. split.
  - intros m Hm. specialize (Mk m ltac:(lia)). apply Rleb_true in Mk. simpl in *. lra.
  - intros m Hm. specialize (Mi m ltac:(lia)). specialize (Mj m ltac:(lia)). apply Rleb_true in Mi. apply Rleb_true in Mj. simpl in *. lra.
Qed.
