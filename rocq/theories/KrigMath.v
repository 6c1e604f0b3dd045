(** Facts about the kriging equations and ridge regression, without reference to the program. *)
From Coq Require Import Reals Lra List Arith Lia Permutation.
From Verif Require Import Base Num RealNum RSpec VecModel MatModel MatLemmas VecReal CorrModel CorrProofs CorrSpec PsdKernel CholProofs2 CorrObj LuComplete KrigSpec.
Import ListNotations.
Local Open Scope R_scope.

(** *** linear algebra on index functions *)
Lemma mv_ext n A x y i : (forall j, (j < n)%nat -> x j = y j) -> mv n A x i = mv n A y i.
Proof. intros H. apply rsum_ext. intros; rewrite H; auto. Qed.
Lemma mv_minus n A x y i : mv n A (fun j => x j - y j) i = mv n A x i - mv n A y i.
Proof. unfold mv. rewrite <- rsum_minus. apply rsum_ext. intros; ring. Qed.
Lemma mv_plus n A x y i : mv n A (fun j => x j + y j) i = mv n A x i + mv n A y i.
Proof. unfold mv. rewrite <- rsum_plus. apply rsum_ext. intros; ring. Qed.
Lemma mv_scal n A a x i : mv n A (fun j => a * x j) i = a * mv n A x i.
Proof. unfold mv. rewrite <- rsum_scal. apply rsum_ext. intros; ring. Qed.
Lemma quad_mv n A x : quad n A x = rsum n (fun i => x i * mv n A x i).
Proof. unfold quad, mv. apply rsum_ext. intros. rewrite <- rsum_scal. apply rsum_ext. intros; ring. Qed.
Lemma mv_sym n A x y : symmetric n A -> rsum n (fun i => x i * mv n A y i) = rsum n (fun i => y i * mv n A x i).
Proof.
  intros S. unfold mv. rewrite (rsum_ext n _ (fun i => rsum n (fun j => A i j * x i * y j))). 2:{ intros. rewrite <- rsum_scal. apply rsum_ext. intros; ring. }
  rewrite rsum_swap. apply rsum_ext. intros i Hi. rewrite <- rsum_scal. apply rsum_ext. intros j Hj. rewrite (S i j) by auto. ring.
Qed.
Lemma posdef_unique n A x y : posdef n A -> (forall i, (i < n)%nat -> mv n A x i = mv n A y i) -> forall i, (i < n)%nat -> x i = y i.
Proof.
  intros P H i Hi. destruct (Req_dec (x i) (y i)) as [|Hne]; auto. exfalso.
  assert (0 < quad n A (fun j => x j - y j)) as H1. { apply P. exists i. split; auto. lra. }
  rewrite quad_mv in H1. rewrite rsum_0 in H1. lra. intros j Hj. rewrite mv_minus, H by auto. lra.
Qed.

(** *** kernel *)
Lemma kcorr_sym d th ga x y : kcorr d th ga x y = kcorr d th ga y x.
Proof. unfold kcorr. rewrite !Kexp_eq. apply exp_corr_sym. Qed.
Lemma kcorr_self d th ga x : kparams d th ga -> kcorr d th ga x x = 1.
Proof. intros (_ & _ & H). unfold kcorr. rewrite Kexp_eq. apply exp_corr_self. intros k Hk. specialize (H k Hk). lra. Qed.
Lemma kcorr_range d th ga x y : kparams d th ga -> 0 < kcorr d th ga x y <= 1.
Proof. intros (_ & _ & H). unfold kcorr. rewrite Kexp_eq. apply exp_corr_range. intros k Hk. specialize (H k Hk). lra. Qed.
Lemma kpsd d th ga (pts : nat -> list R) n : kparams d th ga -> psd n (fun i j => kcorr d th ga (pts i) (pts j)).
Proof.
  intros HP. pose proof HP as (_ & _ & H).
  apply (psd_ext n (fun i j => if Nat.eqb i j then 1 else exp_corr (pts i) (pts j) th ga d)).
  - intros i j _ _. destruct (Nat.eqb_spec i j). subst. rewrite kcorr_self; auto. unfold kcorr. rewrite Kexp_eq. auto.
  - apply psd_exp_matrix; intros k Hk; specialize (H k Hk); lra.
Qed.
Lemma kmat_sym d th ga eps pts n : symmetric n (kmat d th ga eps pts).
Proof. intros i j _ _. unfold kmat. rewrite kcorr_sym. f_equal. f_equal. unfold delta. rewrite Nat.eqb_sym. auto. Qed.
Lemma kmat_posdef d th ga eps pts n : kparams d th ga -> 0 < eps -> posdef n (kmat d th ga eps pts).
Proof. intros HP He. apply psd_plus_eps; auto. apply (kpsd d th ga (fun i => nth i pts [])); auto. Qed.
Lemma mv_kmat d th ga eps pts n x i : (i < n)%nat -> mv n (kmat d th ga eps pts) x i = rsum n (fun j => kcorr d th ga (nth i pts []) (nth j pts []) * x j) + eps * x i.
Proof.
  intros Hi. unfold mv, kmat. rewrite (rsum_ext n _ (fun j => kcorr d th ga (nth i pts []) (nth j pts []) * x j + eps * delta i j * x j)) by (intros; ring).
  rewrite rsum_plus. f_equal. rewrite (rsum_single n i); auto. unfold delta. rewrite Nat.eqb_refl. ring.
  intros k Hk Hne. unfold delta. destruct (Nat.eqb_spec i k); [lia|ring].
Qed.
(** R is bounded below by eps *)
Lemma kmat_coercive d th ga eps pts n x : kparams d th ga -> eps * rsum n (fun i => x i * x i) <= rsum n (fun i => x i * mv n (kmat d th ga eps pts) x i).
Proof.
  intros HP. rewrite (rsum_ext n (fun i => x i * mv n (kmat d th ga eps pts) x i) (fun i => x i * rsum n (fun j => kcorr d th ga (nth i pts []) (nth j pts []) * x j) + eps * (x i * x i))).
  2:{ intros i Hi. rewrite mv_kmat by auto. ring. }
  rewrite rsum_plus, rsum_scal. pose proof (kpsd d th ga (fun i => nth i pts []) n HP x) as H. rewrite quad_mv in H. unfold mv in H. lra.
Qed.

Lemma sumsq_zero n e (w : nat -> R) : 0 < e -> e * rsum n (fun i => w i * w i) <= 0 -> forall j, (j < n)%nat -> w j = 0.
Proof.
  intros He H j Hj. assert (w j * w j <= rsum n (fun i => w i * w i)) as H1 by (apply (rsum_ge_term n (fun i => w i * w i)); auto; intros; apply Rle_0_sqr).
  assert (rsum n (fun i => w i * w i) <= 0) as H2 by (apply (Rmult_le_reg_l e); lra). apply Rsqr_0_uniq. pose proof (Rle_0_sqr (w j)). unfold Rsqr in *. lra.
Qed.
(** *** kriging *)
Lemma kregular_eps d th ga eps pts : kparams d th ga -> 0 < eps -> kregular d th ga eps pts.
Proof. intros. split. lra. apply kmat_posdef; auto. Qed.
Lemma posdef_zero n A w : posdef n A -> quad n A w <= 0 -> forall i, (i < n)%nat -> w i = 0.
Proof.
  intros PD Q i Hi. destruct (Req_dec (w i) 0) as [|H]; auto. exfalso. assert (0 < quad n A w); [|lra]. apply PD. exists i. auto.
Qed.
Section Kriging.
  Variables (d : nat) (th ga : list R) (eps : R) (pts : list (list R)).
  Hypothesis HP : kparams d th ga.
  Hypothesis HR : kregular d th ga eps pts.
  Local Notation n := (length pts).
  Local Notation A := (kmat d th ga eps pts).
  Let He : 0 <= eps := proj1 HR.
  Let PD : posdef n A := proj2 HR.
  Let SY : symmetric n A := kmat_sym d th ga eps pts n.

  Lemma kriging_reproduces y beta w s2 i : kriging d th ga eps pts y beta w s2 -> (i < n)%nat ->
    kpredict d th ga pts beta w (nth i pts []) = y i - eps * w i.
  Proof.
    intros [H1 H2 H3] Hi. specialize (H1 i Hi). rewrite mv_kmat in H1 by auto. unfold kpredict. lra.
  Qed.
  (** the deviations at the training points are no larger than the residuals *)
  Lemma kriging_error_bound y beta w s2 : kriging d th ga eps pts y beta w s2 ->
    rsum n (fun i => (eps * w i) * (eps * w i)) <= rsum n (fun i => (y i - beta) * (y i - beta)).
  Proof.
    intros [H1 H2 H3]. pose proof (kmat_coercive d th ga eps pts n w HP) as C.
    rewrite (rsum_ext n (fun i => w i * mv n A w i) (fun i => w i * (y i - beta))) in C by (intros; rewrite H1; auto).
    pose proof (rsum_cauchy n w (fun i => y i - beta)) as CS. cbv beta in CS.
    rewrite (rsum_ext n (fun i => eps * w i * (eps * w i)) (fun i => (eps * eps) * (w i * w i))) by (intros; ring). rewrite rsum_scal.
    set (a := rsum n (fun i => w i * w i)) in *. set (b := rsum n (fun i => w i * (y i - beta))) in *. set (c := rsum n (fun i => (y i - beta) * (y i - beta))) in *.
    assert (0 <= a) by (apply rsum_nonneg; intros; apply Rle_0_sqr). assert (0 <= c) by (apply rsum_nonneg; intros; apply Rle_0_sqr).
    destruct (Req_dec a 0) as [E|E]. rewrite E. lra.
    assert (0 < a) by lra. apply (Rmult_le_reg_r a); auto. assert (eps * a * (eps * a) <= b * b) by (apply Rmult_le_compat; nra). lra.
  Qed.
  Lemma kriging_unique y beta w s2 beta' w' s2' : (0 < n)%nat -> kriging d th ga eps pts y beta w s2 -> kriging d th ga eps pts y beta' w' s2' ->
    beta' = beta /\ (forall i, (i < n)%nat -> w' i = w i) /\ s2' = s2.
  Proof.
    intros Hn [H1 H2 H3] [G1 G2 G3].
    assert (quad n A (fun j => w' j - w j) = 0) as Q.
    { rewrite quad_mv. rewrite (rsum_ext n _ (fun i => (beta - beta') * (w' i - w i))). rewrite rsum_scal, rsum_minus. rewrite G2, H2. ring.
      intros i Hi. rewrite mv_minus, H1, G1 by auto. ring. }
    assert (forall i, (i < n)%nat -> w' i = w i) as W.
    { intros i Hi. destruct (Req_dec (w' i) (w i)) as [|Hne]; auto. exfalso. assert (0 < quad n A (fun j => w' j - w j)) by (apply PD; exists i; split; auto; lra). lra. }
    assert (beta' = beta) as B. { specialize (H1 0%nat Hn). specialize (G1 0%nat Hn). rewrite (mv_ext n A w' w) in G1 by auto. lra. }
    split; auto. split; auto. apply (Rmult_eq_reg_l (INR n)). 2:{ apply not_0_INR; lia. }
    rewrite H3, G3. apply rsum_ext. intros i Hi. rewrite W, B by auto. auto.
  Qed.
  Lemma kriging_affine a b y beta w s2 : kriging d th ga eps pts y beta w s2 ->
    kriging d th ga eps pts (fun i => a * y i + b) (a * beta + b) (fun i => a * w i) (a ^ 2 * s2).
  Proof.
    intros [H1 H2 H3]. constructor.
    - intros i Hi. rewrite mv_scal, H1 by auto. ring.
    - rewrite rsum_scal, H2. ring.
    - rewrite <- Rmult_assoc, (Rmult_comm (INR n)), Rmult_assoc, H3, <- rsum_scal. apply rsum_ext. intros; ring.
  Qed.
  Lemma kpredict_affine a b beta w x : kpredict d th ga pts (a * beta + b) (fun i => a * w i) x = a * kpredict d th ga pts beta w x + b.
  Proof.
    unfold kpredict. rewrite (rsum_ext _ _ (fun j => a * (kcorr d th ga x (nth j pts []) * w j))) by (intros; ring). rewrite rsum_scal. ring.
  Qed.
  (** the mean minimises the generalised least squares cost *)
  Lemma kriging_gls y beta w s2 b u : kriging d th ga eps pts y beta w s2 -> (forall i, (i < n)%nat -> mv n A u i = y i - b) ->
    rsum n (fun i => (y i - beta) * w i) <= rsum n (fun i => (y i - b) * u i) /\
    (b <> beta -> (0 < n)%nat -> rsum n (fun i => (y i - beta) * w i) < rsum n (fun i => (y i - b) * u i)).
  Proof.
    intros [H1 H2 H3] G. set (e := fun i => u i - w i).
    assert (rsum n (fun i => (y i - b) * u i) = rsum n (fun i => (y i - beta) * w i) + quad n A e) as E.
    { rewrite (rsum_ext n (fun i => (y i - b) * u i) (fun i => u i * mv n A u i)) by (intros; rewrite G by auto; ring).
      rewrite (rsum_ext n (fun i => (y i - beta) * w i) (fun i => w i * mv n A w i)) by (intros; rewrite H1 by auto; ring).
      rewrite quad_mv. rewrite (rsum_ext n (fun i => e i * mv n A e i) (fun i => u i * mv n A u i - w i * mv n A u i - (u i * mv n A w i - w i * mv n A w i))).
      2:{ intros i Hi. unfold e. rewrite mv_minus. ring. }
      rewrite !rsum_minus. rewrite (mv_sym n A u w SY).
      assert (rsum n (fun i => w i * mv n A u i) = rsum n (fun i => w i * mv n A w i)) as X.
      { rewrite (rsum_ext n (fun i => w i * mv n A u i) (fun i => w i * mv n A w i + (beta - b) * w i)). rewrite rsum_plus, rsum_scal, H2. ring.
        intros i Hi. rewrite G, H1 by auto. ring. }
      lra. }
    assert (0 <= quad n A e) as Q0 by (pose proof (kmat_coercive d th ga eps pts n e HP) as C; rewrite <- quad_mv in C; assert (0 <= rsum n (fun i => e i * e i)) by (apply rsum_nonneg; intros; apply Rle_0_sqr); nra).
    split. lra. intros Hb Hn. assert (0 < quad n A e); [|lra]. apply PD. destruct (Req_dec (e 0%nat) 0) as [E0|E0]; [|exists 0%nat; auto].
    (* if all e were zero, b = beta *)
    assert (~ (forall i, (i < n)%nat -> e i = 0)) as NA.
    { intros Z. apply Hb. specialize (H1 0%nat Hn). specialize (G 0%nat Hn). assert (mv n A u 0 = mv n A w 0). apply mv_ext. intros j Hj. specialize (Z j Hj). unfold e in Z. lra. lra. }
    assert (forall m, (forall i, (i < m)%nat -> e i = 0) \/ exists i, (i < m)%nat /\ e i <> 0) as Dec.
    { induction m. left; intros; lia. destruct IHm as [Z|(i & Hi & Z)]; [|right; exists i; split; auto].
      destruct (Req_dec (e m) 0). left. intros i Hi. destruct (Nat.eq_dec i m); [subst; auto|apply Z; lia]. right. exists m. auto. }
    destruct (Dec n) as [Z|Z]; [contradiction|auto].
  Qed.
  Lemma kriging_s2_nonneg y beta w s2 : (0 < n)%nat -> kriging d th ga eps pts y beta w s2 -> 0 <= s2 /\ (s2 = 0 <-> forall i, (i < n)%nat -> y i = beta).
  Proof.
    intros Hn [H1 H2 H3]. assert (0 < INR n) by (apply lt_0_INR; auto).
    assert (INR n * s2 = quad n A w) as Q. { rewrite H3, quad_mv. apply rsum_ext. intros i Hi. rewrite H1 by auto. ring. }
    pose proof (kmat_coercive d th ga eps pts n w HP) as C. rewrite <- quad_mv, <- Q in C.
    assert (0 <= rsum n (fun i => w i * w i)) as S0 by (apply rsum_nonneg; intros; apply Rle_0_sqr).
    split. { apply (Rmult_le_reg_l (INR n)); auto. rewrite Rmult_0_r. nra. }
    split.
    - intros Z i Hi. rewrite Z, Rmult_0_r in C.
      assert (forall j, (j < n)%nat -> w j = 0) as WZ by (apply (posdef_zero n A); auto; rewrite <- Q, Z; lra).
      specialize (H1 i Hi). unfold mv in H1. rewrite rsum_0 in H1. lra. intros j Hj. rewrite WZ by auto. ring.
    - intros Z. apply (Rmult_eq_reg_l (INR n)); [|lra]. rewrite H3, Rmult_0_r. apply rsum_0. intros i Hi. rewrite Z by auto. ring.
  Qed.

  (** variance terms *)
  Lemma kvar_nonneg x t1 t2 : (0 < n)%nat -> kvar_terms d th ga eps pts x t1 t2 -> 0 <= t1 /\ 0 <= t2 <= 1.
  Proof.
    intros Hn (z & v & Z & V & E1 & E2).
    assert (0 < rsum n v) as SV.
    { assert (rsum n v = quad n A v) as ->. { rewrite quad_mv. apply rsum_ext. intros i Hi. rewrite V by auto. ring. }
      apply PD. destruct (Req_dec (v 0%nat) 0) as [V0|V0]; [|exists 0%nat; auto].
      assert (forall m, (forall i, (i < m)%nat -> v i = 0) \/ exists i, (i < m)%nat /\ v i <> 0) as Dec.
      { induction m. left; intros; lia. destruct IHm as [Q|(i & Hi & Q)]; [|right; exists i; split; auto].
        destruct (Req_dec (v m) 0). left. intros i Hi. destruct (Nat.eq_dec i m); [subst; auto|apply Q; lia]. right. exists m. auto. }
      destruct (Dec n) as [Q|Q]; auto. exfalso. specialize (V 0%nat Hn). unfold mv in V. rewrite rsum_0 in V. lra. intros j Hj. rewrite Q by auto. ring. }
    split. { rewrite E1. apply Rmult_le_pos. apply pow2_ge_0. left. apply Rinv_0_lt_compat; auto. }
    set (r := fun i => kcorr d th ga x (nth i pts [])) in *.
    assert (rsum n (fun i => r i * z i) = quad n A z) as Q. { rewrite quad_mv. apply rsum_ext. intros i Hi. rewrite Z by auto. unfold r. ring. }
    pose proof (kmat_coercive d th ga eps pts n z HP) as C. rewrite <- quad_mv in C.
    assert (0 <= rsum n (fun i => z i * z i)) as S0 by (apply rsum_nonneg; intros; apply Rle_0_sqr).
    assert (t2 = 1 - rsum n (fun i => r i * z i)) as -> by (exact E2). split; [|nra].
    (* augmented set: points x :: pts with coefficients 1, -z *)
    set (p := fun i => match i with O => x | S k => nth k pts [] end). set (u := fun i => match i with O => 1 | S k => - z k end).
    pose proof (kpsd d th ga p (S n) HP u) as K. rewrite quad_mv in K. rewrite rsum_S_l in K. unfold mv in K. rewrite rsum_S_l in K. cbn [p u] in K.
    rewrite kcorr_self in K by auto.
    rewrite (rsum_ext n (fun i => - z i * rsum (S n) (fun j => kcorr d th ga (nth i pts []) (p j) * u j)) (fun i => - (r i * z i) + (z i * mv n A z i - eps * (z i * z i)))) in K.
    2:{ intros i Hi. rewrite rsum_S_l. cbn [p u]. rewrite (kcorr_sym d th ga (nth i pts []) x). fold (r i). rewrite mv_kmat by auto.
        rewrite (rsum_ext n _ (fun j => - (kcorr d th ga (nth i pts []) (nth j pts []) * z j))) by (intros; ring). rewrite rsum_opp. ring. }
    rewrite (rsum_ext n (fun k => kcorr d th ga x (nth k pts []) * - z k) (fun i => - (r i * z i))) in K by (intros; unfold r; ring).
    rewrite rsum_plus, rsum_minus, rsum_opp, rsum_scal, <- quad_mv, <- Q in K. nra.
  Qed.
  (** at a training point both terms are at most eps *)
  Lemma kvar_training i t1 t2 : (i < n)%nat -> kvar_terms d th ga eps pts (nth i pts []) t1 t2 -> t1 <= eps /\ t2 <= eps.
  Proof.
    intros Hi K. pose proof (kvar_nonneg _ _ _ ltac:(lia) K) as (P1 & P2 & P3). destruct K as (z & v & Z & V & E1 & E2).
    set (r := fun j => kcorr d th ga (nth i pts []) (nth j pts [])) in *.
    assert (forall u, rsum n (fun j => r j * u j) = mv n A u i - eps * u i) as RU. { intros u. rewrite mv_kmat by auto. unfold r. lra. }
    assert (t2 = eps * z i) as T2. { rewrite E2. change (1 - rsum n (fun j => r j * z j) = eps * z i). rewrite (RU z), Z by auto. unfold r. rewrite kcorr_self by auto. ring. }
    assert (forall u, (forall j, (j < n)%nat -> mv n A u j = r j) -> True) by auto.
    (* z = e_i - eps * q with R q = e_i; use the quadratic forms instead *)
    assert (rsum n (fun j => r j * z j) = quad n A z) as Q. { rewrite quad_mv. apply rsum_ext. intros j Hj. rewrite Z by auto. unfold r. ring. }
    pose proof (kmat_coercive d th ga eps pts n z HP) as C. rewrite <- quad_mv, <- Q in C.
    assert (z i * z i <= rsum n (fun j => z j * z j)) as Zi by (apply (rsum_ge_term n (fun j => z j * z j)); auto; intros; apply Rle_0_sqr).
    assert (rsum n (fun j => r j * z j) = 1 - eps * z i) as S1. { rewrite (RU z), Z by auto. unfold r. rewrite kcorr_self by auto. ring. }
    split.
    - assert (rsum n z = rsum n (fun j => r j * v j)) as SZ.
      { rewrite (rsum_ext n z (fun j => z j * mv n A v j)) by (intros; rewrite V by auto; ring). rewrite mv_sym by auto. apply rsum_ext. intros j Hj. rewrite Z by auto. unfold r. ring. }
      rewrite (RU v), V in SZ by auto. rewrite E1, SZ. replace ((1 - eps * v i - 1) ^ 2) with ((eps * v i) * (eps * v i)) by ring.
      pose proof (kmat_coercive d th ga eps pts n v HP) as CV. rewrite (rsum_ext n (fun j => v j * mv n A v j) v) in CV by (intros; rewrite V by auto; ring).
      assert (v i * v i <= rsum n (fun j => v j * v j)) as Vi by (apply (rsum_ge_term n (fun j => v j * v j)); auto; intros; apply Rle_0_sqr).
      destruct (Req_dec (rsum n v) 0) as [EV|EV]. { exfalso. assert (forall j, (j < n)%nat -> v j = 0) as VZ. { apply (posdef_zero n A); auto. rewrite quad_mv, (rsum_ext n _ v) by (intros; rewrite V by auto; ring). lra. }
        specialize (V i Hi). unfold mv in V. rewrite rsum_0 in V. lra. intros j Hj. rewrite VZ by auto. ring. }
      assert (0 <= rsum n v) by (assert (0 <= rsum n (fun j => v j * v j)) by (apply rsum_nonneg; intros; apply Rle_0_sqr); nra).
      apply (Rmult_le_reg_r (rsum n v)). lra. unfold Rdiv. rewrite Rmult_assoc, Rinv_l by auto. nra.
    - rewrite T2. pose proof (kmat_coercive d th ga eps pts n (fun j => z j - delta i j) HP) as C2. cbv beta in C2.
      rewrite (rsum_ext n (fun j => (z j - delta i j) * mv n A (fun j => z j - delta i j) j) (fun j => - eps * ((z j - delta i j) * delta i j))) in C2.
      + rewrite rsum_scal, (rsum_single n i (fun j => (z j - delta i j) * delta i j)) in C2; auto.
        * assert (delta i i = 1) as D1 by (unfold delta; rewrite Nat.eqb_refl; auto). rewrite D1 in C2. assert (0 <= rsum n (fun j => (z j - delta i j) * (z j - delta i j))) by (apply rsum_nonneg; intros; apply Rle_0_sqr). nra.
        * intros k Hk Hne. unfold delta. destruct (Nat.eqb_spec i k); [lia|ring].
      + intros j Hj. rewrite mv_minus, Z by auto. rewrite mv_kmat by auto. rewrite (rsum_single n i); auto.
        * rewrite (kcorr_sym d th ga (nth j pts [])). assert (delta i i = 1) as -> by (unfold delta; rewrite Nat.eqb_refl; auto). ring.
        * intros k Hk Hne. unfold delta. destruct (Nat.eqb_spec i k); [lia|ring].
  Qed.
End Kriging.

(** *** ridge regression *)
Lemma lpredict_phi d c x : lpredict d c x = rsum (S d) (fun j => phi x j * c j).
Proof. rewrite rsum_S_l. unfold lpredict. cbn [phi]. ring. Qed.
Lemma ridge_expand d pts y lam c c' : normal_eqs d pts y lam c ->
  ridge_cost d pts y lam c' = ridge_cost d pts y lam c +
    (rsum (length pts) (fun i => lpredict d (fun j => c' j - c j) (nth i pts []) * lpredict d (fun j => c' j - c j) (nth i pts [])) +
     lam * rsum (S d) (fun j => (c' j - c j) * (c' j - c j))).
Proof.
  intros H. set (e := fun j => c' j - c j). set (n := length pts).
  assert (forall x, lpredict d c' x = lpredict d c x + lpredict d e x) as LP. { intros x. unfold lpredict, e. rewrite (rsum_ext d (fun j => nth j x 0 * c' (S j)) (fun j => nth j x 0 * c (S j) + nth j x 0 * (c' (S j) - c (S j)))) by (intros; ring). rewrite rsum_plus. ring. }
  unfold ridge_cost. fold n.
  rewrite (rsum_ext n (fun i => (y i - lpredict d c' (nth i pts [])) ^ 2) (fun i => (y i - lpredict d c (nth i pts [])) ^ 2 + (lpredict d e (nth i pts []) * lpredict d e (nth i pts []) + (- 2) * ((y i - lpredict d c (nth i pts [])) * lpredict d e (nth i pts [])))))
    by (intros; rewrite LP; ring).
  rewrite (rsum_ext (S d) (fun j => c' j ^ 2) (fun j => c j ^ 2 + (e j * e j + 2 * (c j * e j)))) by (intros; unfold e; ring).
  rewrite !rsum_plus, !rsum_scal.
  assert (rsum n (fun i => (y i - lpredict d c (nth i pts [])) * lpredict d e (nth i pts [])) = lam * rsum (S d) (fun j => c j * e j)) as X.
  { rewrite (rsum_ext n _ (fun i => rsum (S d) (fun j => (y i - lpredict d c (nth i pts [])) * (phi (nth i pts []) j * e j)))).
    2:{ intros i Hi. rewrite (lpredict_phi d e), <- rsum_scal. auto. }
    rewrite rsum_swap, <- rsum_scal. apply rsum_ext. intros j Hj. specialize (H j ltac:(lia)). fold n in H.
    rewrite (rsum_ext n _ (fun i => e j * (phi (nth i pts []) j * y i - phi (nth i pts []) j * lpredict d c (nth i pts [])))) by (intros; ring).
    rewrite rsum_scal, rsum_minus, <- H. ring. }
  rewrite X. change (fun j => (c' j - c j) * (c' j - c j)) with (fun j => e j * e j). ring.
Qed.
Lemma normal_ridge d pts y lam c : 0 < lam -> normal_eqs d pts y lam c -> ridge d pts y lam c.
Proof.
  intros Hl H c'. rewrite (ridge_expand d pts y lam c c' H).
  assert (0 <= rsum (length pts) (fun i => lpredict d (fun j => c' j - c j) (nth i pts []) * lpredict d (fun j => c' j - c j) (nth i pts []))) by (apply rsum_nonneg; intros; apply Rle_0_sqr).
  assert (0 <= rsum (S d) (fun j => (c' j - c j) * (c' j - c j))) by (apply rsum_nonneg; intros; apply Rle_0_sqr). nra.
Qed.
Lemma normal_unique d pts y lam c c' : 0 < lam -> normal_eqs d pts y lam c -> ridge_cost d pts y lam c' <= ridge_cost d pts y lam c -> forall j, (j <= d)%nat -> c' j = c j.
Proof.
  intros Hl H Hc j Hj. rewrite (ridge_expand d pts y lam c c' H) in Hc.
  assert (0 <= rsum (length pts) (fun i => lpredict d (fun j => c' j - c j) (nth i pts []) * lpredict d (fun j => c' j - c j) (nth i pts []))) by (apply rsum_nonneg; intros; apply Rle_0_sqr).
  assert (c' j - c j = 0); [|lra]. apply (sumsq_zero (S d) lam (fun j => c' j - c j)); auto; try lia. cbv beta. lra.
Qed.
Lemma normal_scale d pts y lam c a : normal_eqs d pts y lam c -> normal_eqs d pts (fun i => a * y i) lam (fun j => a * c j).
Proof.
  intros H j Hj. rewrite (rsum_ext _ (fun i => phi (nth i pts []) j * (a * y i)) (fun i => a * (phi (nth i pts []) j * y i))) by (intros; ring).
  rewrite rsum_scal, <- H by auto. rewrite Rmult_plus_distr_l, <- rsum_scal. f_equal; [|ring].
  apply rsum_ext. intros i Hi. unfold lpredict. rewrite (rsum_ext d _ (fun j0 => a * (nth j0 (nth i pts []) 0 * c (S j0)))) by (intros; ring). rewrite rsum_scal. ring.
Qed.
Lemma lpredict_scale d a c x : lpredict d (fun j => a * c j) x = a * lpredict d c x.
Proof. unfold lpredict. rewrite (rsum_ext d _ (fun j => a * (nth j x 0 * c (S j)))) by (intros; ring). rewrite rsum_scal. ring. Qed.
Lemma lpredict_ext d c c' x : (forall j, (j <= d)%nat -> c j = c' j) -> lpredict d c x = lpredict d c' x.
Proof. intros H. unfold lpredict. rewrite H by lia. f_equal. apply rsum_ext. intros; rewrite H by lia; auto. Qed.

(** *** order of the samples *)
Lemma rsum_list n (f : nat -> R) : rsum n f = fold_right Rplus 0 (map f (seq 0 n)).
Proof.
  induction n; auto. cbn [rsum]. rewrite IHn, seq_S, map_app, fold_right_app. simpl. clear IHn. generalize (map f (seq 0 n)). induction l; simpl; lra.
Qed.
Lemma fold_plus_perm l l' : Permutation l l' -> fold_right Rplus 0 l = fold_right Rplus 0 l'.
Proof. induction 1; simpl; lra. Qed.
Lemma rsum_reindex n (f : nat -> R) (s : nat -> nat) : Permutation (map s (seq 0 n)) (seq 0 n) -> rsum n (fun i => f (s i)) = rsum n f.
Proof. intros H. rewrite !rsum_list. rewrite <- (fold_plus_perm _ _ (Permutation_map f H)). rewrite map_map. auto. Qed.
Lemma perm_index {A} (l l' : list A) (dflt : A) : Permutation l l' -> exists s : nat -> nat, Permutation (map s (seq 0 (length l))) (seq 0 (length l)) /\
  (forall i, (i < length l)%nat -> (s i < length l)%nat /\ nth (s i) l dflt = nth i l' dflt).
Proof.
  intros H. apply (Permutation_nth l l' dflt) in H. destruct H as (HL & s & B & I & E). exists s. split.
  - apply NoDup_Permutation_bis.
    + assert (forall m k, (k + m <= length l)%nat -> NoDup (map s (seq k m))) as X.
      { induction m; intros k Hk; simpl. constructor. constructor. intros Hin. apply in_map_iff in Hin. destruct Hin as (q & Eq & Hq). apply in_seq in Hq.
        assert (q = k). apply I; try lia. auto. lia. apply IHm. lia. }
      apply (X (length l) 0%nat). lia.
    + rewrite map_length. auto.
    + intros q Hq. apply in_map_iff in Hq. destruct Hq as (k & <- & Hk). apply in_seq in Hk. apply in_seq. split. lia. simpl. apply B. lia.
  - intros i Hi. split. apply B; auto. symmetry. apply E. lia.
Qed.
Lemma kmat_reindex d th ga eps pts pts' (s : nat -> nat) i j : (forall i, (i < length pts)%nat -> (s i < length pts)%nat /\ nth (s i) pts [] = nth i pts' []) ->
  Permutation (map s (seq 0 (length pts))) (seq 0 (length pts)) -> (i < length pts)%nat -> (j < length pts)%nat ->
  kmat d th ga eps pts' i j = kmat d th ga eps pts (s i) (s j).
Proof.
  intros H P Hi Hj. unfold kmat. rewrite (proj2 (H i Hi)), (proj2 (H j Hj)). f_equal. f_equal. unfold delta.
  destruct (Nat.eqb_spec i j) as [->|Hne]. rewrite Nat.eqb_refl; auto. destruct (Nat.eqb_spec (s i) (s j)) as [E|]; auto. exfalso.
  assert (NoDup (map s (seq 0 (length pts)))) as ND by (apply (Permutation_NoDup (Permutation_sym P)), seq_NoDup).
  rewrite (NoDup_nth _ 0%nat) in ND. apply Hne. apply ND.
  - rewrite map_length, seq_length; auto. 
  - rewrite map_length, seq_length; auto.
  - rewrite (nth_indep _ 0%nat (s 0%nat)) by (rewrite map_length, seq_length; auto). rewrite (nth_indep (map s (seq 0 (length pts))) 0%nat (s 0%nat)) by (rewrite map_length, seq_length; auto).
    rewrite !map_nth, !seq_nth by auto. auto.
Qed.
Section Reindex.
  Variables (d : nat) (th ga : list R) (eps : R) (pts pts' : list (list R)) (s : nat -> nat).
  Hypothesis HL : length pts' = length pts.
  Hypothesis HS : forall i, (i < length pts)%nat -> (s i < length pts)%nat /\ nth (s i) pts [] = nth i pts' [].
  Hypothesis HPm : Permutation (map s (seq 0 (length pts))) (seq 0 (length pts)).
  Lemma mv_reindex x i : (i < length pts)%nat -> mv (length pts) (kmat d th ga eps pts') (fun j => x (s j)) i = mv (length pts) (kmat d th ga eps pts) x (s i).
  Proof.
    intros Hi. unfold mv. rewrite <- (rsum_reindex (length pts) (fun j => kmat d th ga eps pts (s i) j * x j) s HPm).
    apply rsum_ext. intros j Hj. rewrite (kmat_reindex d th ga eps pts pts' s i j) by auto. auto.
  Qed.
  Lemma kriging_reindex y y' beta w s2 : (forall i, (i < length pts)%nat -> y' i = y (s i)) -> kriging d th ga eps pts y beta w s2 -> kriging d th ga eps pts' y' beta (fun i => w (s i)) s2.
  Proof.
    intros Hy [H1 H2 H3]. constructor; rewrite HL.
    - intros i Hi. rewrite mv_reindex by auto. rewrite H1 by (apply HS; auto). rewrite Hy; auto.
    - rewrite (rsum_reindex _ w s HPm). auto.
    - rewrite H3. rewrite <- (rsum_reindex (length pts) (fun i => (y i - beta) * w i) s HPm). apply rsum_ext. intros i Hi. rewrite Hy by auto. auto.
  Qed.
  Lemma kpredict_reindex beta w x : kpredict d th ga pts' beta (fun i => w (s i)) x = kpredict d th ga pts beta w x.
  Proof.
    unfold kpredict. rewrite HL. f_equal. rewrite <- (rsum_reindex (length pts) (fun j => kcorr d th ga x (nth j pts []) * w j) s HPm).
    apply rsum_ext. intros j Hj. rewrite (proj2 (HS j Hj)). auto.
  Qed.
  Lemma kvar_reindex x t1 t2 : kvar_terms d th ga eps pts x t1 t2 -> kvar_terms d th ga eps pts' x t1 t2.
  Proof.
    intros (z & v & Z & V & E1 & E2). exists (fun i => z (s i)), (fun i => v (s i)). rewrite HL. split; [|split; [|split]].
    - intros i Hi. rewrite mv_reindex, Z by (auto; apply HS; auto). rewrite (proj2 (HS i Hi)). auto.
    - intros i Hi. rewrite mv_reindex, V by (auto; apply HS; auto). auto.
    - rewrite (rsum_reindex _ z s HPm), (rsum_reindex _ v s HPm). auto.
    - rewrite E2. f_equal. rewrite <- (rsum_reindex (length pts) (fun j => kcorr d th ga x (nth j pts []) * z j) s HPm).
      apply rsum_ext. intros j Hj. rewrite (proj2 (HS j Hj)). auto.
  Qed.
  Lemma normal_reindex y y' lam c : (forall i, (i < length pts)%nat -> y' i = y (s i)) -> normal_eqs d pts y lam c -> normal_eqs d pts' y' lam c.
  Proof.
    intros Hy H j Hj. rewrite HL. specialize (H j Hj).
    rewrite <- (rsum_reindex _ (fun i => phi (nth i pts []) j * lpredict d c (nth i pts [])) s HPm) in H.
    rewrite <- (rsum_reindex _ (fun i => phi (nth i pts []) j * y i) s HPm) in H.
    rewrite (rsum_ext _ _ (fun i => phi (nth (s i) pts []) j * lpredict d c (nth (s i) pts []))) by (intros i Hi; rewrite (proj2 (HS i Hi)); auto). rewrite H.
    apply rsum_ext. intros i Hi. rewrite (proj2 (HS i Hi)), Hy by auto. auto.
  Qed.
End Reindex.
Lemma kriging_ext d th ga eps pts y y' beta w s2 : (forall i, (i < length pts)%nat -> y' i = y i) -> kriging d th ga eps pts y beta w s2 -> kriging d th ga eps pts y' beta w s2.
Proof. intros H [H1 H2 H3]. constructor; auto. intros i Hi. rewrite H by auto. auto. rewrite H3. apply rsum_ext. intros; rewrite H; auto. Qed.
Lemma kpredict_ext d th ga pts beta w w' x : (forall i, (i < length pts)%nat -> w' i = w i) -> kpredict d th ga pts beta w' x = kpredict d th ga pts beta w x.
Proof. intros H. unfold kpredict. f_equal. apply rsum_ext. intros; rewrite H; auto. Qed.
Lemma kvar_unique d th ga eps pts x t1 t2 t1' t2' : kregular d th ga eps pts -> kvar_terms d th ga eps pts x t1 t2 -> kvar_terms d th ga eps pts x t1' t2' -> t1' = t1 /\ t2' = t2.
Proof.
  intros HR (z & v & Z & V & E1 & E2) (z' & v' & Z' & V' & E1' & E2').
  pose proof (posdef_unique _ _ z z' (proj2 HR)) as U1. pose proof (posdef_unique _ _ v v' (proj2 HR)) as U2.
  assert (forall i, (i < length pts)%nat -> z i = z' i) as Ez by (apply U1; intros; rewrite Z, Z'; auto).
  assert (forall i, (i < length pts)%nat -> v i = v' i) as Ev by (apply U2; intros; rewrite V, V'; auto).
  subst. rewrite (rsum_ext _ z' z), (rsum_ext _ v' v) by (intros; symmetry; auto). split; auto.
  f_equal. apply rsum_ext. intros; rewrite Ez; auto.
Qed.
Lemma kvar_factor_unique d th ga eps pts x u u' : kregular d th ga eps pts -> kvar_factor d th ga eps pts x u -> kvar_factor d th ga eps pts x u' -> u' = u.
Proof.
  intros HR (z & v & Z & V & E) (z' & v' & Z' & V' & E').
  pose proof (posdef_unique _ _ z z' (proj2 HR)) as U1. pose proof (posdef_unique _ _ v v' (proj2 HR)) as U2.
  assert (forall i, (i < length pts)%nat -> z i = z' i) as Ez by (apply U1; intros; rewrite Z, Z'; auto).
  assert (forall i, (i < length pts)%nat -> v i = v' i) as Ev by (apply U2; intros; rewrite V, V'; auto).
  cbv zeta in *. rewrite (rsum_ext _ z' z), (rsum_ext _ v' v) in E' by (intros; symmetry; auto).
  rewrite (rsum_ext _ (fun i => kcorr d th ga x (nth i pts []) * z' i) (fun i => kcorr d th ga x (nth i pts []) * z i)) in E' by (intros; rewrite Ez; auto). congruence.
Qed.
Lemma kvar_factor_reindex d th ga eps pts pts' (s : nat -> nat) x u : length pts' = length pts ->
  (forall i, (i < length pts)%nat -> (s i < length pts)%nat /\ nth (s i) pts [] = nth i pts' []) -> Permutation (map s (seq 0 (length pts))) (seq 0 (length pts)) ->
  kvar_factor d th ga eps pts x u -> kvar_factor d th ga eps pts' x u.
Proof.
  intros HL HS HPm (z & v & Z & V & E). exists (fun i => z (s i)), (fun i => v (s i)). rewrite HL. split; [|split].
  - intros i Hi. rewrite (mv_reindex d th ga eps pts pts' s) by auto. rewrite Z by (apply HS; auto). rewrite (proj2 (HS i Hi)). auto.
  - intros i Hi. rewrite (mv_reindex d th ga eps pts pts' s) by auto. rewrite V by (apply HS; auto). auto.
  - rewrite (rsum_reindex _ z s HPm), (rsum_reindex _ v s HPm).
    rewrite (rsum_ext _ (fun i => kcorr d th ga x (nth i pts' []) * z (s i)) (fun i => kcorr d th ga x (nth (s i) pts []) * z (s i))) by (intros i Hi; rewrite (proj2 (HS i Hi)); auto).
    rewrite (rsum_reindex _ (fun i => kcorr d th ga x (nth i pts []) * z i) s HPm). auto.
Qed.
