(** Properties C17-C24: Cholesky, LU, and the two linear-system objects.
    Matrices are read through [mget]; [posdef], [symmetric], [singular], [mv], [mm], [delta] are in RSpec,
    [det] (Laplace expansion) in DetSpec. *)
From Coq Require Import Reals Lra Psatz List Arith Lia ZArith Bool Permutation.
From Verif Require Import Base Num RealNum NumFloat RSpec DetSpec VecModel MatModel MatLemmas CholProofs CholProofs2 MatReal
  LuProofs LuProofs2 LinSolverModel LinSolverProofs.
Import ListNotations.
Local Open Scope R_scope.

(** ** C17 *)
Theorem C17_cholesky_sound : forall (A L : mat R), symmetric (nrows A) (mget A) -> mat_cholesky A = Ok (Some L) ->
  nrows A = ncols A /\ wf L /\ nrows L = nrows A /\ ncols L = nrows A /\
  (forall i, (i < nrows A)%nat -> 0 <= mget L i i) /\
  (forall i j, (i < nrows A)%nat -> (j < nrows A)%nat -> (i < j)%nat -> mget L i j = 0) /\
  ((forall i, (i < nrows A)%nat -> mget L i i <> 0) ->
   forall i j, (i < nrows A)%nat -> (j < nrows A)%nat -> rsum (nrows A) (fun k => mget L i k * mget L j k) = mget A i j).
Proof. exact cholesky_sound. Qed.
Print Assumptions C17_cholesky_sound.
Theorem C17_cholesky_complete : forall (A : mat R), nrows A = ncols A -> symmetric (nrows A) (mget A) -> posdef (nrows A) (mget A) ->
  exists L, mat_cholesky A = Ok (Some L) /\ forall i, (i < nrows A)%nat -> 0 < mget L i i.
Proof. intros A H1 H2 H3. destruct (cholesky_complete A H1 H2 H3) as (L & X & _ & Y). eauto. Qed.
Print Assumptions C17_cholesky_complete.
(** success with no zero pivot means positive definite: cholesky is a decision procedure up to zero pivots *)
Theorem C17_cholesky_success_means_posdef : forall (A L : mat R), symmetric (nrows A) (mget A) -> mat_cholesky A = Ok (Some L) ->
  (forall i, (i < nrows A)%nat -> mget L i i <> 0) -> posdef (nrows A) (mget A).
Proof. exact cholesky_success_posdef. Qed.
Print Assumptions C17_cholesky_success_means_posdef.
Theorem C17_cholesky_rejects_non_square : forall (A : mat R), nrows A <> ncols A -> mat_cholesky A = Throw InvalidArgument.
Proof. intros A H. unfold mat_cholesky. destruct (Nat.eqb_spec (nrows A) (ncols A)); [contradiction|reflexivity]. Qed.
Print Assumptions C17_cholesky_rejects_non_square.
(** [[2,1],[1,2]] is symmetric positive definite *)
Definition A21 : mat R := mkMat 2 2 [2; 1; 1; 2].
Example A21_ok : nrows A21 = ncols A21 /\ symmetric 2 (mget A21) /\ posdef 2 (mget A21).
Proof.
  split; auto. split.
  - intros i j Hi Hj. destruct i as [|[|]], j as [|[|]]; try lia; reflexivity.
  - intros x (i & Hi & Hx). unfold quad, mget. simpl.
    assert (x 0%nat <> 0 \/ x 1%nat <> 0) by (destruct i as [|[|]]; auto; lia).
    assert (0 < x 0%nat * x 0%nat + x 1%nat * x 1%nat) as HH.
    { destruct H. assert (0 < x 0%nat * x 0%nat) by (apply Rsqr_pos_lt; auto). nra. assert (0 < x 1%nat * x 1%nat) by (apply Rsqr_pos_lt; auto). nra. }
    nra.
Qed.
Example C17_example : exists L, mat_cholesky A21 = Ok (Some L) /\ 0 < mget L 1 1.
Proof. destruct (C17_cholesky_complete A21) as (L & E & H); try apply A21_ok. exists L. split; [exact E|]. apply H. simpl; lia. Qed.

(** ** C18 *)
(** whenever a singular symmetric matrix is accepted, the factor has a zero pivot *)
Theorem C18_accepted_singular_has_zero_pivot : forall (A L : mat R), symmetric (nrows A) (mget A) -> singular (nrows A) (mget A) ->
  mat_cholesky A = Ok (Some L) -> exists i, (i < nrows A)%nat /\ mget L i i = 0.
Proof.
  intros A L Hs (x & Hx & H0) E.
  destruct (forallb (fun i => negb (Reqb (mget L i i) 0)) (seq 0 (nrows A))) eqn:F.
  - exfalso. rewrite forallb_forall in F.
    assert (forall i, (i < nrows A)%nat -> mget L i i <> 0) as Hd.
    { intros i Hi Hz. specialize (F i ltac:(apply in_seq; lia)). destruct (Reqb_spec (mget L i i) 0); simpl in F; congruence. }
    pose proof (cholesky_success_posdef A L Hs E Hd x Hx) as HP. unfold quad in HP.
    rewrite (rsum_ext _ _ (fun _ => 0)) in HP. rewrite rsum_0 in HP; auto. lra.
    intros i Hi. rewrite (rsum_ext _ _ (fun j => x i * (mget A i j * x j))) by (intros; ring). rewrite rsum_scal.
    specialize (H0 i Hi). unfold mv in H0. rewrite H0. ring.
  - assert (exists i, In i (seq 0 (nrows A)) /\ negb (Reqb (mget L i i) 0) = false) as (i & Hi & Hn).
    { clear -F. revert F. generalize (seq 0 (nrows A)). induction l; simpl; intros. discriminate.
      apply andb_false_iff in F. destruct F. exists a; auto. destruct (IHl H) as (i & I1 & I2). eauto. }
    exists i. split. apply in_seq in Hi; lia. destruct (Reqb_spec (mget L i i) 0); auto. discriminate.
Qed.
Print Assumptions C18_accepted_singular_has_zero_pivot.
(** "cholesky succeeds only for invertible matrices" is false *)
Theorem C18_success_implies_invertible_refuted : exists (A L : mat R),
  symmetric (nrows A) (mget A) /\ psd (nrows A) (mget A) /\ singular (nrows A) (mget A) /\ mat_cholesky A = Ok (Some L).
Proof.
  set (A := mkMat 2 2 [1; 1; 1; 1]).
  assert (symmetric 2 (mget A)) as HS by (intros i j Hi Hj; destruct i as [|[|]], j as [|[|]]; try lia; reflexivity).
  assert (singular 2 (mget A)) as HSg.
  { exists (fun i => if Nat.eqb i 0 then 1 else -1). split. exists 0%nat. split. lia. simpl. lra.
    intros i Hi. unfold mv, mget. destruct i as [|[|]]; try lia; simpl; lra. }
  destruct (cholesky_cases A eq_refl) as [(L & E & H)|(E & i & L & Hi & H & Hf)].
  - exists A, L. split; auto. split; auto.
    intros x. unfold quad, mget. simpl. pose proof (Rle_0_sqr (x 0%nat + x 1%nat)). unfold Rsqr in *. nra.
  - exfalso. destruct H as (W & Hr & Hc & Hz & He). unfold cfac in Hf. simpl in Hi. destruct i as [|[|]]; try lia.
    + unfold mget in Hf. simpl in Hf. lra.
    + assert (cdone 1 1 0 0) as D0 by (unfold cdone; lia). assert (cdone 1 1 1 0) as D1 by (unfold cdone; lia).
      pose proof (He 0%nat 0%nat ltac:(simpl; lia) ltac:(simpl; lia) D0) as [E0 E1].
      pose proof (He 1%nat 0%nat ltac:(simpl; lia) ltac:(simpl; lia) D1) as E2. unfold cent in E2. simpl in E2.
      unfold cfac in E1. simpl in E1. change (mget A 0 0) with 1 in E1. change (mget A 1 0) with 1 in E2. change (mget A 1 1) with 1 in Hf.
      simpl in Hf. replace (1 - 0) with 1 in E1 by lra. rewrite sqrt_1 in E1. rewrite E1 in E2.
      replace (1 / 1 * (1 - 0)) with 1 in E2 by lra. rewrite E2 in Hf. lra.
Qed.
Print Assumptions C18_success_implies_invertible_refuted.
(** in binary64: all-ones 2x2 is accepted, and the solution for b = (1, 2) is infinite *)
Theorem C18_binary64_solution_not_finite_refuted : exists (A L : mat F) (b x : list F),
  mat_cholesky A = Ok (Some L) /\ mat_solveCholesky L b = Ok x /\ Forall (fun y => Fisnan y = false) b /\
  nth 1 x (FofZ 0) = SpecFloat.S754_infinity false.
Proof.
  exists (mkMat 2 2 [FofZ 1; FofZ 1; FofZ 1; FofZ 1]). eexists. exists [FofZ 1; FofZ 2]. eexists.
  split. vm_compute. reflexivity. split. vm_compute. reflexivity. split. repeat constructor. vm_compute. reflexivity.
Qed.
Print Assumptions C18_binary64_solution_not_finite_refuted.

(** ** C19 *)
Theorem C19_cholesky_solve : forall (A L : mat R) b, symmetric (nrows A) (mget A) -> mat_cholesky A = Ok (Some L) ->
  (forall i, (i < nrows A)%nat -> mget L i i <> 0) -> length b = nrows A ->
  exists x, mat_solveCholesky L b = Ok x /\ length x = nrows A /\
    forall i, (i < nrows A)%nat -> mv (nrows A) (mget A) (fun j => nth j x 0) i = nth i b 0.
Proof. exact cholesky_solve. Qed.
Print Assumptions C19_cholesky_solve.
(** the object, after any history of calls ending with a held factorisation *)
Theorem C19_cholesky_system_solves : forall ops (s : chol_sys R) b, chol_history ops s -> chol_isDone s = true ->
  symmetric (cs_dim s) (mget (cs_A s)) -> posdef (cs_dim s) (mget (cs_A s)) -> length b = cs_dim s ->
  exists x, chol_solve s b = Ok x /\ length x = cs_dim s /\
    forall i, (i < cs_dim s)%nat -> mv (cs_dim s) (mget (cs_A s)) (fun j => nth j x 0) i = nth i b 0.
Proof. exact chol_system_solves. Qed.
Print Assumptions C19_cholesky_system_solves.
Theorem C19_wrong_sizes_rejected : forall (L : mat R) b, nrows L <> ncols L \/ nrows L <> length b -> mat_solveCholesky L b = Throw InvalidArgument.
Proof.
  intros L b H. unfold mat_solveCholesky. destruct (Nat.eqb_spec (nrows L) (ncols L)), (Nat.eqb_spec (nrows L) (length b)); simpl; auto. tauto.
Qed.
Print Assumptions C19_wrong_sizes_rejected.
Definition sysA21 : chol_sys R := fst (chol_factorize (chol_setMatrix chol_new A21)).
Example sysA21_history : chol_history ([] ++ [SetMatrix A21] ++ [Factorize]) sysA21 /\ chol_isDone sysA21 = true /\ cs_A sysA21 = A21 /\ cs_dim sysA21 = 2%nat.
Proof.
  assert (chol_isDone sysA21 = true) as HD by (apply chol_factorize_posdef; apply A21_ok).
  split. apply (ch_factorize ([] ++ [SetMatrix A21])). apply ch_set_matrix. apply ch_new. reflexivity.
  split; auto. unfold sysA21, chol_factorize. destruct (mat_cholesky _) as [[|]| |]; auto.
Qed.
Example C19_example : exists x, chol_solve sysA21 [3; 3] = Ok x /\ 2 * nth 0 x 0 + 1 * nth 1 x 0 = 3.
Proof.
  destruct sysA21_history as (H & D & EA & ED). destruct (C19_cholesky_system_solves _ sysA21 [3;3] H D) as (x & X1 & X2 & X3);
    try (rewrite ED, EA; apply A21_ok). rewrite ED; auto.
  exists x. split; auto. specialize (X3 0%nat). rewrite ED, EA in X3. specialize (X3 ltac:(lia)). unfold mv, mget in X3. simpl in X3. lra.
Qed.

(** ** C20 *)
Theorem C20_determinant_and_log : forall ops (s : chol_sys R) n, chol_history ops s -> chol_isDone s = true -> n = nrows (cs_A s) -> (0 < n)%nat ->
  symmetric n (mget (cs_A s)) -> posdef n (mget (cs_A s)) ->
  0 < det n (mget (cs_A s)) /\ chol_det s = Ok (det n (mget (cs_A s))) /\ chol_logdet s = Ok (ln (det n (mget (cs_A s)))).
Proof. exact chol_det_ok. Qed.
Print Assumptions C20_determinant_and_log.
Example C20_example : chol_det sysA21 = Ok 3 /\ chol_logdet sysA21 = Ok (ln 3).
Proof.
  destruct sysA21_history as (H & D & EA & ED). destruct (C20_determinant_and_log _ sysA21 2 H D) as (X1 & X2 & X3); try lia;
    try (rewrite EA; apply A21_ok).
  rewrite EA in *. replace (det 2 (mget A21)) with 3 in *; auto. unfold A21, mget; simpl. unfold rsum, skip; simpl. lra.
Qed.

(** ** C21 *)
(** [lo lu] and [up lu] are the unit lower and the upper triangle stored in [lu] *)
Theorem C21_lu : forall (A lu : mat R) p, wf A -> mat_lu A = Ok (Some (lu, p)) -> let n := nrows A in
  ncols A = n /\ wf lu /\ nrows lu = n /\ ncols lu = n /\ Permutation p (seq 0 n) /\
  (forall i j, (i < n)%nat -> (j < n)%nat -> mget A (nth i p 0%nat) j = mm n (lo lu) (up lu) i j) /\
  (forall i m, (i < n)%nat -> (m < i)%nat -> Rabs (mget lu i m) <= 1) /\
  (forall m, (m < n)%nat -> 1 / 10 ^ 9 <= Rabs (mget lu m m)).
Proof.
  intros A lu p W E n. unfold mat_lu in E. destruct (Nat.eqb_spec (nrows A) (ncols A)) as [Hs|]; simpl in E; [|discriminate].
  assert (isq A (nrows A)) as Hq by (split; auto). pose proof (lu_decomposition_ok A Hq) as H. injection E as E. rewrite E in H.
  destruct (li_sq _ _ _ _ _ H) as (S1 & S2 & S3).
  split; auto. split; auto. split; auto. split; auto. split. apply (li_perm _ _ _ _ _ H).
  split. apply lu_product; auto. split. intros i m Hi Hm. apply (li_mult _ _ _ _ _ H); auto. unfold n in *. lia.
  intros m Hm. apply (li_piv _ _ _ _ _ H m Hm).
Qed.
Print Assumptions C21_lu.
Theorem C21_lu_rejects_non_square : forall (A : mat R), nrows A <> ncols A -> mat_lu A = Throw InvalidArgument.
Proof. intros A H. unfold mat_lu. destruct (Nat.eqb_spec (nrows A) (ncols A)); [contradiction|reflexivity]. Qed.
Print Assumptions C21_lu_rejects_non_square.
Example C21_example : exists lu p, mat_lu (mkMat 2 2 [FofZ 1; FofZ 4; FofZ 2; FofZ 3]) = Ok (Some (lu, p)) /\ p = [1; 0]%nat
  /\ mget lu 1 0 = Flit 25 (-2) /\ mget lu 1 1 = Flit 125 (-2).
Proof. eexists. eexists. split. vm_compute. reflexivity. vm_compute. auto. Qed.

(** ** C22 *)
Theorem C22_lu_solve : forall (A lu : mat R) p b, wf A -> mat_lu A = Ok (Some (lu, p)) -> length b = nrows A ->
  exists x, mat_solveLU lu p b = Ok x /\ length x = nrows A /\
    forall i, (i < nrows A)%nat -> mv (nrows A) (mget A) (fun j => nth j x 0) i = nth i b 0.
Proof.
  intros A lu p b W E Hl. unfold mat_lu in E. destruct (Nat.eqb_spec (nrows A) (ncols A)) as [Hs|]; simpl in E; [|discriminate].
  assert (isq A (nrows A)) as Hq by (split; auto). pose proof (lu_decomposition_ok A Hq) as H. injection E as E. rewrite E in H.
  destruct (li_sq _ _ _ _ _ H) as (S1 & S2 & S3). unfold mat_solveLU. rewrite S2, S3, Hl, Nat.eqb_refl. simpl.
  destruct (lu_solve_ok A _ lu p b H) as [X1 X2]. eexists. split. reflexivity. split; auto.
Qed.
Print Assumptions C22_lu_solve.
Theorem C22_lu_system_solves : forall ops (s : lu_sys R) b, lu_history ops s -> ls_done s = true -> length b = ls_dim s ->
  exists x, lu_solveSystem s b = Ok x /\ length x = ls_dim s /\
    forall i, (i < ls_dim s)%nat -> mv (ls_dim s) (mget (ls_A s)) (fun j => nth j x 0) i = nth i b 0.
Proof. exact lu_system_solves. Qed.
Print Assumptions C22_lu_system_solves.
(** invert gives a two-sided inverse *)
Theorem C22_invert : forall (A B : mat R), wf A -> mat_invert A = Ok B -> let n := nrows A in
  wf B /\ nrows B = n /\ ncols B = n /\
  (forall i j, (i < n)%nat -> (j < n)%nat -> mm n (mget A) (mget B) i j = delta i j) /\
  (forall i j, (i < n)%nat -> (j < n)%nat -> mm n (mget B) (mget A) i j = delta i j).
Proof.
  intros A B W E n.
  assert (nrows A = ncols A) as Hs. { unfold mat_invert in E. destruct (Nat.eqb_spec (nrows A) (ncols A)); auto; discriminate. }
  assert (isq A (nrows A)) as Hq by (split; auto).
  destruct (mat_invert_ok A B Hq E) as ((W1 & R1 & C1) & HI). split; auto. split; auto. split; auto. split; auto.
  apply right_inverse_nonsingular_left; auto. intros Hsg.
  destruct (Nat.eq_dec (nrows A) 0) as [Z|Z].
  { destruct Hsg as (x & (i & Hi & _) & _). unfold n in *. lia. }
  rewrite mat_invert_fails in E; auto; try lia. discriminate. apply lu_singular_fails; auto.
Qed.
Print Assumptions C22_invert.
(** invert throws exactly when LU reports failure; it always does for singular matrices *)
Theorem C22_invert_throws : forall (A : mat R), wf A -> nrows A = ncols A -> (0 < nrows A)%nat ->
  (mat_invert A = Throw RuntimeError <-> mat_lu A = Ok None) /\
  ((exists B, mat_invert A = Ok B) <-> exists lu p, mat_lu A = Ok (Some (lu, p))) /\
  (singular (nrows A) (mget A) -> mat_lu A = Ok None /\ mat_invert A = Throw RuntimeError).
Proof.
  intros A W Hs Hn. assert (isq A (nrows A)) as Hq by (split; auto).
  assert (mat_lu A = Ok (lu_decomposition A (nrows A))) as EL by (unfold mat_lu; rewrite Hs, Nat.eqb_refl; rewrite <- Hs; auto).
  rewrite EL. rewrite mat_invert_shape by auto.
  split; [|split].
  - destruct (lu_decomposition A (nrows A)) as [[]|]; split; intros; try discriminate; auto.
  - destruct (lu_decomposition A (nrows A)) as [[lu p]|]; split; intros X; eauto; destruct X; try discriminate. destruct H; discriminate.
  - intros Hsg. rewrite (lu_singular_fails A Hq Hsg). auto.
Qed.
Print Assumptions C22_invert_throws.
Theorem C22_invert_rejects_non_square : forall (A : mat R), nrows A <> ncols A -> mat_invert A = Throw InvalidArgument.
Proof. intros A H. unfold mat_invert. destruct (Nat.eqb_spec (nrows A) (ncols A)); [contradiction|reflexivity]. Qed.
Print Assumptions C22_invert_rejects_non_square.
Example C22_example : exists B, mat_invert (mkMat 2 2 [FofZ 1; FofZ 4; FofZ 2; FofZ 4]) = Ok B /\ mdata B = [FofZ (-1); FofZ 1; Flit 5 (-1); Flit (-25) (-2)].
Proof. eexists. split. vm_compute. reflexivity. vm_compute. reflexivity. Qed.

(** ** C23 *)
(** c*I, of every size, with 0 < |c| < 1e-9 is invertible, but LU fails and invert throws "singular" *)
Theorem C23_invertible_rejected_refuted : forall n c, (0 < n)%nat -> 0 < Rabs c < 1 / 10 ^ 9 ->
  let A := mbuild n n (fun i j => c * delta i j) in
  (exists B, forall i j, (i < n)%nat -> (j < n)%nat -> mm n (mget A) B i j = delta i j) /\
  mat_lu A = Ok None /\ mat_invert A = Throw RuntimeError.
Proof.
  intros n c Hn Hc A.
  assert (c <> 0) as Hc0 by (intros ->; rewrite Rabs_R0 in Hc; lra).
  assert (isq A n) as Hq by (split; [apply mbuild_wf|split; auto]).
  assert (lu_decomposition A (nrows A) = None) as HL.
  { apply lu_small_column; auto. intros i Hi. simpl in Hi. unfold A. rewrite mget_mbuild by (auto; lia). unfold delta.
    destruct (Nat.eqb i 0). rewrite Rmult_1_r. unfold tiny; lra. rewrite Rmult_0_r, Rabs_R0. apply tiny_pos. }
  split; [|split].
  - exists (fun i j => / c * delta i j). intros i j Hi Hj. unfold mm. rewrite (rsum_single n i); auto.
    + unfold A. rewrite mget_mbuild by auto. unfold delta at 1. rewrite Nat.eqb_refl. field. auto.
    + intros k Hk Hne. unfold A. rewrite mget_mbuild by auto. unfold delta at 1. destruct (Nat.eqb_spec i k); try lia. lra.
  - unfold mat_lu. rewrite HL. simpl. rewrite Nat.eqb_refl. auto.
  - apply mat_invert_fails; auto.
Qed.
Print Assumptions C23_invertible_rejected_refuted.
(** in general, a matrix whose first column is below 1e-9 in absolute value is rejected, whatever the rest *)
Theorem C23_small_first_column_rejected : forall (A : mat R), wf A -> nrows A = ncols A -> (0 < nrows A)%nat ->
  (forall i, (i < nrows A)%nat -> Rabs (mget A i 0) < 1 / 10 ^ 9) -> mat_lu A = Ok None.
Proof.
  intros A W Hs Hn H. unfold mat_lu. rewrite lu_small_column; auto. rewrite Hs, Nat.eqb_refl. auto. split; auto.
Qed.
Print Assumptions C23_small_first_column_rejected.
Example C23_example : 0 < Rabs (1 / 10 ^ 10) < 1 / 10 ^ 9 /\
  mat_lu (mkMat 1 1 [Flit 1 (-10)]) = Ok None /\ mat_invert (mkMat 1 1 [Flit 1 (-10)]) = Throw RuntimeError.
Proof. split. rewrite Rabs_right; lra. vm_compute. auto. Qed.

(** ** C24 *)
(** [chol_history ops s]: s is reached from a new object by the calls [ops], with setDimension only called while no
    factorisation is held *)
Theorem C24_history_is_run : forall (T : Type) (NT : Num T) ops (s : chol_sys T), chol_history ops s -> exists d, s = chol_run ops (chol_new_dim d).
Proof. exact @chol_history_run. Qed.
Print Assumptions C24_history_is_run.
Theorem C24_cholesky_flag : forall (T : Type) (NT : Num T) ops (s : chol_sys T), chol_history ops s ->
  cs_dim s = nrows (cs_A s) /\ (chol_isDone s = true -> exists L, cs_fact s = Some L /\ mat_cholesky (cs_A s) = Ok (Some L)).
Proof. intros T NT ops s H. destruct (chol_history_ok ops s H) as (_ & X). exact X. Qed.
Print Assumptions C24_cholesky_flag.
Theorem C24_lu_flag : forall (T : Type) (NT : Num T) ops (s : lu_sys T), lu_history ops s ->
  s = lu_run ops lu_new /\ ls_dim s = nrows (ls_A s) /\
  (ls_done s = true -> exists lu, ls_fact s = Some lu /\ mat_lu (ls_A s) = Ok (Some (lu, ls_piv s))).
Proof. intros T NT ops s H. destruct (lu_history_ok ops s H) as (_ & X). split; auto. apply lu_history_run; auto. Qed.
Print Assumptions C24_lu_flag.
(** without a held factorisation a solve aborts *)
Theorem C24_solve_without_factorisation : forall (T : Type) (NT : Num T) (s : chol_sys T) b, chol_isDone s = false -> chol_solve s b = Throw AssertFail.
Proof. intros T NT s b H. unfold chol_solve. unfold chol_isDone in H. rewrite H. auto. Qed.
Print Assumptions C24_solve_without_factorisation.
(** setMatrix always drops the factorisation *)
Theorem C24_setMatrix_drops_factorisation : forall (T : Type) (NT : Num T) (s : chol_sys T) (l : lu_sys T) m,
  chol_isDone (chol_setMatrix s m) = false /\ ls_done (lu_setMatrix l m) = false /\ cs_A (chol_setMatrix s m) = m /\ ls_A (lu_setMatrix l m) = m.
Proof. intros; repeat split. Qed.
Print Assumptions C24_setMatrix_drops_factorisation.
(** the flag claim for all histories, setDimension included, is false: after it the object still reports a factorisation,
    the factor is the zero matrix, and (binary64) solving returns NaN instead of aborting *)
Theorem C24_flag_after_setDimension_refuted : exists (ops : list (sys_op F)) x,
  let s := chol_run ops chol_new in
  chol_isDone s = true /\ cs_fact s = Some (mat_zero 1 1) /\ cs_A s = mat_zero 1 1 /\
  chol_solve s [FofZ 0] = Ok [x] /\ Fisnan x = true.
Proof.
  exists [SetMatrix (mkMat 1 1 [FofZ 4]); Factorize; SetDimension 1]. eexists. vm_compute. repeat split.
Qed.
Print Assumptions C24_flag_after_setDimension_refuted.
Theorem C24_lu_flag_after_setDimension_refuted : exists (ops : list (sys_op F)) x,
  let s := lu_run ops lu_new in
  ls_done s = true /\ ls_fact s = Some (mat_zero 1 1) /\ lu_solveSystem s [FofZ 0] = Ok [x] /\ Fisnan x = true.
Proof.
  exists [SetMatrix (mkMat 1 1 [FofZ 4]); Factorize; SetDimension 1]. eexists. vm_compute. repeat split.
Qed.
Print Assumptions C24_lu_flag_after_setDimension_refuted.
(** a history with a change of dimension before and a second matrix after the first factorisation *)
Example C24_example : exists s : chol_sys F, chol_history (((([] ++ [SetDimension 2]) ++ [SetMatrix (mkMat 1 1 [FofZ 4])]) ++ [Factorize]) ++ [SetMatrix (mkMat 1 1 [FofZ 9])] ++ [Factorize]) s
  /\ chol_isDone s = true /\ cs_fact s = Some (mkMat 1 1 [FofZ 3]).
Proof.
  eexists. split. rewrite app_assoc. apply ch_factorize, ch_set_matrix; [|reflexivity]. apply ch_factorize, ch_set_matrix; [|reflexivity].
  apply ch_set_dimension. apply ch_new. reflexivity. vm_compute. auto.
Qed.
