(** Facts about the gradient-descent optimiser over the real numbers. *)
From Coq Require Import Reals Lra Lia Psatz List Arith Bool ZArith.
From Verif Require Import Base StM Num RealNum VecModel VecProofs VecReal DataProofs GradModel GradSpec.
Import ListNotations.
Local Open Scope R_scope.

Lemma upd_upd {A} (l : list A) i a b : upd (upd l i a) i b = upd l i b.
Proof. revert i. induction l; destruct i; cbn; auto. f_equal. apply IHl. Qed.
Lemma upd_nth {A} (l : list A) i d : (i < length l)%nat -> upd l i (nth i l d) = l.
Proof. revert i. induction l; destruct i; cbn; intros; try lia; auto. f_equal. apply IHl. lia. Qed.

(** ** any number type *)
Section Gen.
  Context {T : Type} {NT : Num T}.
  Definition ticks (k : nat) (s : gopt T) : gopt T := gset_n (g_n s + k) s.
  Lemma ticks_ticks a b s : ticks a (ticks b s) = ticks (b + a) s.
  Proof. unfold ticks, gset_n. cbn. f_equal. lia. Qed.
  Lemma ticks_0 s : ticks 0 s = s.
  Proof. unfold ticks, gset_n. rewrite Nat.add_0_r. destruct s. auto. Qed.
  Lemma eval_ok f (p : dpoint T) s : g_fun s = Some f -> grad_eval p s = (ticks 1 s, Ok (pset_f (f (p_x p)) p)).
  Proof. intros H. unfold grad_eval, sbind, sget. rewrite H. unfold smod, sret, ticks. rewrite Nat.add_1_r. auto. Qed.

  (** the upper and the lower evaluation point of coordinate i *)
  Definition cd_up (e : T) (x : list T) i : list T := let xi := nth i x n0 in upd x i (xi +! e *! xi).
  Definition cd_lo (e : T) (x : list T) i : list T := let xi := nth i x n0 in upd x i (xi +! e *! xi -! nofZ 2 *! (e *! xi)).
  Definition cd_quot (f : list T -> T) (e : T) (x : list T) (i : nat) : T := (f (cd_up e x i) -! f (cd_lo e x i)) /! (nofZ 2 *! (e *! nth i x n0)).
  Lemma central_step_ok f (p : dpoint T) i s : g_fun s = Some f -> (i < length (p_x p))%nat ->
    central_step p i s = (ticks 2 s, Ok (pset_f (f (cd_lo (g_eps s) (p_x p) i)) p, cd_quot f (g_eps s) (p_x p) i)).
  Proof.
    intros Hf Hi. unfold central_step, point_get. rewrite (proj2 (Nat.ltb_lt _ _) Hi).
    unfold sbind at 1, sret at 1. unfold sbind at 1 2, sget at 1, sret at 1. unfold sbind at 1. rewrite (eval_ok f) by auto.
    unfold sbind at 1. rewrite (eval_ok f) by auto. rewrite ticks_ticks. unfold sret. destruct p as [x g v n]. cbn [p_x p_f pset_x pset_f] in *. unfold vget.
    rewrite !upd_upd, nth_upd_same by auto. rewrite upd_nth by auto. reflexivity.
  Qed.
  (** the value left in the point: the last evaluation is the lower one of the last coordinate *)
  Definition cd_value (f : list T -> T) (e : T) (d : nat) (x : list T) (v : T) : T := match d with O => v | S k => f (cd_lo e x k) end.
  Lemma central_loop_ok f (p : dpoint T) n s : g_fun s = Some f -> (n <= length (p_x p))%nat ->
    central_loop n p s = (ticks (2 * n) s, Ok (pset_f (cd_value f (g_eps s) n (p_x p) (p_f p)) p, map (cd_quot f (g_eps s) (p_x p)) (seq 0 n))).
  Proof.
    intros Hf. induction n; intros Hn.
    - cbn. rewrite ticks_0. destruct p. reflexivity.
    - cbn [central_loop]. unfold sbind at 1. rewrite IHn by lia. cbn [fst snd]. unfold sbind. rewrite (central_step_ok f) by (cbn; auto; lia).
      cbn [fst snd]. rewrite ticks_ticks. unfold sret. replace (2 * n + 2)%nat with (2 * S n)%nat by lia. rewrite seq_S, map_app. destruct p. reflexivity.
  Qed.
  Lemma central_ok f (p : dpoint T) s : g_fun s = Some f -> length (p_x p) = g_dim s ->
    grad_central p s = (ticks (2 * g_dim s) s, Ok (pset_f (cd_value f (g_eps s) (g_dim s) (p_x p) (p_f p)) p, map (cd_quot f (g_eps s) (p_x p)) (seq 0 (g_dim s)))).
  Proof. intros Hf Hl. unfold grad_central. unfold sbind, sget. apply central_loop_ok; auto. lia. Qed.
  Lemma evalGradient_central f p s : g_fun s = Some f -> g_useFD s = true -> g_method s = FdCentral -> (0 < g_dim s)%nat -> length (p_x p) = g_dim s ->
    let g := map (cd_quot f (g_eps s) (p_x p)) (seq 0 (g_dim s)) in
    grad_evalGradient p s = (ticks (2 * g_dim s) s, Ok (mkP (p_x p) g (cd_value f (g_eps s) (g_dim s) (p_x p) (p_f p)) (vec_norm L2 g))).
  Proof.
    intros Hf Hd Hm H0 Hl g. unfold grad_evalGradient. unfold sbind at 1, sget. rewrite Hd. unfold grad_approx, sbind, sget, sassert. rewrite (proj2 (Nat.ltb_lt _ _) H0), Hm.
    unfold sret at 1. unfold sbind. rewrite (central_ok f) by auto. reflexivity.
  Qed.

  Definition fd_quot (f : list T -> T) (e f0 : T) (x : list T) (i : nat) : T := (f (cd_up e x i) -! f0) /! (e *! nth i x n0).
  Lemma forward_step_ok f f0 (p : dpoint T) i s : g_fun s = Some f -> (i < length (p_x p))%nat ->
    forward_step f0 p i s = (ticks 1 s, Ok (pset_f (f (cd_up (g_eps s) (p_x p) i)) p, fd_quot f (g_eps s) f0 (p_x p) i)).
  Proof.
    intros Hf Hi. unfold forward_step, point_get. rewrite (proj2 (Nat.ltb_lt _ _) Hi).
    unfold sbind at 1, sret at 1. unfold sbind at 1 2, sget at 1, sret at 1. unfold sbind at 1. rewrite (eval_ok f) by auto.
    unfold sret. destruct p as [x g v n]. cbn [p_x p_f pset_x pset_f] in *. unfold vget.
    rewrite !upd_upd. rewrite upd_nth by auto. reflexivity.
  Qed.
  Definition fd_value (f : list T -> T) (e : T) (d : nat) (x : list T) (v : T) : T := match d with O => v | S k => f (cd_up e x k) end.
  Lemma forward_loop_ok f f0 (p : dpoint T) n s : g_fun s = Some f -> (n <= length (p_x p))%nat ->
    forward_loop f0 n p s = (ticks n s, Ok (pset_f (fd_value f (g_eps s) n (p_x p) (p_f p)) p, map (fd_quot f (g_eps s) f0 (p_x p)) (seq 0 n))).
  Proof.
    intros Hf. induction n; intros Hn.
    - cbn. rewrite ticks_0. destruct p. reflexivity.
    - cbn [forward_loop]. unfold sbind at 1. rewrite IHn by lia. cbn [fst snd]. unfold sbind. rewrite (forward_step_ok f) by (cbn; auto; lia).
      cbn [fst snd]. rewrite ticks_ticks. unfold sret. replace (n + 1)%nat with (S n) by lia. rewrite seq_S, map_app. destruct p. reflexivity.
  Qed.
  Lemma forward_ok f (p : dpoint T) s : g_fun s = Some f -> length (p_x p) = g_dim s ->
    grad_forward p s = (ticks (S (g_dim s)) s, Ok (pset_f (fd_value f (g_eps s) (g_dim s) (p_x p) (f (p_x p))) p, map (fd_quot f (g_eps s) (f (p_x p)) (p_x p)) (seq 0 (g_dim s)))).
  Proof.
    intros Hf Hl. unfold grad_forward. unfold sbind at 1. rewrite (eval_ok f) by auto. unfold sbind, sget. rewrite (forward_loop_ok f) by (cbn; auto; lia).
    rewrite ticks_ticks. destruct p. reflexivity.
  Qed.
  Lemma evalGradient_forward f p s : g_fun s = Some f -> g_useFD s = true -> g_method s = FdForward -> (0 < g_dim s)%nat -> length (p_x p) = g_dim s ->
    grad_evalGradient p s = (ticks (S (g_dim s)) s, Ok (mkP (p_x p) (p_g p) (fd_value f (g_eps s) (g_dim s) (p_x p) (f (p_x p))) (vec_norm L2 (p_g p)))).
  Proof.
    intros Hf Hd Hm H0 Hl. unfold grad_evalGradient. unfold sbind at 1, sget. rewrite Hd. unfold grad_approx, sbind, sget, sassert. rewrite (proj2 (Nat.ltb_lt _ _) H0), Hm.
    unfold sret at 1. unfold sbind. rewrite (forward_ok f) by auto. reflexivity.
  Qed.

  (** the evaluations before the first round *)
  Definition checked (s : gopt T) : Prop := (0 < g_dim s)%nat /\ g_init s = true /\ (0 < g_maxEval s)%Z /\ g_bounds s <> None.
  Lemma check_ok s : checked s -> grad_check s = (s, Ok tt).
  Proof.
    intros (H1 & H2 & H3 & H4). unfold grad_check, sbind, sget, sassert. rewrite (proj2 (Nat.ltb_lt _ _) H1), H2, (proj2 (Z.ltb_lt _ _) H3). unfold sret. destruct (g_bounds s); congruence.
  Qed.
  Lemma check_fails s : ~ checked s -> grad_check s = (s, Throw AssertFail).
  Proof.
    intros H. unfold grad_check, sbind, sget, sassert. destruct (Nat.ltb_spec 0 (g_dim s)); unfold sret; auto. destruct (g_init s) eqn:E; auto. destruct (Z.ltb_spec 0 (g_maxEval s)); auto.
    destruct (g_bounds s) eqn:B; auto. exfalso. apply H. unfold checked. rewrite B. repeat split; auto. discriminate.
  Qed.
  Lemma start_ok f s : checked s -> g_fun s = Some f ->
    grad_start s = match grad_evalGradient (pset_f (f (p_x (g_cur s))) (g_cur s)) (gset_cur (pset_f (f (p_x (g_cur s))) (g_cur s)) (ticks 1 s)) with
                   | (s1, Ok p) => (gset_cur p s1, Ok tt) | (s1, Throw e) => (s1, Throw e) | (s1, UB) => (s1, UB) end.
  Proof.
    intros C Hf. unfold grad_start. unfold sbind at 1. rewrite check_ok by auto. unfold sbind at 1, sget. unfold sbind at 1. rewrite (eval_ok f) by auto. unfold sbind at 1, smod at 1. unfold sbind, smod. reflexivity.
  Qed.
End Gen.

(** ** over the real numbers *)
Lemma cd_quot_R f e x i : let xi := nth i x 0 in cd_quot f e x i = (f (upd x i (xi + e * xi)) - f (upd x i (xi - e * xi))) / (2 * (e * xi)).
Proof.
  intros xi. unfold cd_quot, cd_up, cd_lo. change (@n0 R RNum) with 0. fold xi.
  change (xi +! e *! xi -! nofZ 2 *! (e *! xi)) with (xi + e * xi - 2 * (e * xi)). replace (xi + e * xi - 2 * (e * xi)) with (xi - e * xi) by ring. reflexivity.
Qed.
Lemma cd_value_R f e d x v : cd_value f e d x v = match d with O => v | S k => f (upd x k (nth k x 0 - e * nth k x 0)) end.
Proof.
  destruct d; auto. unfold cd_value, cd_lo. change (@n0 R RNum) with 0. set (xi := nth d x 0).
  change (xi +! e *! xi -! nofZ 2 *! (e *! xi)) with (xi + e * xi - 2 * (e * xi)). replace (xi + e * xi - 2 * (e * xi)) with (xi - e * xi) by ring. reflexivity.
Qed.

(** ** the line search with a gradient callback *)
Lemma sub_scale (x g : list R) t : length g = length x -> vec_sub x (vec_scale g t) = Ok (step_to x g t).
Proof.
  intros H. unfold vec_sub, vec_scale, vbuild. rewrite map_length, seq_length, H, Nat.eqb_refl. f_equal. apply map_ext_in. intros i Hi. apply in_seq in Hi.
  unfold vget. rewrite nth_map_seq by lia. cbn [Nat.add]. change (nth i x 0 - nth i g 0 * t = nth i x 0 - t * nth i g 0). ring.
Qed.
Lemma step_len x g t : length (step_to x g t) = length x.
Proof. unfold step_to. rewrite map_length, seq_length. auto. Qed.
Lemma norm_norm2 v : vec_norm L2 v = norm2 v.
Proof. unfold vec_norm, norm2. rewrite nsum_rsum. reflexivity. Qed.
Lemma half_lit t : t *! nlit 5 (-1) = t / 2.
Proof. change (t * Rlit 5 (-1) = t / 2). unfold Rlit. simpl. field. Qed.

Definition moved (s : gopt R) (k : nat) (x : list R) (v : R) : gopt R := ticks k (gset_next (pset_f v (pset_x x (g_next s))) s).
Lemma backtrack_try f s t : g_fun s = Some f -> length (p_g (g_cur s)) = length (p_x (g_cur s)) ->
  forall k, backtrack (S k) t s = let x := step_to (p_x (g_cur s)) (p_g (g_cur s)) t in let s1 := moved s 1 x (f x) in
    if Rltb (f x) (p_f (g_cur s)) then Some (s1, Ok tt) else backtrack k (t / 2) s1.
Proof.
  intros Hf Hl k. cbn [backtrack]. unfold sbind at 1, slift. rewrite sub_scale by auto. unfold sbind at 1, smod at 1. unfold sbind. rewrite (eval_ok f) by auto. unfold smod.
  rewrite half_lit. cbv zeta. reflexivity.
Qed.
Lemma moved_moved s a b x v y w : moved (moved s a x v) b y w = moved s (a + b) y w.
Proof. unfold moved, ticks, gset_n, gset_next. cbn. rewrite Nat.add_assoc. reflexivity. Qed.
Definition trial (s : gopt R) (t : R) : list R := step_to (p_x (g_cur s)) (p_g (g_cur s)) t.
Lemma backtrack_ok f s t : g_fun s = Some f -> length (p_g (g_cur s)) = length (p_x (g_cur s)) -> forall fuel,
  (forall s' r, backtrack fuel t s = Some (s', r) -> exists k, (k < fuel)%nat /\ r = Ok tt /\ f (trial s (t / 2 ^ k)) < p_f (g_cur s) /\
     (forall j, (j < k)%nat -> p_f (g_cur s) <= f (trial s (t / 2 ^ j))) /\ s' = moved s (S k) (trial s (t / 2 ^ k)) (f (trial s (t / 2 ^ k)))) /\
  (backtrack fuel t s = None -> forall j, (j < fuel)%nat -> p_f (g_cur s) <= f (trial s (t / 2 ^ j))).
Proof.
  intros Hf Hl fuel. revert s t Hf Hl. induction fuel; intros s t Hf Hl.
  - split. intros s' r H. discriminate H. intros _ j Hj. lia.
  - rewrite (backtrack_try f) by auto. cbv zeta. set (x := step_to _ _ t).
    assert (trial s (t / 2 ^ 0) = x) as T0 by (unfold trial, x; f_equal; simpl; field).
    assert (forall j, t / 2 / 2 ^ j = t / 2 ^ S j) as TS. { intros j. simpl. field. apply pow_nonzero. lra. }
    destruct (Rltb_spec (f x) (p_f (g_cur s))) as [L|L].
    + split; [|discriminate]. intros s' r H. injection H as <- <-. exists 0%nat. rewrite T0. split; [lia|]. split; auto. split; auto. split; [intros j Hj; lia|reflexivity].
    + set (s1 := moved s 1 x (f x)). destruct (IHfuel s1 (t / 2)) as [A B]; auto.
      assert (forall t, trial s1 t = trial s t) as TT by reflexivity. change (p_f (g_cur s1)) with (p_f (g_cur s)) in *.
      split.
      * intros s' r H. destruct (A s' r H) as (k & Hk & -> & H1 & H2 & ->). exists (S k). rewrite TS, TT in *. split; [lia|]. split; auto. split; auto. split.
        { intros [|j] Hj. rewrite T0. lra. specialize (H2 j ltac:(lia)). rewrite TS, TT in H2. auto. }
        unfold s1. rewrite moved_moved. reflexivity.
      * intros H [|j] Hj. rewrite T0. lra. specialize (B H j ltac:(lia)). rewrite TS, TT in B. auto.
Qed.

(** the objects a search with callbacks starts from *)
Record consistent (f : list R -> R) (gf : list R -> list R) (s : gopt R) : Prop := mkCons {
  cons_fun : g_fun s = Some f; cons_grad : g_grad s = Some gf; cons_fd : g_useFD s = false;
  cons_len : length (p_x (g_cur s)) = g_dim s; cons_val : p_f (g_cur s) = f (p_x (g_cur s));
  cons_g : p_g (g_cur s) = first_n (g_dim s) (gf (p_x (g_cur s))); cons_norm : p_norm (g_cur s) = norm2 (p_g (g_cur s)) }.
Lemma first_len d v : length (first_n d v) = d.
Proof. unfold first_n. rewrite map_length, seq_length. auto. Qed.
Lemma evalGradient_ok gf p s : g_grad s = Some gf -> g_useFD s = false ->
  grad_evalGradient p s = (s, Ok (pset_norm (norm2 (first_n (g_dim s) (gf (p_x p)))) (pset_g (first_n (g_dim s) (gf (p_x p))) p))).
Proof. intros Hg Hd. unfold grad_evalGradient. unfold sbind at 1, sget. rewrite Hd, Hg. unfold sbind, sret. rewrite norm_norm2. reflexivity. Qed.
Lemma search_ok f gf s : consistent f gf s -> 0 < g_maxStep s -> forall fuel,
  (forall s' r, line_search fuel s = Some (s', r) -> exists k, (k < fuel)%nat /\ r = Ok tt /\ consistent f gf s' /\
     p_x (g_cur s') = trial s (g_maxStep s / 2 ^ k) /\ f (p_x (g_cur s')) < f (p_x (g_cur s)) /\
     (forall j, (j < k)%nat -> f (p_x (g_cur s)) <= f (trial s (g_maxStep s / 2 ^ j))) /\
     g_opt s' = f (p_x (g_cur s')) /\ g_n s' = (g_n s + S k)%nat /\ g_dim s' = g_dim s /\ g_maxStep s' = g_maxStep s /\ g_tol s' = g_tol s /\ g_maxEval s' = g_maxEval s) /\
  (line_search fuel s = None -> forall j, (j < fuel)%nat -> f (p_x (g_cur s)) <= f (trial s (g_maxStep s / 2 ^ j))).
Proof.
  intros C HM fuel. destruct C. unfold line_search. change (nltb n0 (g_maxStep s)) with (Rltb 0 (g_maxStep s)). rewrite (proj2 (Rltb_true 0 (g_maxStep s)) HM).
  destruct (backtrack_ok f s (g_maxStep s) cons_fun0) with (fuel := fuel) as [A B]. { rewrite cons_g0, first_len. auto. }
  rewrite cons_val0 in *.
  destruct (backtrack fuel (g_maxStep s) s) as [[s1 r1]|] eqn:E; cbn [negb].
  - split; [|destruct r1 as [[]|e|]; intros HN; discriminate HN]. intros s' r H. destruct (A _ _ eq_refl) as (k & Hk & -> & H1 & H2 & ->).
    unfold sbind at 1, smod at 1 in H. unfold sbind in H. rewrite (evalGradient_ok gf) in H by (cbn; auto). unfold smod in H. injection H as <- <-.
    set (x := trial s (g_maxStep s / 2 ^ k)) in *. exists k. split; auto. split; auto. split.
    { constructor; try reflexivity; auto. cbn. unfold x, trial. rewrite step_len. auto. }
    cbn. repeat (split; auto).
  - split; [discriminate|]. auto.
Qed.

(** ** whole runs *)
Lemma last_cons {A} (l : list A) a d : last (a :: l) d = last l a.
Proof. revert a d. induction l; intros; auto. cbn [last]. cbn [last] in IHl. destruct l; auto. Qed.
Lemma descend_ok f gf fuel rounds s s' r : consistent f gf s -> 0 < g_maxStep s -> descend fuel rounds s = Some (s', r) ->
  r = Ok tt /\ consistent f gf s' /\ g_tol s' = g_tol s /\ g_maxEval s' = g_maxEval s /\ exists xs, descends f gf (g_dim s) (g_maxStep s) (p_x (g_cur s)) xs /\
    p_x (g_cur s') = last xs (p_x (g_cur s)) /\ (xs = [] -> s' = s) /\ (xs <> [] -> g_opt s' = f (p_x (g_cur s'))) /\ (g_n s + length xs <= g_n s')%nat /\
    (p_norm (g_cur s') < g_tol s \/ (g_maxEval s <= Z.of_nat (g_n s'))%Z).
Proof.
  revert s. induction rounds; intros s C HM H. discriminate H. cbn [descend] in H. change (@nltb R RNum) with Rltb in H.
  destruct (Rltb_spec (p_norm (g_cur s)) (g_tol s)) as [L|L].
  { injection H as <- <-. split; auto. split; auto. split; auto. split; auto. exists []. split. constructor. split; auto. split; auto. split; [congruence|]. split; [cbn; lia|]. auto. }
  destruct (search_ok f gf s C HM fuel) as [A _]. destruct (line_search fuel s) as [[s1 r1]|] eqn:E; [|discriminate H].
  destruct (A _ _ eq_refl) as (k & Hk & -> & C1 & X1 & V1 & V2 & O1 & N1 & D1 & M1 & T1 & E1). clear A.
  assert (trial s (g_maxStep s / 2 ^ k) = step_to (p_x (g_cur s)) (first_n (g_dim s) (gf (p_x (g_cur s)))) (g_maxStep s / 2 ^ k)) as TR. { unfold trial. rewrite (cons_g _ _ _ C). auto. }
  assert (forall j, (j < k)%nat -> f (p_x (g_cur s)) <= f (step_to (p_x (g_cur s)) (first_n (g_dim s) (gf (p_x (g_cur s)))) (g_maxStep s / 2 ^ j))) as V3.
  { intros j Hj. specialize (V2 j Hj). unfold trial in V2. rewrite (cons_g _ _ _ C) in V2. auto. }
  destruct (Z.leb_spec (g_maxEval s1) (Z.of_nat (g_n s1))) as [Q|Q].
  - injection H as <- <-. split; auto. split; auto. split; auto. split; auto. exists [p_x (g_cur s1)]. split.
    { rewrite X1, TR in *. apply desc_cons; auto. constructor. }
    split; auto. split; [discriminate|]. split; auto. split; [cbn; lia|]. right. rewrite <- E1. auto.
  - destruct (IHrounds s1 C1 ltac:(rewrite M1; auto) H) as (-> & C2 & T2 & E2 & xs & D2 & X2 & Y2 & O2 & N2 & F2). rewrite T1, E1, D1, M1 in *.
    split; auto. split; auto. split; auto. split; auto. exists (p_x (g_cur s1) :: xs). split.
    { rewrite X1, TR in *. apply desc_cons; auto. }
    split. { rewrite X2, last_cons. auto. }
    split; [discriminate|]. split. { intros _. destruct xs as [|y ys]. rewrite (Y2 eq_refl). auto. apply O2. discriminate. }
    split; [cbn [length]; lia|]. auto.
Qed.
