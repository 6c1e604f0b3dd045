(** Properties C01, C04 (vectors), C06-C10 of properties.jsonl. *)
From Coq Require Import Reals Lra List Arith Lia ZArith Bool Permutation Sorted SpecFloat.
From Verif Require Import Base Num RealNum NumFloat VecModel MatModel MatLemmas VecProofs VecReal VecProofs2.
Import ListNotations.
Local Open Scope R_scope.

(** ** C01 *)
Theorem C01_normalize_then_denormalize : forall x lb ub : list R,
  length lb = length x -> length ub = length x ->
  (forall i, (i < length x)%nat -> nth i lb 0 < nth i ub 0) ->
  exists u, vec_normalize x lb ub = Ok u /\ length u = length x /\ vec_denormalize u lb ub = Ok x.
Proof. exact normalize_denormalize. Qed.
Print Assumptions C01_normalize_then_denormalize.

Theorem C01_denormalize_then_normalize : forall u lb ub : list R,
  length lb = length u -> length ub = length u ->
  (forall i, (i < length u)%nat -> nth i lb 0 < nth i ub 0) ->
  exists x, vec_denormalize u lb ub = Ok x /\ length x = length u /\ vec_normalize x lb ub = Ok u.
Proof. exact denormalize_normalize. Qed.
Print Assumptions C01_denormalize_then_normalize.

Theorem C01_box_maps_to_unit_box : forall x lb ub u : list R,
  length lb = length x -> length ub = length x ->
  (forall i, (i < length x)%nat -> nth i lb 0 < nth i ub 0) ->
  vec_normalize x lb ub = Ok u ->
  forall i, (i < length x)%nat ->
    (nth i lb 0 <= nth i x 0 <= nth i ub 0 <-> 0 <= nth i u 0 <= 1 / INR (length x)).
Proof. exact normalize_box. Qed.
Print Assumptions C01_box_maps_to_unit_box.

(** the Fast variants, given xdiff = ub - lb, agree with the plain ones *)
Theorem C01_fast_variants_agree : forall x lb ub : list R,
  length lb = length x -> length ub = length x ->
  forall xdiff, vec_sub ub lb = Ok xdiff ->
  vec_normalizeFast x lb xdiff = vec_normalize x lb ub /\ vec_denormalizeFast x lb xdiff = vec_denormalize x lb ub.
Proof. exact normalizeFast_same. Qed.
Print Assumptions C01_fast_variants_agree.

Example C01_example : exists u, vec_normalize [1; 3] [0; 2] [2; 6] = Ok u /\ length u = 2%nat /\ vec_denormalize u [0; 2] [2; 6] = Ok [1; 3].
Proof. apply (C01_normalize_then_denormalize [1; 3] [0; 2] [2; 6]); auto. intros [|[|i]] Hi; simpl in *; try lra; lia. Qed.
Example C01_example_value : vec_normalize [1; 3] [0; 2] [2; 6] = Ok [1/4; 1/8].
Proof. unfold vec_normalize, vbuild; simpl. f_equal. f_equal; [|f_equal]; unfold nofnat, vget; simpl; field. Qed.

(** ** C04, vector fills *)
Theorem C04_vec_fillRandom : forall (v : list R) a b (u : nat -> R), (forall k, 0 <= u k < 1) ->
  (a <= b -> exists w, vec_fillRandom v a b u = Ok w /\ length w = length v /\
     forall i, (i < length v)%nat -> a <= nth i w 0 <= b) /\
  (b < a -> vec_fillRandom v a b u = Throw InvalidArgument).
Proof. exact fillRandom_spec. Qed.
Print Assumptions C04_vec_fillRandom.

Theorem C04_vec_fillRandom_bounds : forall (v a b : list R) (u : nat -> R), (forall k, 0 <= u k < 1) ->
  (length a = length v -> length b = length v -> (forall i, (i < length v)%nat -> nth i a 0 <= nth i b 0) ->
   exists w, vec_fillRandomV v a b u = (w, Ok tt) /\ length w = length v /\
     forall i, (i < length v)%nat -> nth i a 0 <= nth i w 0 <= nth i b 0) /\
  (length a <> length v \/ length b <> length v \/ (exists i, (i < length v)%nat /\ nth i b 0 < nth i a 0) ->
   snd (vec_fillRandomV v a b u) = Throw InvalidArgument).
Proof. exact fillRandomV_spec. Qed.
Print Assumptions C04_vec_fillRandom_bounds.

Theorem C04_vec_randomBetween : forall (a b : list R) (u : nat -> R), (forall k, 0 <= u k < 1) -> length a = length b ->
  (forall i, (i < length a)%nat -> nth i a 0 <= nth i b 0) ->
  exists w, vec_randomBetween a b u = Ok w /\ length w = length a /\
     forall i, (i < length a)%nat -> nth i a 0 <= nth i w 0 <= nth i b 0.
Proof. exact randomBetween_spec. Qed.
Print Assumptions C04_vec_randomBetween.

Example C04_vec_example : exists w, vec_fillRandomV [9; 9] [0; -1] [1; 5] (fun _ => 1/2) = (w, Ok tt) /\ length w = 2%nat /\
     forall i, (i < 2)%nat -> nth i [0; -1] 0 <= nth i w 0 <= nth i [1; 5] 0.
Proof. apply (C04_vec_fillRandom_bounds [9; 9] [0; -1] [1; 5]); auto. intros; lra. intros [|[|i]] Hi; simpl in *; try lra; lia. Qed.
Example C04_vec_example_rejected : snd (vec_fillRandomV [9; 9] [0; 5] [1; -1] (fun _ => 1/2)) = Throw InvalidArgument.
Proof. apply C04_vec_fillRandom_bounds. intros; lra. right; right. exists 1%nat. simpl. split; [lia|lra]. Qed.

(** ** C06 (any element type) *)
Theorem C06_head_tail : forall (T : Type) (v : list T) k, (k <= length v)%nat ->
  exists h t, vec_head v k = Ok h /\ vec_tail v (length v - k) = Ok t /\
    length h = k /\ length t = (length v - k)%nat /\ h ++ t = v.
Proof. exact @head_tail_app. Qed.
Print Assumptions C06_head_tail.
Theorem C06_head_tail_throw : forall (T : Type) (v : list T) k,
  (vec_head v k = Throw OutOfRange <-> (length v < k)%nat) /\ (vec_tail v k = Throw OutOfRange <-> (length v < k)%nat).
Proof.
  intros. unfold vec_head, vec_tail. destruct (Nat.ltb_spec (length v) k); split; split; intros; auto; try discriminate; lia.
Qed.
Print Assumptions C06_head_tail_throw.

(** [p] is the insertion index, [position] the C++ argument (-1 = end). *)
Theorem C06_appendVector : forall (T : Type) (v w : list T) (p : nat) (position : Z) d, (p <= length v)%nat ->
  position = Z.of_nat p \/ (position = (-1)%Z /\ p = length v) ->
  exists r, vec_append v w position = Ok r /\ length r = (length v + length w)%nat /\
    (forall i, (i < p)%nat -> nth i r d = nth i v d) /\
    (forall i, (i < length w)%nat -> nth (p + i) r d = nth i w d) /\
    (forall i, (p <= i < length v)%nat -> nth (i + length w) r d = nth i v d).
Proof. exact @append_spec. Qed.
Print Assumptions C06_appendVector.
Theorem C06_appendVector_throws : forall (T : Type) (v w : list T) position,
  (position < -1 \/ Z.of_nat (length v) < position)%Z <-> vec_append v w position = Throw OutOfRange.
Proof. exact @append_throws. Qed.
Print Assumptions C06_appendVector_throws.

Theorem C06_copyVector : forall (T : Type) (v src : list T) (p : nat) d, (p < length v)%nat ->
  exists r, vec_copy v src (Z.of_nat p) = Ok r /\ length r = length v /\
    forall i, (i < length v)%nat ->
      nth i r d = if (Nat.leb p i && Nat.ltb i (p + length src))%bool then nth (i - p) src d else nth i v d.
Proof. exact @copy_spec. Qed.
Print Assumptions C06_copyVector.
Theorem C06_copyVector_throws : forall (T : Type) (v src : list T) position,
  (position < 0 \/ Z.of_nat (length v) <= position)%Z <-> vec_copy v src position = Throw OutOfRange.
Proof. exact @copy_throws. Qed.
Print Assumptions C06_copyVector_throws.

Theorem C06_resize : forall (T : Type) (v : list T) n x d,
  length (vec_resize v n x) = n /\
  forall i, (i < n)%nat -> nth i (vec_resize v n x) d = if Nat.ltb i (length v) then nth i v d else x.
Proof. exact @resize_spec. Qed.
Print Assumptions C06_resize.
Theorem C06_push_back : forall (T : Type) (v : list T) x d,
  length (vec_push_back v x) = S (length v) /\
  (forall i, (i < length v)%nat -> nth i (vec_push_back v x) d = nth i v d) /\ nth (length v) (vec_push_back v x) d = x.
Proof. exact @push_back_spec. Qed.
Print Assumptions C06_push_back.

Example C06_example : vec_append [1; 2; 3] [7; 8] 1 = Ok [1; 7; 8; 2; 3] /\ vec_append [1] [7] (-1) = Ok [1; 7] /\
  vec_append [1] [7] 2 = Throw OutOfRange /\ vec_copy [1; 2; 3] [7; 8; 9; 10] 1 = Ok [1; 7; 8] /\
  vec_tail [1; 2; 3] 2 = Ok [2; 3] /\ vec_resize [1; 2] 3 9 = [1; 2; 9] /\ vec_resize [1; 2] 1 9 = [1].
Proof. repeat split. Qed.

(** ** C07 *)
Theorem C07_min_max_real : forall v : list R, v <> [] ->
  (exists i, vec_findMinIndex v = Ok i /\ vec_findMin v = Ok (nth i v 0) /\ (i < length v)%nat /\
     (forall k, (k < length v)%nat -> nth i v 0 <= nth k v 0) /\ (forall k, (k < i)%nat -> nth i v 0 < nth k v 0)) /\
  (exists i, vec_findMaxIndex v = Ok i /\ vec_findMax v = Ok (nth i v 0) /\ (i < length v)%nat /\
     (forall k, (k < length v)%nat -> nth k v 0 <= nth i v 0) /\ (forall k, (k < i)%nat -> nth k v 0 < nth i v 0)).
Proof.
  intros v Hv.
  destruct (findMin_ok v Hv (good_all v)) as (i & A & B & C & D & E).
  destruct (findMax_ok v Hv (good_all v)) as (j & A' & B' & C' & D' & E').
  split; [exists i|exists j]; repeat split; auto; intros; try (apply Rleb_true; auto); apply Rltb_true; auto.
Qed.
Print Assumptions C07_min_max_real.

Theorem C07_min_max_binary64 : forall v : list spec_float, v <> [] -> (forall x, In x v -> x <> S754_nan) ->
  (exists i, vec_findMinIndex v = Ok i /\ vec_findMin v = Ok (nth i v (S754_zero false)) /\ (i < length v)%nat /\
     (forall x, In x v -> SFleb (nth i v (S754_zero false)) x = true) /\
     (forall k, (k < i)%nat -> SFltb (nth i v (S754_zero false)) (nth k v (S754_zero false)) = true)) /\
  (exists i, vec_findMaxIndex v = Ok i /\ vec_findMax v = Ok (nth i v (S754_zero false)) /\ (i < length v)%nat /\
     (forall x, In x v -> SFleb x (nth i v (S754_zero false)) = true) /\
     (forall k, (k < i)%nat -> SFltb (nth k v (S754_zero false)) (nth i v (S754_zero false)) = true)).
Proof.
  intros v Hv Hn. assert (all_good v) as Hg.
  { intros x Hx. apply good_isnan. specialize (Hn x Hx). destruct x; auto; congruence. }
  destruct (findMin_ok v Hv Hg) as (i & A & B & C & D & E).
  destruct (findMax_ok v Hv Hg) as (j & A' & B' & C' & D' & E').
  split; [exists i|exists j]; repeat split; auto; intros x Hx; apply (In_nth _ _ (S754_zero false)) in Hx as (k & Hk & <-); auto.
Qed.
Print Assumptions C07_min_max_binary64.

Theorem C07_empty_throws : forall (T : Type) (NT : Num T),
  vec_findMin (T:=T) [] = Throw RuntimeError /\ vec_findMax (T:=T) [] = Throw RuntimeError /\
  vec_findMinIndex (T:=T) [] = Throw RuntimeError /\ vec_findMaxIndex (T:=T) [] = Throw RuntimeError.
Proof. repeat split. Qed.
Print Assumptions C07_empty_throws.

(** A NaN in front hides every number behind it. *)
Theorem C07_nan_refuted : exists v : list spec_float,
  vec_findMin v = Ok S754_nan /\ vec_findMax v = Ok S754_nan /\ vec_findMinIndex v = Ok 0%nat /\
  In (FofZ 1) v /\ In (FofZ 2) v.
Proof. exists [S754_nan; FofZ 1; FofZ 2]. vm_compute. tauto. Qed.
Print Assumptions C07_nan_refuted.

Example C07_example : vec_findMinIndex [FofZ 3; FofZ (-1); FofZ 2; FofZ (-1); S754_infinity false] = Ok 1%nat /\
  vec_findMax [FofZ 3; FofZ (-1); FofZ 2; FofZ (-1); S754_infinity false] = Ok (S754_infinity false).
Proof. vm_compute. tauto. Qed.

(** ** C08 *)
Theorem C08_sort_real : forall (v : list R) asc,
  exists s, vec_sort v asc = Ok s /\ Permutation s v /\ Sorted (fun a b => if asc then a <= b else b <= a) s.
Proof.
  intros v asc. destruct (vec_sort_spec v asc (good_all v)) as (s & A & B & C). exists s. repeat split; auto.
  eapply Sorted_weaken; [|exact C]. destruct asc; intros a b H; apply Rleb_true; auto.
Qed.
Print Assumptions C08_sort_real.
Theorem C08_sort_binary64 : forall (v : list spec_float) asc, (forall x, In x v -> x <> S754_nan) ->
  exists s, vec_sort v asc = Ok s /\ Permutation s v /\ Sorted (fun a b => if asc then SFleb a b = true else SFleb b a = true) s.
Proof.
  intros v asc Hn. assert (all_good v) as Hg.
  { intros x Hx. apply good_isnan. specialize (Hn x Hx). destruct x; auto; congruence. }
  exact (vec_sort_spec v asc Hg).
Qed.
Print Assumptions C08_sort_binary64.
(** sorting a vector with a NaN violates std::sort's precondition *)
Theorem C08_sort_nan_undefined : forall (v : list spec_float) asc, (1 < length v)%nat -> In S754_nan v -> vec_sort v asc = UB.
Proof. intros v asc Hl Hi. apply vec_sort_nan; auto. apply existsb_exists. exists S754_nan; auto. Qed.
Print Assumptions C08_sort_nan_undefined.

Theorem C08_is_sorted_real : forall v : list R,
  (vec_is_sorted v true = true <-> Sorted Rle v) /\ (vec_is_sorted v false = true <-> Sorted Rge v).
Proof.
  intros v. rewrite (is_sorted_asc v (good_all v)), (is_sorted_desc v (good_all v)).
  split; split; apply Sorted_weaken; intros a b H; try (apply Rleb_true; auto; lra).
  apply Rle_ge, Rleb_true; auto.
Qed.
Print Assumptions C08_is_sorted_real.
Theorem C08_is_sorted_binary64 : forall v : list spec_float, (forall x, In x v -> x <> S754_nan) ->
  (vec_is_sorted v true = true <-> Sorted (fun a b => SFleb a b = true) v) /\
  (vec_is_sorted v false = true <-> Sorted (fun a b => SFleb b a = true) v).
Proof.
  intros v Hn. assert (all_good v) as Hg.
  { intros x Hx. apply good_isnan. specialize (Hn x Hx). destruct x; auto; congruence. }
  exact (conj (is_sorted_asc v Hg) (is_sorted_desc v Hg)).
Qed.
Print Assumptions C08_is_sorted_binary64.

Lemma Sorted_Rle_nleb v : Sorted Rle v -> Sorted (fun a b => nleb a b = true) v.
Proof. apply Sorted_weaken. intros; apply Rleb_true; auto. Qed.

(** The three cases are exhaustive for an ordered non-empty vector (last conjunct), so they determine findInterval. *)
Theorem C08_findInterval : forall (v : list R) value, v <> [] -> Sorted Rle v ->
  (forall i, (S i < length v)%nat -> nth i v 0 <= value < nth (S i) v 0 -> vec_findInterval v value = Ok (Z.of_nat i)) /\
  (nth (length v - 1) v 0 < value -> vec_findInterval v value = Ok (Z.of_nat (length v - 1))) /\
  (value < nth 0 v 0 -> vec_findInterval v value = Ok (-1)%Z) /\
  (value = nth (length v - 1) v 0 -> vec_findInterval v value = Ok (-1)%Z) /\
  ((exists i, (S i < length v)%nat /\ nth i v 0 <= value < nth (S i) v 0) \/ nth (length v - 1) v 0 < value \/
   value < nth 0 v 0 \/ value = nth (length v - 1) v 0).
Proof.
  intros v value Hne Hs. pose proof (Sorted_Rle_nleb v Hs) as Hs'. repeat split.
  - intros i Hi [H1 H2]. apply findInterval_unique; auto using good_all. exact I. apply Rleb_true; auto. apply Rltb_true; auto.
  - intros H. apply findInterval_above; auto using good_all. exact I. apply Rltb_true; auto.
  - intros H. apply findInterval_minus1; auto using good_all. exact I. left. apply Rltb_true; auto.
  - intros H. apply findInterval_minus1; auto using good_all. exact I. right. apply Reqb_true; auto.
  - destruct (findInterval_spec v value Hne (good_all v) I Hs') as (r & _ & [(i & _ & Hi & H1 & H2)|[[_ H]|[_ [H|H]]]]).
    + left. exists i. apply Rleb_true in H1. apply Rltb_true in H2. auto.
    + right; left. apply Rltb_true in H; auto.
    + right; right; left. apply Rltb_true in H; auto.
    + right; right; right. apply Reqb_true in H; auto.
Qed.
Print Assumptions C08_findInterval.
Theorem C08_findInterval_unordered : forall (v : list R) value,
  (v = [] -> vec_findInterval v value = Ok (-1)%Z) /\ (v <> [] -> ~ Sorted Rle v -> vec_findInterval v value = Throw LogicError).
Proof.
  intros v value. split. intros ->; auto. intros Hne Hs. unfold vec_findInterval.
  destruct (Nat.eqb_spec (length v) 0). destruct v; simpl in *; congruence.
  destruct (vec_is_sorted v true) eqn:E; auto. exfalso. apply Hs. apply C08_is_sorted_real; auto.
Qed.
Print Assumptions C08_findInterval_unordered.

Example C08_example_findInterval : vec_findInterval [1; 2; 5] 5 = Ok (-1)%Z /\ vec_findInterval [1; 2; 5] 3 = Ok 1%Z.
Proof.
  assert (Sorted Rle [1; 2; 5]) by (repeat constructor; lra).
  split. apply C08_findInterval; auto; discriminate. apply (C08_findInterval [1; 2; 5] 3 ltac:(discriminate) H) with (i := 1%nat); simpl; [lia|lra].
Qed.
Example C08_example_sort : vec_sort [FofZ 3; FofZ 1; FofZ 2] true = Ok [FofZ 1; FofZ 2; FofZ 3] /\
  vec_sort [FofZ 3; FofZ 1; FofZ 2] false = Ok [FofZ 3; FofZ 2; FofZ 1].
Proof. vm_compute. tauto. Qed.

(** ** C09 *)
Theorem C09_quantile_between_extremes : forall (v : list R) p, v <> [] -> 0 <= p <= 1 ->
  exists q, vec_quantile v p = Ok q /\ (exists x, In x v /\ x <= q) /\ (exists y, In y v /\ q <= y).
Proof. exact quantile_range. Qed.
Print Assumptions C09_quantile_between_extremes.
Theorem C09_quantile_monotone : forall (v : list R) p1 p2 q1 q2, 0 <= p1 -> p1 <= p2 -> p2 <= 1 ->
  vec_quantile v p1 = Ok q1 -> vec_quantile v p2 = Ok q2 -> q1 <= q2.
Proof. exact quantile_monotone. Qed.
Print Assumptions C09_quantile_monotone.
Theorem C09_quantile_endpoints : forall (v : list R) i j, vec_findMinIndex v = Ok i -> vec_findMaxIndex v = Ok j ->
  vec_quantile v 0 = Ok (nth i v 0) /\ vec_quantile v 1 = Ok (nth j v 0).
Proof. exact quantile_extremes. Qed.
Print Assumptions C09_quantile_endpoints.
(** between the k-th and (k+1)-th order statistic the quantile interpolates linearly *)
Theorem C09_quantile_value : forall (v s : list R) k t, Permutation v s -> Sorted Rle s -> (S k < length v)%nat -> 0 <= t <= 1 ->
  vec_quantile v ((INR k + t) / INR (length v - 1)) = Ok ((1 - t) * nth k s 0 + t * nth (S k) s 0).
Proof. exact quantile_interpolates. Qed.
Print Assumptions C09_quantile_value.
Theorem C09_quantile_rejects : forall (v : list R) p,
  (p < 0 \/ 1 < p -> vec_quantile v p = Throw InvalidArgument) /\
  (0 <= p <= 1 -> v = [] -> vec_quantile v p = Throw RuntimeError).
Proof. exact quantile_throws. Qed.
Print Assumptions C09_quantile_rejects.
Example C09_example : vec_quantile [5; 1; 3] ((INR 1 + 1/2) / INR 2) = Ok ((1 - 1/2) * 3 + 1/2 * 5).
Proof.
  apply (C09_quantile_value [5; 1; 3] [1; 3; 5] 1 (1/2)); simpl; try lra; try lia.
  - etransitivity. apply perm_swap. constructor. apply perm_swap.
  - repeat constructor; lra.
Qed.

(** ** C10 *)
Theorem C10_norm_nonneg : forall t (v : list R), 0 <= vec_norm t v.
Proof. exact norm_nonneg. Qed.
Print Assumptions C10_norm_nonneg.
Theorem C10_norm_definite : forall t (v : list R), vec_norm t v = 0 <-> (forall i, (i < length v)%nat -> nth i v 0 = 0).
Proof. exact norm_zero. Qed.
Print Assumptions C10_norm_definite.
Theorem C10_norm_homogeneous : forall t (v : list R) c, vec_norm t (vec_scale v c) = Rabs c * vec_norm t v.
Proof. exact norm_scale. Qed.
Print Assumptions C10_norm_homogeneous.
Theorem C10_norm_triangle : forall t (v w s : list R), vec_add v w = Ok s -> vec_norm t s <= vec_norm t v + vec_norm t w.
Proof. exact norm_triangle. Qed.
Print Assumptions C10_norm_triangle.
(** which norm it is: value on the definition *)
Theorem C10_norm_value : forall (v : list R),
  vec_norm L1 v = fold_right (fun x acc => Rabs x + acc) 0 v /\
  vec_norm L2 v = sqrt (fold_right (fun x acc => x * x + acc) 0 v) /\
  (forall x, In x v -> Rabs x <= vec_norm LINF v) /\ (v <> [] -> exists x, In x v /\ vec_norm LINF v = Rabs x).
Proof. exact norm_values. Qed.
Print Assumptions C10_norm_value.
Theorem C10_unit_vector : forall t (v : list R),
  (vec_unit t v = Throw RuntimeError <-> (forall i, (i < length v)%nat -> nth i v 0 = 0)) /\
  ((exists i, (i < length v)%nat /\ nth i v 0 <> 0) ->
   exists u, vec_unit t v = Ok u /\ vec_norm t u = 1 /\ length u = length v /\
             exists c, 0 < c /\ forall i, (i < length v)%nat -> nth i u 0 = nth i v 0 * c).
Proof. exact (fun t v => conj (unit_throws t v) (unit_ok t v)). Qed.
Print Assumptions C10_unit_vector.
Example C10_example : vec_norm L1 [3; -4] = 7 /\ vec_norm L2 [3; -4] = 5 /\ vec_norm LINF [3; -4] = 4 /\
  exists s, vec_add [3; -4] [1; 1] = Ok s.
Proof.
  repeat split; simpl; unfold nsum, vget; simpl.
  - rewrite (Rabs_right 3), (Rabs_left (-4)) by lra. lra.
  - replace (0 + 3 * 3 + -4 * -4) with (5 * 5) by lra. apply sqrt_square. lra.
  - unfold nmax. simpl. rewrite (Rabs_right 3), (Rabs_left (-4)) by lra.
    rewrite (proj2 (Rltb_true 0 3)), (proj2 (Rltb_true 3 (- -4))) by lra. lra.
  - eexists; reflexivity.
Qed.
