(** C108: counting the samples in a box, and predictions for a table of points. *)
From Coq Require Import Reals Lra List Arith Lia ZArith Bool Permutation.
From Verif Require Import Base StM Num RealNum RSpec VecModel MatModel MatLemmas MatSpec VecProofs VecReal MatProofs MatProofs2 MatReal BoundsModel DataModel DataSpec DataProofs DataReal
  PropsData PropsStat KrigModel QueryModel.
Import ListNotations.
Local Open Scope R_scope.

(** the closed box, and the number of items of a list with a property: the length of a list of their positions *)
Definition in_closed_box (lb ub x : list R) : Prop := forall j, (j < length x)%nat -> nth j lb 0 <= nth j x 0 <= nth j ub 0.
Definition number_of {A} (P : A -> Prop) (l : list A) (c : nat) : Prop :=
  exists ix : list nat, NoDup ix /\ length ix = c /\ forall i, In i ix <-> exists x, nth_error l i = Some x /\ P x.

Lemma number_fun {A} (P : A -> Prop) l c c' : number_of P l c -> number_of P l c' -> c = c'.
Proof.
  intros (a & Na & <- & Ha) (b & Nb & <- & Hb). apply Nat.le_antisymm; apply NoDup_incl_length; auto; intros i Hi; [apply Hb, Ha|apply Ha, Hb]; auto.
Qed.
Lemma number_snoc {A} (P : A -> Prop) l x c : number_of P l c -> (P x -> number_of P (l ++ [x]) (S c)) /\ (~ P x -> number_of P (l ++ [x]) c).
Proof.
  intros (ix & Nx & <- & Hx).
  assert (forall i, In i ix -> (i < length l)%nat) as Hl. { intros i Hi. apply Hx in Hi. destruct Hi as (y & E & _). apply nth_error_Some. congruence. }
  assert (forall i y, nth_error (l ++ [x]) i = Some y <-> nth_error l i = Some y \/ (i = length l /\ y = x)) as Hn.
  { intros i y. destruct (Nat.lt_ge_cases i (length l)) as [H|H].
    - rewrite nth_error_app1 by auto. split; auto. intros [?|[-> _]]; auto. lia.
    - rewrite nth_error_app2 by auto. assert (nth_error l i = None) as -> by (apply nth_error_None; lia). destruct (i - length l)%nat as [|q] eqn:E.
      + simpl. split. injection 1 as <-. right. split; auto. lia. intros [?|[_ ->]]; [discriminate|auto].
      + simpl. replace (nth_error (@nil A) q) with (@None A) by (destruct q; auto). split. discriminate. intros [?|[? _]]; [discriminate|lia]. }
  split; intros Px.
  - exists (length l :: ix). split. constructor; auto. intros Hi. apply Hl in Hi. lia. split. auto. intros i. simpl. rewrite Hx. split.
    + intros [<-|(y & E & Py)]. exists x. split; auto. apply Hn. auto. exists y. split; auto. apply Hn. auto.
    + intros (y & E & Py). apply Hn in E. destruct E as [E|[-> ->]]. right. eauto. auto.
  - exists ix. split; auto. split; auto. intros i. rewrite Hx. split.
    + intros (y & E & Py). exists y. split; auto. apply Hn. auto.
    + intros (y & E & Py). apply Hn in E. destruct E as [E|[-> ->]]. eauto. contradiction.
Qed.

Lemma count_ok (s : sdata R) lb ub : (d_n s <= nrows (d_raw s))%nat -> (d_dim s <= ncols (d_raw s))%nat -> length lb = d_dim s -> length ub = d_dim s ->
  exists c, sm_countWithin true s lb ub = Ok c /\ number_of (in_closed_box lb ub) (inputs (d_dim s) (firstn (d_n s) (rows (d_raw s)))) c.
Proof.
  intros Hn Hd Hl Hu. unfold sm_countWithin. cbn [negb]. revert Hn. generalize (d_n s) as n. induction n; intros Hn.
  { exists 0%nat. split; auto. exists []. split. constructor. split; auto. simpl. intros i. split. contradiction. intros (x & E & _). destruct i; discriminate. }
  destruct IHn as (c & E & Hc). lia. cbn [loopR]. rewrite E. cbn [bind]. rewrite (getRow_ok _ n) by (auto; lia). cbn [bind].
  set (r := nth n (rows (d_raw s)) []). assert (length r = ncols (d_raw s)) as Lr by (unfold r; rewrite nth_rows by lia; apply mrow_length).
  unfold vec_head. destruct (Nat.ltb_spec (length r) (d_dim s)); [lia|]. cbn [bind].
  assert (length (firstn (d_dim s) r) = d_dim s) as Lf by (rewrite firstn_length; lia).
  destruct (proj1 (C73_is_between (firstn (d_dim s) r) lb ub)) as (b & -> & Hb); try lia. cbn [bind].
  assert (inputs (d_dim s) (firstn (S n) (rows (d_raw s))) = inputs (d_dim s) (firstn n (rows (d_raw s))) ++ [firstn (d_dim s) r]) as ->.
  { unfold inputs, r. change [firstn (d_dim s) (nth n (rows (d_raw s)) [])] with (map (firstn (d_dim s)) [nth n (rows (d_raw s)) []]). rewrite <- map_app. f_equal.
    assert (n < length (rows (d_raw s)))%nat as Hlt by (rewrite rows_length; lia). clear - Hlt. revert n Hlt. generalize (rows (d_raw s)) as l. induction l; simpl; intros n H. lia.
    destruct n; auto. simpl. f_equal. apply IHl. lia. }
  destruct (number_snoc _ _ (firstn (d_dim s) r) _ Hc) as [H1 H2]. destruct b.
  - exists (S c). split; auto. apply H1. exact (proj1 Hb eq_refl).
  - exists c. split; auto. apply H2. intros P. discriminate (proj2 Hb P).
Qed.

(** ** C108 *)
(** without a validation set: the number of the samples of the file whose inputs lie in the closed box *)
Theorem C108_count : forall (s : sdata R) d file perm, can_read s d file -> d_ratio s = 0 -> d_nv s = 0%nat ->
  exists s', data_read file perm s = (s', Ok tt) /\ forall lb ub, length lb = d -> length ub = d ->
    exists c, sm_countWithin true s' lb ub = Ok c /\ number_of (in_closed_box lb ub) (inputs d (rows file)) c.
Proof.
  intros s d file perm (Ht & Hn & Hd & Hc & Hgd & Hdim) Hr Hv.
  destruct (data_read_plain s file perm d (proj1 Ht) Hn Hd Hc Hgd Hdim) as (s' & E & A1 & A2 & _); auto.
  { rewrite Hr. simpl. apply Rltb_false. lra. }
  exists s'. split; auto. intros lb ub Hl Hu. destruct A1 as (D & N & _). rewrite rows_length in N.
  destruct (count_ok s' lb ub) as (c & E1 & E2); rewrite ?A2, ?D, ?N; try lia. 
  { unfold columns_ok in Hc. destruct (f_grad s); [lia|]. destruct (f_dd s); lia. }
  exists c. split; auto. rewrite A2, D, N, firstn_all2 in E2 by (rewrite rows_length; lia). exact E2.
Qed.
Print Assumptions C108_count.

(** with a validation set: the first rows of the file are counted, as many as there are training samples *)
Theorem C108_count_split : forall (s : sdata R) d file perm, can_read s d file -> d_val s = mat_empty -> 0 < d_ratio s < 1 -> Permutation perm (seq 0 (nrows file)) ->
  exists s' tr, data_read file perm s = (s', Ok tt) /\ shows_training s' d tr /\ forall lb ub, length lb = d -> length ub = d ->
    exists c, sm_countWithin true s' lb ub = Ok c /\ number_of (in_closed_box lb ub) (inputs d (firstn (length tr) (rows file))) c.
Proof.
  intros s d file perm C Hv Hr Hp. destruct (C33_split_is_partition s d file perm C Hv Hr Hp) as (s' & k & tr & va & E & _ & _ & L & _ & _ & _ & A1 & _ & A2).
  exists s', tr. split; auto. split; auto. intros lb ub Hl Hu. destruct A1 as (D & N & _). destruct C as (_ & _ & _ & Hc & _).
  destruct (count_ok s' lb ub) as (c & E1 & E2); rewrite ?A2, ?D, ?N; try lia. 
  { unfold columns_ok in Hc. destruct (f_grad s); [lia|]. destruct (f_dd s); lia. }
  exists c. split; auto. rewrite A2, D, N in E2. exact E2.
Qed.
Print Assumptions C108_count_split.

(** so the claim "the number of training samples in the box" is false as soon as rows are held out *)
Theorem C108_count_training_refuted : exists (s s' : sdata R) file perm tr lb ub c, can_read s 2 file /\ d_val s = mat_empty /\ 0 < d_ratio s < 1 /\ Permutation perm (seq 0 (nrows file)) /\
  data_read file perm s = (s', Ok tt) /\ shows_training s' 2 tr /\ length lb = 2%nat /\ length ub = 2%nat /\
  sm_countWithin true s' lb ub = Ok c /\ ~ number_of (in_closed_box lb ub) (inputs 2 tr) c.
Proof.
  assert (Permutation [0; 1; 2]%nat (seq 0 (nrows data_example_file))) as Hp by apply Permutation_refl.
  assert (0 < d_ratio (set_ratio (1/2) (@sdata_new R _)) < 1) as Hr by (simpl; lra).
  destruct (C33_split_is_partition (set_ratio (1/2) sdata_new) 2 data_example_file [0; 1; 2]%nat data_example_can_read eq_refl Hr Hp)
    as (s' & k & tr & va & E & Hk & _ & L & _ & _ & Htr & A1 & _ & _).
  simpl in Hk. assert (k = 1)%nat as ->. { assert (INR k < 2) by lra. assert (0 < INR k) by lra. destruct k; [simpl in *; lra|]. destruct k; auto. exfalso. rewrite !S_INR in *. pose proof (pos_INR k). lra. }
  destruct (C108_count_split _ 2 data_example_file [0; 1; 2]%nat data_example_can_read eq_refl Hr Hp) as (s2 & tr2 & E2 & A2 & H). rewrite E in E2. apply pair_equal_spec in E2 as [<- _].
  assert (length tr2 = length tr) as Lt. { destruct A1 as (_ & N1 & _), A2 as (_ & N2 & _). congruence. }
  destruct (H [0; 0] [1/2; 5] eq_refl eq_refl) as (c & Ec & Hc).
  exists (set_ratio (1/2) sdata_new), s', data_example_file, [0; 1; 2]%nat, tr, [0; 0], [1/2; 5], c. 
  split. apply data_example_can_read. repeat (split; [first [reflexivity | exact Hr | exact Hp | exact E | exact A1 | exact Ec]|]).
  assert (tr = [[1; 6; 20]; [2; 7; 30]]) as -> by (rewrite Htr; reflexivity). rewrite Lt in Hc. change (rows data_example_file) with [[0; 5; 10]; [1; 6; 20]; [2; 7; 30]] in Hc. cbn in Hc.
  intros (ix & _ & L2 & H2). destruct Hc as (iy & _ & L1 & H1).
  assert (In 0%nat iy) as I. { apply H1. exists [0; 5]. split; auto. intros [|[|j]] Hj; simpl in *; try lra; lia. }
  assert (ix = []) as ->. { destruct ix as [|i ix]; auto. exfalso. destruct (proj1 (H2 i) (or_introl eq_refl)) as (x & Ex & P). cbn in Ex.
    destruct i as [|[|i]]; [| |destruct i; discriminate]; injection Ex as <-; specialize (P 0%nat ltac:(simpl; lia)); simpl in P; lra. }
  destruct iy; [contradiction|]. simpl in L1, L2. lia.
Qed.
Print Assumptions C108_count_training_refuted.

(** a larger box never holds fewer samples, and no box more than there are *)
Theorem C108_larger_box : forall (s : sdata R) lb ub lb' ub' c c', length lb' = length lb -> length ub' = length ub ->
  (forall j, nth j lb' 0 <= nth j lb 0) -> (forall j, nth j ub 0 <= nth j ub' 0) -> (d_n s <= nrows (d_raw s))%nat -> (d_dim s <= ncols (d_raw s))%nat -> length lb = d_dim s -> length ub = d_dim s ->
  sm_countWithin true s lb ub = Ok c -> sm_countWithin true s lb' ub' = Ok c' -> (c <= c' <= d_n s)%nat.
Proof.
  intros s lb ub lb' ub' c c' L1 L2 H1 H2 Hn Hd Hl Hu E E'.
  destruct (count_ok s lb ub Hn Hd Hl Hu) as (x & Ex & ix & Nx & Lx & Hx). destruct (count_ok s lb' ub' Hn Hd ltac:(lia) ltac:(lia)) as (y & Ey & iy & Ny & Ly & Hy).
  rewrite E in Ex. rewrite E' in Ey. injection Ex as <-. injection Ey as <-. subst c c'. split.
  - apply NoDup_incl_length; auto. intros i Hi. apply Hy. apply Hx in Hi. destruct Hi as (p & Ep & Hp). exists p. split; auto.
    intros j Hj. specialize (Hp j Hj). specialize (H1 j). specialize (H2 j). lra.
  - rewrite <- (seq_length (d_n s) 0). apply NoDup_incl_length; auto. intros i Hi. apply Hy in Hi. destruct Hi as (p & Ep & _).
    apply in_seq. assert (i < length (inputs (d_dim s) (firstn (d_n s) (rows (d_raw s)))))%nat as Hlt by (apply nth_error_Some; congruence).
    unfold inputs in Hlt. rewrite map_length, firstn_length in Hlt. lia.
Qed.
Print Assumptions C108_larger_box.

(** bounds of another length are refused as soon as there is a sample; without data the assertion fails *)
Theorem C108_count_refuses : forall (s : sdata R) lb ub, 
  ((0 < d_n s <= nrows (d_raw s))%nat -> (d_dim s <= ncols (d_raw s))%nat -> length lb <> d_dim s \/ length ub <> d_dim s -> sm_countWithin true s lb ub = Throw InvalidArgument) /\
  sm_countWithin false s lb ub = Throw AssertFail.
Proof.
  intros s lb ub. split; [|reflexivity]. intros Hn Hd Hl. unfold sm_countWithin. cbn [negb]. revert Hn. generalize (d_n s) as n. induction n; intros Hn. lia.
  cbn [loopR]. destruct n.
  - cbn [loopR bind]. rewrite (getRow_ok _ 0%nat) by (auto; lia). cbn [bind]. set (r := nth 0 (rows (d_raw s)) []).
    assert (length r = ncols (d_raw s)) as Lr by (unfold r; rewrite nth_rows by lia; apply mrow_length).
    unfold vec_head. destruct (Nat.ltb_spec (length r) (d_dim s)); [lia|]. cbn [bind].
    rewrite (proj2 (C73_is_between (firstn (d_dim s) r) lb ub)); auto. rewrite firstn_length. lia.
  - rewrite IHn by lia. reflexivity.
Qed.
Print Assumptions C108_count_refuses.

(** predictions for a table: one for every row, in the order of the rows; the first row without a prediction decides the outcome otherwise *)
Lemma iv_run {T} {NT : Num T} (f : vec T -> Res T) (X : mat T) k : (k <= nrows X)%nat -> (forall i, (i < k)%nat -> exists y, f (nth i (rows X) []) = Ok y) ->
  exists ys, loopR k (fun i res => xp <- mat_getRow X (Z.of_nat i) ;; y <- f xp ;; Ok (upd res i y)) (repeat n0 (nrows X)) = Ok ys /\ length ys = nrows X /\
    forall i, (i < k)%nat -> f (nth i (rows X) []) = Ok (nth i ys n0).
Proof.
  induction k; intros Hk H. { exists (repeat n0 (nrows X)). split; auto. split. apply repeat_length. intros; lia. }
  destruct IHk as (ys & E & L & Hy). lia. intros; apply H; lia. destruct (H k ltac:(lia)) as (y & Ey). exists (upd ys k y). cbn [loopR]. rewrite E. cbn [bind].
  rewrite (getRow_ok _ k) by (auto; lia). cbn [bind]. rewrite Ey. cbn [bind]. split; auto. split. rewrite upd_length; auto.
  intros i Hi. destruct (Nat.eq_dec i k) as [->|Ne]. rewrite nth_upd_same by lia. auto. rewrite nth_upd_other by auto. apply Hy. lia.
Qed.
Theorem C108_predictions : forall {T} {NT : Num T} (f : vec T -> Res T) (X : mat T) ys,
  sm_interpolateVector f X = Ok ys <-> length ys = nrows X /\ forall i, (i < nrows X)%nat -> f (nth i (rows X) []) = Ok (nth i ys n0).
Proof.
  intros T0 NT f X ys. unfold sm_interpolateVector. split.
  - intros E. assert (forall k zs, (k <= nrows X)%nat -> loopR k (fun i res => xp <- mat_getRow X (Z.of_nat i) ;; y <- f xp ;; Ok (upd res i y)) (repeat n0 (nrows X)) = Ok zs ->
      forall i, (i < k)%nat -> exists y, f (nth i (rows X) []) = Ok y) as H.
    { induction k; intros zs Hk Ek i Hi. lia. cbn [loopR] in Ek. destruct (loopR k _ _) as [z|e|] eqn:E1; try discriminate. cbn [bind] in Ek.
      rewrite (getRow_ok _ k) in Ek by (auto; lia). cbn [bind] in Ek. destruct (f (nth k (rows X) [])) as [y|e|] eqn:Ef; try discriminate.
      destruct (Nat.eq_dec i k) as [->|]. eauto. eapply IHk; eauto; lia. }
    destruct (iv_run f X (nrows X) (le_n _) (H _ _ (le_n _) E)) as (zs & Ez & L & Hz). rewrite E in Ez. injection Ez as <-. auto.
  - intros [L H]. destruct (iv_run f X (nrows X) (le_n _)) as (zs & Ez & Lz & Hz). intros i Hi. eauto. rewrite Ez. f_equal.
    apply (nth_ext _ _ n0 n0). lia. intros i Hi. specialize (H i ltac:(lia)). rewrite Hz in H by lia. injection H as ->. auto.
Qed.
Print Assumptions C108_predictions.
Theorem C108_prediction_fails : forall {T} {NT : Num T} (f : vec T -> Res T) (X : mat T) i, (i < nrows X)%nat ->
  (forall k, (k < i)%nat -> exists y, f (nth k (rows X) []) = Ok y) -> 
  (forall e, f (nth i (rows X) []) = Throw e -> sm_interpolateVector f X = Throw e) /\ (f (nth i (rows X) []) = UB -> sm_interpolateVector f X = UB).
Proof.
  intros T0 NT f X i Hi H. destruct (iv_run f X i ltac:(lia) H) as (ys & E & _).
  assert (forall r, (forall a, r <> Ok a) -> (y <- f (nth i (rows X) []) ;; Ok (upd ys i y)) = r -> sm_interpolateVector f X = r) as G.
  { intros r Hr Er. unfold sm_interpolateVector. assert (forall n, (i < n)%nat -> loopR n (fun i res => xp <- mat_getRow X (Z.of_nat i) ;; y <- f xp ;; Ok (upd res i y)) (repeat n0 (nrows X)) = r) as Hn; [|apply Hn; auto].
    induction n; intros Hn. lia. cbn [loopR]. destruct (Nat.eq_dec i n) as [<-|Ne]. rewrite E. cbn [bind]. rewrite (getRow_ok _ i) by auto. exact Er.
    rewrite IHn by lia. destruct r; auto. exfalso. eapply Hr; eauto. }
  split; [intros e Ef|intros Ef]; apply G; try (rewrite Ef; reflexivity); discriminate.
Qed.
Print Assumptions C108_prediction_fails.
(** for the linear model the two functions that predict a table agree *)
Theorem C108_linear : forall {T} {NT : Num T} (s : lmodel T) (X : mat T) ys, ncols X = l_dim s -> lin_interpolateAll s X = Ok ys -> sm_interpolateVector (lin_interpolate s) X = Ok ys.
Proof.
  intros T0 NT s X ys Hc E. apply C108_predictions. unfold lin_interpolateAll in E. rewrite Hc, Nat.eqb_refl in E. cbn [negb] in E.
  assert (forall k zs, (k <= nrows X)%nat -> loopR k (fun i acc => f <- lin_interpolate s (mrow X i) ;; Ok (acc ++ [f])) [] = Ok zs ->
    length zs = k /\ forall i, (i < k)%nat -> lin_interpolate s (mrow X i) = Ok (nth i zs n0)) as H.
  { induction k; intros zs Hk Ek. injection Ek as <-. split; auto. intros; lia. cbn [loopR] in Ek. destruct (loopR k _ _) as [z|e|] eqn:E1; try discriminate. cbn [bind] in Ek.
    destruct (lin_interpolate s (mrow X k)) as [y|e|] eqn:Ef; try discriminate. injection Ek as <-. destruct (IHk z ltac:(lia) eq_refl) as [L Hz]. rewrite app_length. simpl. split. lia.
    intros i Hi. destruct (Nat.eq_dec i k) as [->|]. rewrite app_nth2 by lia. rewrite L, Nat.sub_diag. auto. rewrite app_nth1 by lia. apply Hz. lia. }
  destruct (H _ _ (le_n _) E) as [L Hz]. split; auto. intros i Hi. rewrite nth_rows by auto. auto.
Qed.
Print Assumptions C108_linear.

(** the hypotheses are met: of the samples (0,5), (1,6), (2,7) two lie in the box [0,1]x[5,7]; a table of two points and a prediction that needs two coordinates *)
Example C108_example : exists s', data_read data_example_file [0; 1; 2]%nat sdata_new = (s', Ok tt) /\ sm_countWithin true s' [0; 5] [1; 7] = Ok 2%nat.
Proof.
  destruct (C108_count (set_ratio 0 sdata_new) 2 data_example_file [0; 1; 2]%nat) as (s' & E & H); try reflexivity.
  { unfold can_read, table, wf, columns_ok. simpl. intuition lia. }
  exists s'. split. exact E. destruct (H [0; 5] [1; 7] eq_refl eq_refl) as (c & -> & Hc). f_equal. apply (number_fun _ _ _ _ Hc).
  exists [0; 1]%nat. split. repeat constructor; simpl; intuition lia. split; auto. change (inputs 2 (rows data_example_file)) with [[0; 5]; [1; 6]; [2; 7]]. intros i. split.
  - intros [<-|[<-|[]]]; eexists; (split; [reflexivity|]); intros [|[|j]] Hj; simpl in *; try lra; lia.
  - intros (x & Ex & P). destruct i as [|[|[|i]]]; simpl; auto. injection Ex as <-. specialize (P 0%nat ltac:(simpl; lia)). simpl in P. lra. destruct i; discriminate.
Qed.
Definition C108_f (x : vec R) : Res R := a <- vec_at x 0 ;; b <- vec_at x 1 ;; Ok (a + b).
Example C108_predictions_example : sm_interpolateVector C108_f (mkMat 2 2 [1; 2; 3; 4]) = Ok [1 + 3; 2 + 4] /\ sm_interpolateVector C108_f (mkMat 2 1 [1; 2]) = Throw OutOfRange.
Proof. split; reflexivity. Qed.
