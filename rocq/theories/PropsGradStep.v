(** C109: the gradient step of the optimiser. *)
From Coq Require Import Reals Lra Lia Psatz List Arith Bool ZArith.
From Verif Require Import Base StM Num RealNum RSpec VecModel MatModel MatSpec MatLemmas VecProofs VecReal DataProofs AcqProofs OptModel OptReal GradStepModel.
Import ListNotations.
Local Open Scope R_scope.

(** a parameter of the normalised design v in the user's units, and the change of the function to first order from x0 to v *)
Definition user_value (d : nat) (lb ub v : list R) (i : nat) : R := nth i lb 0 + nth i v 0 * INR d * (nth i ub 0 - nth i lb 0).
Definition first_order (d : nat) (lb ub g x0 v : list R) : R := rsum d (fun i => nth i g 0 * (user_value d lb ub v i - user_value d lb ub x0 i)).
Definition product (l : list R) : R := fold_right Rmult 1 l.

(** a step that can be made: a box, the best design in the normalised box, a gradient that is not zero, the window, the draws *)
Definition step_data (d : nat) (win : R) (lb ub x0 g : list R) (u : nat -> nat -> R) : Prop :=
  (0 < d)%nat /\ length lb = d /\ length ub = d /\ (forall i, (i < d)%nat -> nth i lb 0 < nth i ub 0) /\
  length x0 = d /\ (forall i, (i < d)%nat -> 0 <= nth i x0 0 <= 1 / INR d) /\
  length g = d /\ (exists i, (i < d)%nat /\ 1 / 100000000 < Rabs (nth i g 0)) /\ 0 < win <= 1 /\ forall i j, 0 <= u i j < 1.

Lemma lit8 : Rlit 10 (-9) = 1 / 100000000.
Proof. unfold Rlit. simpl. field. Qed.
Lemma has_gradient g d : length g = d -> (exists i, (i < d)%nat /\ 1 / 100000000 < Rabs (nth i g 0)) -> hasGradient g = true.
Proof.
  intros L (i & Hi & H). unfold hasGradient. destruct g as [|a g]. simpl in L; lia. apply negb_true_iff. unfold vec_is_zero. apply not_true_is_false. intros E. rewrite forallb_forall in E.
  specialize (E i). rewrite in_seq in E. specialize (E ltac:(lia)). apply negb_true_iff in E. change (Rltb (Rlit 10 (-9)) (Rabs (nth i (a :: g) 0)) = false) in E. apply Rltb_false in E. rewrite lit8 in E. lra.
Qed.
Lemma no_gradient g : (forall i, (i < length g)%nat -> Rabs (nth i g 0) <= 1 / 100000000) -> hasGradient g = false.
Proof.
  intros H. unfold hasGradient. destruct g as [|a g]; auto. apply negb_false_iff. unfold vec_is_zero. apply forallb_forall. intros i Hi. apply in_seq in Hi. apply negb_true_iff.
  change (Rltb (Rlit 10 (-9)) (Rabs (nth i (a :: g) 0)) = false). apply Rltb_false. rewrite lit8. apply H. lia.
Qed.
Lemma scale_ok d lb ub g : (0 < d)%nat -> length lb = d -> length ub = d -> (forall i, (i < d)%nat -> nth i lb 0 < nth i ub 0) -> length g = d ->
  exists g', scaleGradient d lb ub g = Ok g' /\ length g' = d /\ forall i, (i < d)%nat -> nth i g' 0 = nth i g 0 * ((nth i ub 0 - nth i lb 0) * INR d).
Proof.
  intros Hd Hl Hu Hb Lg. unfold scaleGradient.
  assert (forall k, (k <= d)%nat -> exists g', loopR k (fun i g => u <- vec_at ub i ;; l <- vec_at lb i ;; if (u -! l) *! nofnat d <=! n0 then Throw RuntimeError else x <- vec_at g i ;; vec_set g i (x *! ((u -! l) *! nofnat d))) g = Ok g' /\
    length g' = d /\ forall i, (i < d)%nat -> nth i g' 0 = if Nat.ltb i k then nth i g 0 * ((nth i ub 0 - nth i lb 0) * INR d) else nth i g 0) as H.
  { induction k; intros Hk. exists g. split; auto. destruct IHk as (g' & E & L & H). lia. cbn [loopR]. rewrite E. cbn [bind]. rewrite (vat_ok ub), (vat_ok lb) by lia. cbn [bind]. cbv zeta.
    rewrite ofnat_R. change ((nth k ub 0 -! nth k lb 0) *! INR d) with ((nth k ub 0 - nth k lb 0) * INR d).
    assert (0 < (nth k ub 0 - nth k lb 0) * INR d) as P. { apply Rmult_lt_0_compat. specialize (Hb k ltac:(lia)). lra. apply lt_0_INR. lia. }
    replace ((nth k ub 0 - nth k lb 0) * INR d <=! n0) with false by (symmetry; apply Rleb_false; exact P). rewrite (vat_ok g') by lia. cbn [bind]. rewrite vset_ok by lia. rewrite H by lia. rewrite Nat.ltb_irrefl.
    eexists. split. reflexivity. split. rewrite upd_length. auto. intros i Hi. destruct (Nat.eq_dec i k) as [->|Ne].
    - rewrite nth_upd_same by lia. destruct (Nat.ltb_spec k (S k)); [reflexivity|lia].
    - rewrite nth_upd_other by auto. rewrite H by auto. destruct (Nat.ltb_spec i k), (Nat.ltb_spec i (S k)); auto; lia. }
  destruct (H d (le_n _)) as (g' & E & L & G). exists g'. split; [exact E|]. split; auto. intros i Hi. rewrite G by auto. destruct (Nat.ltb_spec i d); auto; lia.
Qed.
Lemma window_eq d win dv fac : (0 < d)%nat -> length dv = d -> 0 < win <= 1 -> gradWindow d win dv fac = trustRegion d dv (win * fac).
Proof.
  intros Hd Hl Hw. unfold gradWindow, trustRegion. replace (win <=! n0) with false by (symmetry; apply Rleb_false; simpl; lra). replace (win >! n1) with false by (symmetry; apply Rltb_false; simpl; lra). cbn [orb].
  destruct (Nat.eqb_spec d 0); auto. rewrite Hl, Nat.eqb_refl. cbn [negb]. cbv zeta. rewrite ofnat_R. assert (win /! INR d *! fac = n1 /! INR d *! (win * fac)) as ->; auto.
  cbn. field. apply not_0_INR. lia.
Qed.
Lemma slope d lb ub g g' x0 v : length x0 = d -> length v = d -> length g' = d -> (forall i, (i < d)%nat -> nth i g' 0 = nth i g 0 * ((nth i ub 0 - nth i lb 0) * INR d)) ->
  (s <- vec_sub v x0 ;; vec_dot s g') = Ok (first_order d lb ub g x0 v).
Proof.
  intros L0 Lv Lg H. unfold vec_sub. rewrite L0, Lv, Nat.eqb_refl. cbn [bind]. unfold vec_dot. rewrite vbuild_length, Lg, Nat.eqb_refl. f_equal. rewrite nsum_rsum. apply rsum_ext. intros k Hk.
  rewrite vget_vbuild by auto. unfold vget, user_value. cbn. rewrite H by auto. ring.
Qed.
Lemma score_ok (e : list R -> R) (p : list R -> list R) nc v : length (p v) = nc ->
  acqConstrained (fun v => Ok (e v)) (fun v => Ok (p v)) nc v = Ok (e v * product (p v)).
Proof.
  intros L. unfold acqConstrained. cbn [bind].
  assert (forall k, (k <= nc)%nat -> loopR k (fun j a => q <- vec_at (p v) j ;; Ok (a *! q)) (e v) = Ok (e v * product (firstn k (p v)))) as H.
  { induction k; intros Hk. simpl. f_equal. ring. cbn [loopR]. rewrite IHk by lia. cbn [bind]. rewrite vat_ok by lia. cbn [bind]. f_equal.
    assert (firstn (S k) (p v) = firstn k (p v) ++ [nth k (p v) 0]) as ->. { assert (k < length (p v))%nat as Hlt by lia. clear - Hlt. revert k Hlt. induction (p v); simpl; intros k H. lia. destruct k; auto. simpl. f_equal. apply IHl. lia. }
    assert (forall l x, product (l ++ [x]) = product l * x) as ->. { clear. induction l; simpl; intros. ring. rewrite IHl. ring. } cbn. ring. }
  rewrite H by lia. rewrite firstn_all2 by lia. reflexivity.
Qed.

(** the search: candidates, and the best of those on which the function falls to first order *)
Lemma search_ok d lb ub g g' x0 gen (score : list R -> R) acq start n cs : length x0 = d -> length g' = d -> (forall i, (i < d)%nat -> nth i g' 0 = nth i g 0 * ((nth i ub 0 - nth i lb 0) * INR d)) ->
  length cs = n -> (forall i, (i < n)%nat -> gen i = Ok (nth i cs []) /\ length (nth i cs []) = d) -> (forall v, acq v = Ok (score v)) ->
  exists v a, gradLoop n gen x0 g' acq start = Ok (v, a) /\
    ((v, a) = start /\ (forall c, In c cs -> first_order d lb ub g x0 c < 0 -> score c <= snd start) \/
     snd start < a /\ a = score v /\ In v cs /\ first_order d lb ub g x0 v < 0 /\ forall c, In c cs -> first_order d lb ub g x0 c < 0 -> score c <= score v).
Proof.
  intros L0 Lg Hg Lc Hgen Hacq. unfold gradLoop.
  assert (forall k, (k <= n)%nat -> exists v a, loopR k (fun i best => v <- gen i ;; s <- vec_sub v x0 ;; q <- vec_dot s g' ;;
      if q <! n0 then a <- acq v ;; Ok (if a >! snd best then (v, a) else best) else Ok best) start = Ok (v, a) /\
    ((v, a) = start /\ (forall c, In c (firstn k cs) -> first_order d lb ub g x0 c < 0 -> score c <= snd start) \/
     snd start < a /\ a = score v /\ In v cs /\ first_order d lb ub g x0 v < 0 /\ forall c, In c (firstn k cs) -> first_order d lb ub g x0 c < 0 -> score c <= score v)) as H.
  { induction k; intros Hk. { destruct start as [v a]. exists v, a. split; auto. left. split; auto. simpl. contradiction. }
    destruct IHk as (v & a & E & H). lia. cbn [loopR]. rewrite E. cbn [bind]. destruct (Hgen k ltac:(lia)) as [Eg Lk]. rewrite Eg. cbn [bind].
    assert (firstn (S k) cs = firstn k cs ++ [nth k cs []]) as F. { assert (k < length cs)%nat as Hlt by lia. clear - Hlt. revert k Hlt. induction cs; simpl; intros k H. lia. destruct k; auto. simpl. f_equal. apply IHcs. lia. }
    set (c := nth k cs []) in *. assert (In c cs) as Ic by (apply nth_In; lia).
    pose proof (slope d lb ub g g' x0 c L0 Lk Lg Hg) as Sl. destruct (vec_sub c x0) as [s|?|]; cbn [bind] in *; try discriminate. rewrite Sl. cbn [bind].
    destruct (Rltb_spec (first_order d lb ub g x0 c) 0) as [Hn|Hn].
    - replace (first_order d lb ub g x0 c <! n0) with true by (symmetry; apply Rltb_true; exact Hn). rewrite Hacq. cbn [bind snd]. destruct (Rltb_spec a (score c)) as [Hb|Hb].
      + replace (score c >! a) with true by (symmetry; apply Rltb_true; exact Hb). exists c, (score c). split; auto. right.
        assert (snd start <= a) as Hs. { destruct H as [[E1 _]|(H & _)]; [rewrite <- E1; simpl; lra|lra]. }
        split. lra. split; auto. split; auto. split; auto. rewrite F. intros c' I Hc'. apply in_app_iff in I. destruct I as [I|[<-|[]]]; [|lra].
        destruct H as [[E1 H]|(_ & -> & _ & _ & H)]. apply H in I; auto. lra. apply H in I; auto. lra.
      + replace (score c >! a) with false by (symmetry; apply Rltb_false; lra). exists v, a. split; auto. destruct H as [[E1 H]|(H1 & -> & H2 & H3 & H)].
        * left. split; auto. rewrite F. intros c' I Hc'. apply in_app_iff in I. destruct I as [I|[<-|[]]]; auto. rewrite <- E1. simpl. lra.
        * right. repeat split; auto. rewrite F. intros c' I Hc'. apply in_app_iff in I. destruct I as [I|[<-|[]]]; auto. lra.
    - replace (first_order d lb ub g x0 c <! n0) with false by (symmetry; apply Rltb_false; simpl; lra). exists v, a. split; auto. destruct H as [[E1 H]|(H1 & -> & H2 & H3 & H)].
      + left. split; auto. rewrite F. intros c' I Hc'. apply in_app_iff in I. destruct I as [I|[<-|[]]]; auto. lra.
      + right. repeat split; auto. rewrite F. intros c' I Hc'. apply in_app_iff in I. destruct I as [I|[<-|[]]]; auto. lra. }
  destruct (H n (le_n _)) as (v & a & E & Q). exists v, a. split; auto. rewrite firstn_all2 in Q by lia. exact Q.
Qed.

Lemma drawn d (lo up v : list R) (u : nat -> R) : length lo = d -> length up = d -> randomDesign d lo up u = Ok v -> forall i, (i < d)%nat -> nth i v 0 = (1 - u i) * nth i lo 0 + u i * nth i up 0.
Proof.
  intros L1 L2 E i Hi. unfold randomDesign in E. destruct (vec_fillRandomV _ _ _ _) as [w r] eqn:H. destruct r as [[]|?|]; cbn [rmap bind] in E; try discriminate. injection E as <-.
  unfold vec_fillRandomV in H. rewrite L1, L2, repeat_length, Nat.eqb_refl in H. cbn [andb negb] in H.
  match type of H with loop ?n ?f ?s = _ =>
    pose proof (loop_inv (fun k st => match snd st with Ok _ => length (fst st) = d /\ forall i, (i < k)%nat -> vget (fst st) i = unif (vget lo i) (vget up i) (u i) | _ => True end) n f s) as L end.
  rewrite H in L. cbn [fst snd] in L. destruct L as [_ L]. { split; [apply repeat_length|]. intros; lia. }
  - intros k [w0 r] Hk. cbn [fst snd]. destruct r as [[]|?|]; cbn [fst snd]; auto. intros (Lw & Q).
    destruct (vget lo k >! vget up k) eqn:E; cbn [fst snd]; auto. rewrite upd_length. split; auto.
    intros j Hj. destruct (Nat.eq_dec j k) as [->|]. unfold vget at 1. rewrite nth_upd_same by lia. reflexivity. unfold vget at 1. rewrite nth_upd_other by auto. apply Q. lia.
  - specialize (L i Hi). unfold vget, unif in L. cbn in L. rewrite L. ring.
Qed.
Lemma candidates d lo up (u : nat -> nat -> R) n : (forall i j, 0 <= u i j < 1) -> length lo = d -> length up = d -> (forall i, (i < d)%nat -> nth i lo 0 <= nth i up 0) ->
  exists cs, length cs = n /\ forall i, (i < n)%nat -> randomDesign d lo up (u i) = Ok (nth i cs []) /\ between d lo up (nth i cs []).
Proof.
  intros Hu L1 L2 H. induction n. exists []. split; auto. intros; lia. destruct IHn as (cs & L & Hc). destruct (random_ok d lo up (u n) (Hu n) L1 L2 H) as (v & E & B).
  exists (cs ++ [v]). split. rewrite app_length. simpl. lia. intros i Hi. destruct (Nat.eq_dec i n) as [->|]. rewrite app_nth2 by lia. rewrite L, Nat.sub_diag. auto. rewrite app_nth1 by lia. apply Hc. lia.
Qed.
Lemma clamp_near d x y r : 0 <= x <= 1 / INR d -> Rabs (y - x) <= r -> Rabs (clamp d y - x) <= r.
Proof. intros H A. unfold clamp, Rmin, Rmax. apply Rabs_le_between in A || apply Rabs_def2 in A || idtac. revert A. unfold Rabs. repeat (destruct (Rle_dec _ _) || destruct (Rcase_abs _)); intros; lra. Qed.

(** ** C109 *)
(** a step: the candidates lie in the normalised box and at most window * factor / d from the best design; among those on which the
    function falls to first order the one with the largest value is chosen.  When there is none the chosen vector is empty (without constraints) or the lower
    corner (with constraints).  The step is counted, the factor is halved, and the fifth step is the last *)
Theorem C109_step : forall d nc n win lb ub x0 g (e : list R -> R) (p : list R -> list R) u ego (s : gstep R), step_data d win lb ub x0 g u -> (forall v, length (p v) = nc) ->
  g_will s = true -> 0 <= g_factor s ->
  let score v := if Nat.eqb nc 0 then e v else e v * product (p v) in
  exists v cs, gradStep d nc n win lb ub x0 (Ok g) (fun v => Ok (e v)) (fun v => Ok (p v)) u ego s =
      ((if Nat.eqb (g_iter s) 4 then mkGS false 0 1 (S (g_steps s)) else mkGS true (S (g_iter s)) (g_factor s / 2) (S (g_steps s))), Ok v) /\
    length cs = n /\ (forall c, In c cs -> length c = d /\ forall i, (i < d)%nat -> 0 <= nth i c 0 <= 1 / INR d /\ Rabs (nth i c 0 - nth i x0 0) <= win * g_factor s / INR d) /\
    (forall k i, (k < n)%nat -> (i < d)%nat -> let r := win * g_factor s / INR d in
       nth i (nth k cs []) 0 = (1 - u k i) * Rmax 0 (nth i x0 0 - r) + u k i * Rmin (1 / INR d) (nth i x0 0 + r)) /\
    ((exists c, In c cs /\ first_order d lb ub g x0 c < 0 /\ - 1000000000000000 < score c) ->
       In v cs /\ first_order d lb ub g x0 v < 0 /\ forall c, In c cs -> first_order d lb ub g x0 c < 0 -> score c <= score v) /\
    ((forall c, In c cs -> first_order d lb ub g x0 c < 0 -> score c <= - 1000000000000000) -> v = if Nat.eqb nc 0 then [] else repeat 0 d).
Proof.
  intros d nc n win lb ub x0 g e p u ego s (Hd & Ll & Lu & Hb & L0 & H0 & Lg & Hg & Hw & Hu) Hp Wl Hf score.
  destruct (trust_ok d x0 (win * g_factor s) Hd L0) as (lo & up & Et & L1 & L2 & H). { nra. }
  destruct (candidates d lo up u n Hu L1 L2) as (cs & Lc & Hc). { intros i Hi. destruct (H i Hi) as (_ & _ & A & B). lra. }
  destruct (scale_ok d lb ub g Hd Ll Lu Hb Lg) as (g' & Es & Lg' & Hg').
  set (start := (if Nat.eqb nc 0 then @nil R else repeat 0 d, - 1000000000000000)).
  assert (exists v a, gradSearch d nc n lb ub x0 g lo up (fun v => Ok (e v)) (fun v => Ok (p v)) u = Ok (v, a) /\
    ((v, a) = start /\ (forall c, In c cs -> first_order d lb ub g x0 c < 0 -> score c <= snd start) \/
     snd start < a /\ a = score v /\ In v cs /\ first_order d lb ub g x0 v < 0 /\ forall c, In c cs -> first_order d lb ub g x0 c < 0 -> score c <= score v)) as (v & a & Ev & Q).
  { unfold gradSearch. rewrite Lg, Nat.eqb_refl. cbn [negb]. rewrite Es. cbn [bind]. rewrite L1, L2, Nat.eqb_refl. cbn [negb].
    assert (@nopp R RNum (nlit 10 14) = - 1000000000000000) as ->. { cbn. unfold Rlit. simpl. lra. }
    unfold score, start. destruct (Nat.eqb_spec nc 0) as [Z|Z].
    - apply search_ok; auto. intros i Hi. destruct (Hc i Hi) as [A B]. split; auto. apply B.
    - apply (search_ok d lb ub g g' x0 (fun i => randomDesign d lo up (u i)) (fun v => e v * product (p v))); auto. intros i Hi. destruct (Hc i Hi) as [A B]. split; auto. apply B. intros v. apply score_ok. auto. }
  exists v, cs. split; [|split; [auto|split; [|split]]].
  - unfold gradStep. unfold sbind at 1, slift at 1. rewrite (has_gradient g d Lg Hg). cbn [negb swhen]. unfold sbind at 1, sret at 1. unfold sbind at 1, sget at 1. rewrite Wl.
    rewrite window_eq by auto. rewrite Et. unfold sbind at 1, slift at 1. cbn [fst snd]. rewrite Ev. unfold sbind, slift, smod, sret. cbn [fst snd].
    f_equal. unfold decideNext, max_grad_steps. cbn [g_iter g_will g_factor g_steps]. rewrite Wl. change (Nat.eqb (S (g_iter s)) 5) with (Nat.eqb (g_iter s) 4).
    assert (g_factor s *! nlit 5 (-1) = g_factor s / 2) as ->. { cbn. unfold Rlit. simpl. lra. }
    destruct (Nat.eqb (g_iter s) 4); reflexivity.
  - intros c I. apply (In_nth _ _ []) in I. destruct I as (k & Hk & <-). destruct (Hc k ltac:(lia)) as (_ & Lk & B). split; auto. intros i Hi. specialize (B i Hi). destruct (H i Hi) as (E1 & E2 & A1 & A2).
    split. lra. assert (0 < INR d) as Pd by (apply lt_0_INR; lia). assert (0 <= win * g_factor s / INR d) as Pr. { apply Rmult_le_pos. nra. left. apply Rinv_0_lt_compat. auto. }
    set (r := win * g_factor s / INR d) in *.
    assert (Rabs (nth i lo 0 - nth i x0 0) <= r) as B1. { rewrite E1. apply clamp_near; auto. replace (nth i x0 0 - r - nth i x0 0) with (- r) by ring. rewrite Rabs_Ropp, Rabs_pos_eq; lra. }
    assert (Rabs (nth i up 0 - nth i x0 0) <= r) as B2. { rewrite E2. apply clamp_near; auto. replace (nth i x0 0 + r - nth i x0 0) with r by ring. rewrite Rabs_pos_eq; lra. }
    revert B1 B2. unfold Rabs. repeat destruct (Rcase_abs _); intros; lra.
  - intros k i Hk Hi r. destruct (Hc k Hk) as [Ek _]. rewrite (drawn d lo up _ (u k) L1 L2 Ek i Hi). destruct (H i Hi) as (E1 & E2 & _). rewrite E1, E2. fold r. specialize (H0 i Hi).
    assert (0 < INR d) as Pd by (apply lt_0_INR; lia). assert (0 <= r) as Pr. { unfold r. apply Rmult_le_pos. nra. left. apply Rinv_0_lt_compat. auto. }
    assert (0 < 1 / INR d) by (apply Rdiv_lt_0_compat; lra).
    f_equal; f_equal; unfold clamp, Rmin, Rmax; repeat destruct (Rle_dec _ _); lra.
  - split.
    + intros (c & Ic & Dc & Sc). destruct Q as [[_ Q]|(_ & _ & Q)]; auto. specialize (Q c Ic Dc). simpl in Q. lra.
    + intros N. destruct Q as [[Q _]|(Q1 & Q2 & Q3 & Q4 & _)]. injection Q as -> _. reflexivity. specialize (N v Q3 Q4). simpl in Q1. lra.
Qed.
Print Assumptions C109_step.

(** without a gradient (empty, or all entries within 1e-8 of zero) the design of the usual search is taken, and gradient steps are switched off; an exception while the
    gradient is looked up changes nothing *)
Theorem C109_no_gradient : forall d nc n win lb ub x0 ei probs u ego (s : gstep R) g, (forall i, (i < length g)%nat -> Rabs (nth i g 0) <= 1 / 100000000) ->
  gradStep d nc n win lb ub x0 (Ok g) ei probs u ego s = (mkGS false (g_iter s) (g_factor s) (g_steps s), ego) /\
  forall ex, gradStep d nc n win lb ub x0 (Throw ex) ei probs u ego s = (s, Throw ex).
Proof.
  intros d nc n win lb ub x0 ei probs u ego s g Hg. split; [|reflexivity]. unfold gradStep. unfold sbind at 1, slift at 1. rewrite no_gradient by auto. cbn [negb swhen].
  unfold sbind at 1, smod at 1. unfold sbind at 1, sget at 1. cbn [g_will]. reflexivity.
Qed.
Print Assumptions C109_no_gradient.

(** once gradient steps are switched off no step, whatever its inputs and outcome, switches them on again *)
Theorem C109_stays_off : forall d nc n win lb ub x0 rg ei probs u ego (s : gstep R), g_will s = false ->
  g_will (fst (gradStep d nc n win lb ub x0 rg ei probs u ego s)) = false /\
  forall g, rg = Ok g -> snd (gradStep d nc n win lb ub x0 rg ei probs u ego s) = ego.
Proof.
  intros d nc n win lb ub x0 rg ei probs u ego s Wl. unfold gradStep, sbind, slift, sget, swhen, smod, sret.
  destruct rg as [g|ex|]; [|split; [exact Wl|discriminate]..]. destruct (negb (hasGradient g)); cbn [g_will fst snd].
  - split; reflexivity.
  - rewrite Wl. split; [exact Wl|reflexivity].
Qed.
Print Assumptions C109_stays_off.

(** a series of steps that find a gradient: the first five are gradient steps with windows halved each time, all later ones are usual searches *)
Fixpoint after (step : nat -> SM (gstep R) (list R)) (n : nat) (s : gstep R) : gstep R := match n with O => s | S k => fst (step k (after step k s)) end.
(** a new optimiser: whatever the steps are given and however they end, no gradient step is ever made, and a step that gets past the look-up of the gradient is the usual search *)
Theorem C109_never_in_a_run : forall d nc n win lb ub (x0 : nat -> list R) rg ei probs u ego,
  let step k := gradStep d nc n win lb ub (x0 k) (rg k) (ei k) (probs k) (u k) (ego k) in
  forall k, g_will (after step k gstep_new) = false /\ g_steps (after step k gstep_new) = 0%nat /\
    forall g, rg k = Ok g -> snd (step k (after step k gstep_new)) = ego k.
Proof.
  intros d nc n win lb ub x0 rg ei probs u ego step.
  assert (forall k s, g_will s = false -> g_steps (fst (step k s)) = g_steps s) as G.
  { intros k s Wl. unfold step, gradStep, sbind, slift, sget, swhen, smod, sret. destruct (rg k) as [g|ex|]; auto. destruct (negb (hasGradient g)); cbn [g_will fst snd]; auto. rewrite Wl. auto. }
  assert (forall k, g_will (after step k gstep_new) = false /\ g_steps (after step k gstep_new) = 0%nat) as H.
  { induction k. split; reflexivity. destruct IHk as [A B]. cbn [after]. split. unfold step at 1. apply C109_stays_off; auto. rewrite G; auto. }
  intros k. destruct (H k) as [A B]. split; auto. split; auto. intros g Eg. unfold step at 1. eapply C109_stays_off; eauto.
Qed.
Print Assumptions C109_never_in_a_run.
Theorem C109_five_steps : forall d nc n win lb ub (x0 g : nat -> list R) (e : nat -> list R -> R) (p : nat -> list R -> list R) (u : nat -> nat -> nat -> R) ego,
  (forall k, step_data d win lb ub (x0 k) (g k) (u k)) -> (forall k v, length (p k v) = nc) ->
  let step k := gradStep d nc n win lb ub (x0 k) (Ok (g k)) (fun v => Ok (e k v)) (fun v => Ok (p k v)) (u k) (ego k) in
  forall k, ((k < 5)%nat -> after step k (mkGS true 0 1 0) = mkGS true k (/ 2 ^ k) k) /\
            ((5 <= k)%nat -> after step k (mkGS true 0 1 0) = mkGS false 0 1 5 /\ snd (step k (after step k (mkGS true 0 1 0))) = ego k).
Proof.
  intros d nc n win lb ub x0 g e p u ego Hs Hp step.
  assert (forall k s, g_will s = true -> 0 <= g_factor s -> fst (step k s) = (if Nat.eqb (g_iter s) 4 then mkGS false 0 1 (S (g_steps s)) else mkGS true (S (g_iter s)) (g_factor s / 2) (S (g_steps s)))) as St.
  { intros k s Wl Hf. destruct (C109_step d nc n win lb ub (x0 k) (g k) (e k) (p k) (u k) (ego k) s (Hs k) (Hp k) Wl Hf) as (v & cs & E & _). unfold step. rewrite E. reflexivity. }
  assert (forall k s, g_will s = false -> step k s = (s, ego k)) as Sf.
  { intros k s Wl. unfold step, gradStep. unfold sbind at 1, slift at 1. destruct (Hs k) as (_ & _ & _ & _ & _ & _ & Lg & Hg & _). rewrite (has_gradient (g k) d Lg Hg). cbn [negb swhen].
    unfold sbind at 1, sret at 1. unfold sbind at 1, sget at 1. rewrite Wl. reflexivity. }
  assert (forall k, (k < 5)%nat -> after step k (mkGS true 0 1 0) = mkGS true k (/ 2 ^ k) k) as A.
  { induction k; intros Hk. simpl. rewrite Rinv_1. reflexivity. cbn [after]. rewrite IHk by lia. assert (0 < / 2 ^ k) as P by (apply Rinv_0_lt_compat, pow_lt; lra). rewrite St by (cbn; auto; lra). cbn [g_iter g_factor g_steps].
    destruct (Nat.eqb_spec k 4); [lia|]. f_equal. cbn [pow]. field. apply pow_nonzero. lra. }
  assert (forall k, (5 <= k)%nat -> after step k (mkGS true 0 1 0) = mkGS false 0 1 5) as B.
  { induction k; intros Hk. lia. destruct (Nat.eq_dec k 4) as [->|]. cbn [after]. change (fst (step 4%nat (after step 4 (mkGS true 0 1 0))) = mkGS false 0 1 5). rewrite (A 4%nat) by lia. rewrite St. reflexivity. reflexivity. cbn [g_factor]. left. apply Rinv_0_lt_compat. lra.
    cbn [after]. rewrite IHk by lia. rewrite Sf by auto. reflexivity. }
  intros k. split; auto. intros Hk. split; auto. rewrite B by auto. rewrite Sf by auto. reflexivity.
Qed.
Print Assumptions C109_five_steps.

(** the models that are bound (Kriging, linear) have no prediction with derivatives: it throws logic_error, and so does the step, as soon as a candidate is on the falling side *)
Theorem C109_models_refuse : forall d n win lb ub x0 g probs u ego (s : gstep R) k lo up c, step_data d win lb ub x0 g u -> g_will s = true -> 0 <= g_factor s ->
  gradWindow d win x0 (g_factor s) = Ok (lo, up) -> (k < n)%nat -> randomDesign d lo up (u k) = Ok c -> first_order d lb ub g x0 c < 0 ->
  gradStep d 0 n win lb ub x0 (Ok g) (fun _ => Throw LogicError) probs u ego s = (s, Throw LogicError).
Proof.
  intros d n win lb ub x0 g probs u ego s k lo up c (Hd & Ll & Lu & Hb & L0 & H0 & Lg & Hg & Hw & Hu) Wl Hf Ew Hk Ec Dc.
  destruct (trust_ok d x0 (win * g_factor s) Hd L0) as (lo' & up' & Et & L1 & L2 & H). { nra. } rewrite <- window_eq in Et by auto. rewrite Ew in Et. injection Et as <- <-.
  destruct (candidates d lo up u n Hu L1 L2) as (cs & Lc & Hc). { intros i Hi. destruct (H i Hi) as (_ & _ & A & B). lra. }
  destruct (scale_ok d lb ub g Hd Ll Lu Hb Lg) as (g' & Es & Lg' & Hg').
  unfold gradStep. unfold sbind at 1, slift at 1. rewrite (has_gradient g d Lg Hg). cbn [negb swhen]. unfold sbind at 1, sret at 1. unfold sbind at 1, sget at 1. rewrite Wl.
  rewrite Ew. unfold sbind at 1, slift at 1. cbn [fst snd]. unfold gradSearch. rewrite Lg, Nat.eqb_refl. cbn [negb]. rewrite Es. cbn [bind]. rewrite L1, L2, Nat.eqb_refl. cbn [negb]. cbn [Nat.eqb].
  assert (forall m, (m <= n)%nat -> let r := gradLoop m (fun i => randomDesign d lo up (u i)) x0 g' (fun _ => Throw LogicError) ([], nopp (nlit 10 14)) in r = Throw LogicError \/ (m <= k)%nat /\ exists b, r = Ok b) as G.
  { induction m; intros Hm. right. split. lia. eexists. reflexivity. destruct (IHm ltac:(lia)) as [E|[Hmk [b E]]]; unfold gradLoop in *; cbn [loopR]; cbv zeta in *; rewrite E; cbn [bind]. auto.
    destruct (Hc m ltac:(lia)) as [Em [Lm _]]. rewrite Em. cbn [bind]. pose proof (slope d lb ub g g' x0 (nth m cs []) L0 Lm Lg' Hg') as Sl. destruct (vec_sub (nth m cs []) x0) as [q|?|]; cbn [bind] in *; try discriminate.
    rewrite Sl. cbn [bind]. destruct (Rltb_spec (first_order d lb ub g x0 (nth m cs [])) 0) as [Hn|Hn].
    - left. replace (first_order d lb ub g x0 (nth m cs []) <! n0) with true by (symmetry; apply Rltb_true; exact Hn). reflexivity.
    - right. replace (first_order d lb ub g x0 (nth m cs []) <! n0) with false by (symmetry; apply Rltb_false; simpl; lra). split; eauto. destruct (Nat.eq_dec m k) as [->|]; [|lia]. rewrite Ec in Em. injection Em as ->. lra. }
  destruct (G n (le_n _)) as [E|[Hn _]]; [|lia]. cbv zeta in E. rewrite E. reflexivity.
Qed.
Print Assumptions C109_models_refuse.

(** so it is false that a gradient step always proposes a design: one parameter in [0,1], best design 1/2, gradient 1, one draw, to the right of the best design *)
Lemma example_data : step_data 1 (1 / 2) [0] [1] [1 / 2] [1] (fun _ _ => 3 / 4).
Proof.
  unfold step_data. split. lia. split; auto. split; auto. split. { intros [|i] Hi; simpl; try lra; lia. } split; auto. split. { intros [|i] Hi; simpl; try lra; lia. } split; auto.
  split. exists 0%nat. split. lia. simpl. rewrite Rabs_pos_eq; lra. split. lra. intros; lra.
Qed.
Theorem C109_always_a_design_refuted : exists d nc n win lb ub x0 g (e : list R -> R) (p : list R -> list R) u ego (s s' : gstep R),
  step_data d win lb ub x0 g u /\ (forall v, length (p v) = nc) /\ g_will s = true /\ 0 < g_factor s /\ (0 < n)%nat /\
  gradStep d nc n win lb ub x0 (Ok g) (fun v => Ok (e v)) (fun v => Ok (p v)) u ego s = (s', Ok []).
Proof.
  destruct (C109_step 1 0 1 (1 / 2) [0] [1] [1 / 2] [1] (fun _ => 0) (fun _ => []) (fun _ _ => 3 / 4) (Ok [1]) (mkGS true 0 1 0) example_data (fun _ => eq_refl) eq_refl) as (v & cs & E & Lc & _ & Hc & _ & N).
  { simpl. lra. }
  exists 1%nat, 0%nat, 1%nat, (1 / 2), [0], [1], [1 / 2], [1], (fun _ => 0), (fun _ => []), (fun _ _ => 3 / 4), (Ok [1]), (mkGS true 0 1 0), (mkGS true 1 (1 / 2) 1).
  split. apply example_data. split; [|split; [|split; [|split; [|rewrite E; cbn [g_iter Nat.eqb g_factor g_steps]; f_equal; f_equal; apply N]]]].
  - reflexivity.
  - reflexivity.
  - simpl. lra.
  - lia.
  - intros c I Dc. exfalso. destruct cs as [|c0 [|? ?]]; try discriminate. destruct I as [<-|[]]. specialize (Hc 0%nat 0%nat ltac:(lia) ltac:(lia)). cbn [nth g_factor] in Hc. cbv zeta in Hc.
    unfold first_order, user_value in Dc. cbn [rsum nth] in Dc. rewrite Hc in Dc. revert Dc. unfold Rmin, Rmax. simpl. repeat destruct (Rle_dec _ _); lra.
Qed.
Print Assumptions C109_always_a_design_refuted.

(** the hypotheses are met: with the draw 1/4 instead the proposed design is 1/4, on the falling side *)
Example C109_example : step_data 1 (1 / 2) [0] [1] [1 / 2] [1] (fun _ _ => 1 / 4) /\
  exists s' v, gradStep 1 0 1 (1 / 2) [0] [1] [1 / 2] (Ok [1]) (fun _ => Ok 0) (fun _ => Ok []) (fun _ _ => 1 / 4) (Ok [1]) (mkGS true 0 1 0) = (s', Ok v) /\ nth 0 v 0 = 1 / 4 /\ s' = mkGS true 1 (1 / 2) 1.
Proof.
  assert (step_data 1 (1 / 2) [0] [1] [1 / 2] [1] (fun _ _ => 1 / 4)) as D. { destruct example_data as (A1 & A2 & A3 & A4 & A5 & A6 & A7 & A8 & A9 & _). unfold step_data. repeat (split; [assumption|]). intros; lra. }
  split. exact D.
  destruct (C109_step 1 0 1 (1 / 2) [0] [1] [1 / 2] [1] (fun _ => 0) (fun _ => []) (fun _ _ => 1 / 4) (Ok [1]) (mkGS true 0 1 0) D (fun _ => eq_refl) eq_refl) as (v & cs & E & Lc & _ & Hc & M & _).
  { simpl. lra. }
  destruct cs as [|c0 [|? ?]]; try discriminate. specialize (Hc 0%nat 0%nat ltac:(lia) ltac:(lia)). cbn [nth g_factor] in Hc. cbv zeta in Hc.
  assert (nth 0 c0 0 = 1 / 4) as Q. { rewrite Hc. unfold Rmin, Rmax. simpl. repeat destruct (Rle_dec _ _); lra. }
  eexists; exists v. split. exact E. split; [|cbn; reflexivity]. destruct M as [[<-|[]] _]; auto. exists c0. split. left; auto. split. unfold first_order, user_value. cbn [rsum nth]. rewrite Q. simpl. lra. simpl. lra.
Qed.
Example C109_models_refuse_example :
  gradStep 1 0 1 (1 / 2) [0] [1] [1 / 2] (Ok [1]) (fun _ => Throw LogicError) (fun _ => Ok []) (fun _ _ => 1 / 4) (Ok [1]) (mkGS true 0 1 0) = (mkGS true 0 1 0, Throw LogicError).
Proof.
  destruct C109_example as [D _]. destruct (trust_ok 1 [1 / 2] (1 / 2 * 1)) as (lo & up & Et & L1 & L2 & H); auto. lra.
  destruct (random_ok 1 lo up (fun _ => 1 / 4)) as (c & Ec & _); auto. intros; lra. { intros i Hi. destruct (H i Hi) as (_ & _ & A & B). lra. }
  apply (C109_models_refuse 1 1 (1 / 2) [0] [1] [1 / 2] [1] (fun _ => Ok []) (fun _ _ => 1 / 4) (Ok [1]) (mkGS true 0 1 0) 0 lo up c D); auto. simpl; lra.
  cbn [g_factor]. rewrite window_eq by (auto; lra). exact Et.
  unfold first_order, user_value. cbn [rsum nth]. rewrite (drawn 1 lo up c _ L1 L2 Ec 0%nat ltac:(lia)). destruct (H 0%nat ltac:(lia)) as (E1 & E2 & _). rewrite E1, E2.
  unfold clamp, Rmin, Rmax. simpl. repeat destruct (Rle_dec _ _); lra.
Qed.
