(** Derivatives of the correlation functions (Coq.Reals [derivable_pt_lim]). *)
From Coq Require Import Reals Lra Psatz List Arith Lia ZArith Bool.
From Verif Require Import Base Num RealNum RSpec VecModel MatModel CorrProofs.
Import ListNotations.
Local Open Scope R_scope.

(** x + t*d, componentwise, first n components *)
Definition shift (x d : list R) (t : R) (n : nat) : list R := map (fun k => nth k x 0 + t * nth k d 0) (seq 0 n).
Lemma nth_shift x d t n k : (k < n)%nat -> nth k (shift x d t n) 0 = nth k x 0 + t * nth k d 0.
Proof. intros. unfold shift. rewrite nth_map_seq by auto. auto. Qed.

Lemma deriv_rsum n (f : nat -> R -> R) (f' : nat -> R) x : (forall k, (k < n)%nat -> derivable_pt_lim (f k) x (f' k)) ->
  derivable_pt_lim (fun t => rsum n (fun k => f k t)) x (rsum n f').
Proof.
  induction n; intros H; simpl. apply (derivable_pt_lim_const 0).
  apply (derivable_pt_lim_plus (fun t => rsum n (fun k => f k t)) (f n)). apply IHn; auto. apply H; auto.
Qed.
Lemma deriv_ext f g x l : (forall t, f t = g t) -> derivable_pt_lim f x l -> derivable_pt_lim g x l.
Proof. intros E H eps He. destruct (H eps He) as [d Hd]. exists d. intros h H1 H2. rewrite <- !E. auto. Qed.
Lemma deriv_eq f x l l' : l = l' -> derivable_pt_lim f x l -> derivable_pt_lim f x l'.
Proof. intros <-; auto. Qed.
Lemma deriv_exp_opp (f : R -> R) x l : derivable_pt_lim f x l -> derivable_pt_lim (fun t => exp (- f t)) x (- l * exp (- f x)).
Proof.
  intros H. apply (deriv_eq _ _ (exp (- f x) * - l)). ring.
  apply (derivable_pt_lim_comp (fun t => - f t) exp). apply (derivable_pt_lim_opp f); auto. apply derivable_pt_lim_exp.
Qed.
(** (a - t b)^2 at t *)
Lemma deriv_sq_lin c a b t : derivable_pt_lim (fun s => c * ((a - s * b) * (a - s * b))) t (- 2 * c * b * (a - t * b)).
Proof.
  assert (derivable_pt_lim (fun s => a - s * b) t (- b)) as H.
  { apply (deriv_eq _ _ (0 - (1 * b + t * 0))). ring.
    apply (derivable_pt_lim_minus (fun _ => a) (fun s => s * b)). apply derivable_pt_lim_const.
    apply (derivable_pt_lim_mult (fun s => s) (fun _ => b)). apply derivable_pt_lim_id. apply derivable_pt_lim_const. }
  apply (deriv_eq _ _ (c * ((- b) * (a - t * b) + (a - t * b) * (- b)))). ring.
  apply (derivable_pt_lim_scal (fun s => (a - s * b) * (a - s * b)) c).
  apply (derivable_pt_lim_mult (fun s => a - s * b) (fun s => a - s * b)); auto.
Qed.

Lemma gauss_dot_eq xi xj d theta n :
  gauss_corr_dot (T:=R) xi xj d theta n =
  2 * rsum n (fun k => nth k theta 0 * (nth k xi 0 - nth k xj 0) * nth k d 0) * gauss_corr xi xj theta n.
Proof.
  unfold gauss_corr_dot. cbv zeta. rewrite gauss_corr_eq. cbn. rewrite !nsum_rsum. unfold vget. cbn.
  rewrite (rsum_ext n (fun k => -2 * nth k theta 0 * (nth k xi 0 - nth k xj 0) * nth k d 0) (fun k => -2 * (nth k theta 0 * (nth k xi 0 - nth k xj 0) * nth k d 0))) by (intros; ring).
  rewrite rsum_scal. 
  rewrite (rsum_ext n (fun k => nth k theta 0 * (nth k xi 0 - nth k xj 0) * (nth k xi 0 - nth k xj 0)) (fun k => nth k theta 0 * ((nth k xi 0 - nth k xj 0) * (nth k xi 0 - nth k xj 0)))) by (intros; ring).
  ring.
Qed.

Lemma gauss_dot_deriv xi xj d theta n t :
  derivable_pt_lim (fun s => gauss_corr xi (shift xj d s n) theta n) t (gauss_corr_dot xi (shift xj d t n) d theta n).
Proof.
  apply (deriv_ext (fun s => exp (- rsum n (fun k => nth k theta 0 * ((nth k xi 0 - nth k xj 0 - s * nth k d 0) * (nth k xi 0 - nth k xj 0 - s * nth k d 0)))))).
  { intros s. rewrite gauss_corr_eq. f_equal. f_equal. apply rsum_ext. intros k Hk. rewrite nth_shift by auto. ring. }
  rewrite gauss_dot_eq. eapply deriv_eq. 2:{ apply (deriv_exp_opp (fun s => rsum n (fun k => nth k theta 0 * ((nth k xi 0 - nth k xj 0 - s * nth k d 0) * (nth k xi 0 - nth k xj 0 - s * nth k d 0))))).
    apply (deriv_rsum n (fun k s => nth k theta 0 * ((nth k xi 0 - nth k xj 0 - s * nth k d 0) * (nth k xi 0 - nth k xj 0 - s * nth k d 0)))).
    intros k Hk. apply deriv_sq_lin. }
  rewrite gauss_corr_eq. f_equal.
  - rewrite <- rsum_opp, <- rsum_scal. apply rsum_ext. intros k Hk. rewrite nth_shift by auto. ring.
  - f_equal. f_equal. apply rsum_ext. intros k Hk. rewrite nth_shift by auto. ring.
Qed.

Lemma loop_minus_rsum n f : loop n (fun i acc => acc -! f i) (@n0 R RNum) = - rsum n f.
Proof. induction n; cbn [loop rsum]. simpl; lra. rewrite IHn. simpl. lra. Qed.
Lemma gauss_dotdot_eq xi xj d1 d2 theta n :
  gauss_corr_dotdot (T:=R) xi xj d1 d2 theta n =
  (4 * rsum n (fun k => nth k theta 0 * (nth k xi 0 - nth k xj 0) * nth k d1 0) * rsum n (fun k => nth k theta 0 * (nth k xi 0 - nth k xj 0) * nth k d2 0)
   - 2 * rsum n (fun k => nth k theta 0 * nth k d1 0 * nth k d2 0)) * gauss_corr xi xj theta n.
Proof.
  unfold gauss_corr_dotdot. cbv zeta. rewrite !loop_minus_rsum, !nsum_rsum. rewrite gauss_corr_eq. unfold vget. cbn.
  rewrite (rsum_ext n (fun i => 2 * nth i theta 0 * nth i d1 0 * nth i d2 0) (fun k => 2 * (nth k theta 0 * nth k d1 0 * nth k d2 0))) by (intros; ring).
  rewrite (rsum_ext n (fun i => 2 * nth i theta 0 * nth i d1 0 * (nth i xi 0 - nth i xj 0)) (fun k => 2 * (nth k theta 0 * (nth k xi 0 - nth k xj 0) * nth k d1 0))) by (intros; ring).
  rewrite (rsum_ext n (fun i => nth i theta 0 * 2 * (nth i xi 0 - nth i xj 0) * nth i d2 0) (fun k => 2 * (nth k theta 0 * (nth k xi 0 - nth k xj 0) * nth k d2 0))) by (intros; ring).
  rewrite (rsum_ext n (fun k => nth k theta 0 * (nth k xi 0 - nth k xj 0) * (nth k xi 0 - nth k xj 0)) (fun k => nth k theta 0 * ((nth k xi 0 - nth k xj 0) * (nth k xi 0 - nth k xj 0)))) by (intros; ring).
  rewrite !rsum_scal. ring.
Qed.

(** derivative along d2 of the directional derivative along d1, both in the second sample *)
Lemma gauss_dotdot_deriv xi xj d1 d2 theta n t :
  derivable_pt_lim (fun s => gauss_corr_dot xi (shift xj d2 s n) d1 theta n) t (gauss_corr_dotdot xi (shift xj d2 t n) d1 d2 theta n).
Proof.
  apply (deriv_ext (fun s => 2 * rsum n (fun k => nth k theta 0 * (nth k xi 0 - nth k xj 0 - s * nth k d2 0) * nth k d1 0) * gauss_corr xi (shift xj d2 s n) theta n)).
  { intros s. rewrite gauss_dot_eq. f_equal. f_equal. apply rsum_ext. intros k Hk. rewrite nth_shift by auto. ring. }
  eapply deriv_eq.
  2:{ apply (derivable_pt_lim_mult (fun s => 2 * rsum n (fun k => nth k theta 0 * (nth k xi 0 - nth k xj 0 - s * nth k d2 0) * nth k d1 0)) (fun s => gauss_corr xi (shift xj d2 s n) theta n)).
      - apply (derivable_pt_lim_scal (fun s => rsum n (fun k => nth k theta 0 * (nth k xi 0 - nth k xj 0 - s * nth k d2 0) * nth k d1 0)) 2).
        apply (deriv_rsum n (fun k s => nth k theta 0 * (nth k xi 0 - nth k xj 0 - s * nth k d2 0) * nth k d1 0) (fun k => - (nth k theta 0 * nth k d1 0 * nth k d2 0))).
        intros k Hk. set (c := nth k theta 0 * nth k d1 0).
        apply (deriv_ext (fun s => c * (nth k xi 0 - nth k xj 0 - s * nth k d2 0))). { intros; unfold c; ring. }
        apply (deriv_eq _ _ (c * (0 - (1 * nth k d2 0 + t * 0)))). unfold c; ring.
        apply (derivable_pt_lim_scal (fun s => nth k xi 0 - nth k xj 0 - s * nth k d2 0) c).
        apply (derivable_pt_lim_minus (fun _ => nth k xi 0 - nth k xj 0) (fun s => s * nth k d2 0)). apply derivable_pt_lim_const.
        apply (derivable_pt_lim_mult (fun s => s) (fun _ => nth k d2 0)). apply derivable_pt_lim_id. apply derivable_pt_lim_const.
      - apply gauss_dot_deriv. }
  rewrite gauss_dotdot_eq, gauss_dot_eq, rsum_opp.
  rewrite (rsum_ext n (fun k => nth k theta 0 * (nth k xi 0 - nth k (shift xj d2 t n) 0) * nth k d1 0) (fun k => nth k theta 0 * (nth k xi 0 - nth k xj 0 - t * nth k d2 0) * nth k d1 0)).
  2:{ intros k Hk. rewrite nth_shift by auto. ring. }
  ring.
Qed.

(** the exponential correlation, where no component of the two points coincides *)
Lemma deriv_abs_lin a b t : a - t * b <> 0 ->
  derivable_pt_lim (fun s => Rabs (a - s * b)) t (if Rle_dec 0 (a - t * b) then - b else b).
Proof.
  intros H.
  assert (derivable_pt_lim (fun s => a - s * b) t (- b)) as HL.
  { apply (deriv_eq _ _ (0 - (1 * b + t * 0))). ring.
    apply (derivable_pt_lim_minus (fun _ => a) (fun s => s * b)). apply derivable_pt_lim_const.
    apply (derivable_pt_lim_mult (fun s => s) (fun _ => b)). apply derivable_pt_lim_id. apply derivable_pt_lim_const. }
  destruct (Rle_dec 0 (a - t * b)).
  - apply (deriv_eq _ _ (1 * - b)). ring. apply (derivable_pt_lim_comp (fun s => a - s * b) Rabs); auto. apply Rabs_derive_1. lra.
  - apply (deriv_eq _ _ (-1 * - b)). ring. apply (derivable_pt_lim_comp (fun s => a - s * b) Rabs); auto. apply Rabs_derive_2. lra.
Qed.
Lemma deriv_Rpow x y : 0 < x -> derivable_pt_lim (fun z => Rpow z y) x (y * Rpow x (y - 1)).
Proof.
  intros Hx. unfold Rpow at 2. destruct (Req_EM_T x 0); [lra|].
  pose proof (derivable_pt_lim_power x y Hx) as H. intros eps He. destruct (H eps He) as [d Hd].
  assert (0 < Rmin d x) as Hp by (apply Rmin_pos; auto; apply cond_pos). exists (mkposreal _ Hp). intros h Hh Hl. simpl in Hl.
  assert (Rabs h < d) by (eapply Rlt_le_trans; [exact Hl|apply Rmin_l]). assert (Rabs h < x) as Hx2 by (eapply Rlt_le_trans; [exact Hl|apply Rmin_r]).
  specialize (Hd h Hh H0). unfold Rpow. destruct (Req_EM_T x 0); [lra|]. destruct (Req_EM_T (x + h) 0). { exfalso. unfold Rabs in Hx2. destruct (Rcase_abs h); lra. }
  exact Hd.
Qed.

Lemma exp_dot_eq xi xj d theta gamma n :
  exp_corr_dot (T:=R) xi xj d theta gamma n =
  - rsum n (fun k => nth k theta 0 * (nth k gamma 0 * Rpow (Rabs (nth k xi 0 - nth k xj 0)) (nth k gamma 0 - 1) *
        (if Rle_dec 0 (nth k xi 0 - nth k xj 0) then - nth k d 0 else nth k d 0))) * exp_corr xi xj theta gamma n.
Proof.
  unfold exp_corr_dot. cbv zeta. rewrite exp_corr_eq, !nsum_rsum. unfold vget. cbn.
  set (S1 := rsum n _). set (S2 := rsum n _). set (T1 := rsum n _). set (T2 := rsum n _).
  assert (S1 = T2) as E1. { unfold S1, T2. apply rsum_ext. intros k Hk. unfold Rleb. destruct (Rle_dec 0 (nth k xi 0 - nth k xj 0)).
    rewrite Rabs_right by lra. auto. rewrite Rabs_left by lra. auto. }
  assert (S2 = T1) as E2. { unfold S2, T1. apply rsum_ext. intros k Hk. unfold Rleb. destruct (Rle_dec 0 (nth k xi 0 - nth k xj 0)).
    rewrite Rabs_right by lra. auto. rewrite Rabs_left by lra. auto. }
  rewrite ?E1, ?E2. ring.
Qed.
Lemma exp_dot_deriv xi xj d theta gamma n t : (forall k, (k < n)%nat -> nth k xi 0 <> nth k xj 0 + t * nth k d 0) ->
  derivable_pt_lim (fun s => exp_corr xi (shift xj d s n) theta gamma n) t (exp_corr_dot xi (shift xj d t n) d theta gamma n).
Proof.
  intros Hne.
  set (f := fun k s => nth k theta 0 * Rpow (Rabs (nth k xi 0 - nth k xj 0 - s * nth k d 0)) (nth k gamma 0)).
  apply (deriv_ext (fun s => exp (- rsum n (fun k => f k s)))).
  { intros s. rewrite exp_corr_eq. f_equal. f_equal. apply rsum_ext. intros k Hk. unfold f. rewrite nth_shift by auto. do 3 f_equal. ring. }
  rewrite exp_dot_eq. eapply deriv_eq. 2:{ apply (deriv_exp_opp (fun s => rsum n (fun k => f k s))). apply (deriv_rsum n f).
    intros k Hk. unfold f. apply (derivable_pt_lim_scal (fun s => Rpow (Rabs (nth k xi 0 - nth k xj 0 - s * nth k d 0)) (nth k gamma 0)) (nth k theta 0)).
    apply (derivable_pt_lim_comp (fun s => Rabs (nth k xi 0 - nth k xj 0 - s * nth k d 0)) (fun z => Rpow z (nth k gamma 0))).
    apply deriv_abs_lin. specialize (Hne k Hk). lra. apply deriv_Rpow. apply Rabs_pos_lt. specialize (Hne k Hk). lra. }
  rewrite exp_corr_eq. f_equal.
  - f_equal. apply rsum_ext. intros k Hk. rewrite nth_shift by auto. do 3 f_equal.
    + f_equal. f_equal. ring.
    + replace (nth k xi 0 - (nth k xj 0 + t * nth k d 0)) with (nth k xi 0 - nth k xj 0 - t * nth k d 0) by ring. auto.
  - f_equal. f_equal. apply rsum_ext. intros k Hk. unfold f. rewrite nth_shift by auto. do 3 f_equal. ring.
Qed.

(** moving the first sample instead *)
Lemma gauss_dotdot_mixed xi xj d1 d2 theta n t :
  derivable_pt_lim (fun s => gauss_corr_dot (shift xi d2 s n) xj d1 theta n) t (- gauss_corr_dotdot (shift xi d2 t n) xj d1 d2 theta n).
Proof.
  set (y := fun s => shift xj d2 s n).
  assert (forall s, gauss_corr_dot (shift xi d2 s n) xj d1 theta n = gauss_corr_dot (shift xi d2 0 n) (shift xj d2 (- s) n) d1 theta n) as E.
  { intros s. rewrite !gauss_dot_eq, !gauss_corr_eq. f_equal. f_equal. apply rsum_ext. intros k Hk. rewrite !nth_shift by auto. ring.
    f_equal. f_equal. apply rsum_ext. intros k Hk. rewrite !nth_shift by auto. ring. }
  assert (gauss_corr_dotdot (shift xi d2 t n) xj d1 d2 theta n = gauss_corr_dotdot (shift xi d2 0 n) (shift xj d2 (- t) n) d1 d2 theta n) as E2.
  { rewrite !gauss_dotdot_eq, !gauss_corr_eq. f_equal. f_equal. f_equal. f_equal. apply rsum_ext. intros k Hk. rewrite !nth_shift by auto. ring.
    apply rsum_ext. intros k Hk. rewrite !nth_shift by auto. ring.
    f_equal. f_equal. apply rsum_ext. intros k Hk. rewrite !nth_shift by auto. ring. }
  apply (deriv_ext (fun s => gauss_corr_dot (shift xi d2 0 n) (shift xj d2 (- s) n) d1 theta n)). intros; symmetry; apply E.
  rewrite E2. eapply deriv_eq. 2:{ apply (derivable_pt_lim_comp (fun s => - s) (fun s => gauss_corr_dot (shift xi d2 0 n) (shift xj d2 s n) d1 theta n)).
    apply (derivable_pt_lim_opp (fun s => s)). apply derivable_pt_lim_id. apply gauss_dotdot_deriv. }
  ring.
Qed.
