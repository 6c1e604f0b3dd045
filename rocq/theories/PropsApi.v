(** C63-C65, C78-C81: the C++ API. *)
From Coq Require Import Ascii String ZArith Bool Arith Permutation Reals Lra List Lia.
From Verif Require Import Base StM Num RealNum NumFloat VecModel MatModel MatLemmas MatSpec MatProofs RSpec MatReal BoundsModel DataProofs DesignModel HistModel HistSpec HistProofs KrigModel OptModel OptProofs OptSpec OptReal OptRun OptRunReal OptStart OptTop.
From Verif Require Import StrModel StrSpec StrReal ApiModel ApiSpec ApiText ApiProofs ApiDoE ApiStudy ApiReal ApiRun.
Import ListNotations.
Local Open Scope R_scope.

(** ** C63: box constraints *)
Lemma opt_setBox_accepts (b : bnds R) (o : popt R) f : b_set b = true -> length (b_lo b) = length (b_up b) -> (forall i, (i < length (b_lo b))%nat -> nth i (b_lo b) 0 < nth i (b_up b) 0) ->
  p_obj o = Some f -> f_dim f = b_dim b -> (forall c, In c (p_cons o) -> f_dim (k_f c) = b_dim b) -> godim o = b_dim b -> exists o', opt_setBox b o = (o', Ok tt).
Proof.
  intros Hs Hl Hb Hf Hd Hc Hg. unfold opt_setBox. unfold sbind at 1. cbn [smod]. unfold sbind at 1, sthrow_if at 1. rewrite Hl, Nat.eqb_refl. cbn [negb sret].
  unfold sbind at 1, sthrow_if at 1.
  assert (existsb (fun i => vget (b_up b) i <! vget (b_lo b) i)%bool (seq 0 (length (b_up b))) = false) as ->.
  { destruct (existsb _ _) eqn:E; auto. apply existsb_exists in E as (i & Hi & Q). apply in_seq in Hi. cbn in Q. apply Rltb_true in Q. unfold vget in Q. cbn in Q. specialize (Hb i ltac:(lia)). lra. }
  cbn [sret]. unfold sbind at 1. cbn [sget p_obj w_p_up w_p_lo]. rewrite Hf. unfold sbind at 1. cbn [slift]. unfold fobj_setBounds at 1. rewrite Hd, Nat.eqb_refl, andb_false_r, Hs. cbn [negb].
  unfold sbind at 1. cbn [smod]. unfold sbind at 1. cbn [sget]. unfold sbind at 1. cbn [p_nc w_p_obj w_p_up w_p_lo].
  destruct (Nat.ltb 0 (p_nc o)).
  - cbn [p_cons w_p_obj w_p_up w_p_lo]. destruct (cons_setBounds_accepts b (p_cons o) Hs) as (l' & ->). { intros c Hin. right. auto. }
    unfold sbind, in_st, in_gopt, szoom, gopt_setBox, sget, smod, sthrow_if. rewrite Hs. unfold godim in Hg. cbn. rewrite Hg, Nat.eqb_refl. cbn. eauto.
  - unfold sret. unfold sbind, in_st, in_gopt, szoom, gopt_setBox, sget, smod, sthrow_if. rewrite Hs. unfold godim in Hg. cbn. rewrite Hg, Nat.eqb_refl. cbn. eauto.
Qed.
(** what is in force: the bounds of the optimiser, of the best design, of the objective function and of every constraint function *)
Definition box_in_force (lo up : list R) (s : api R) : Prop :=
  p_lo (a_opt s) = lo /\ p_up (a_opt s) = up /\ go_box (s_gopt (p_st (a_opt s))) = mkB (length lo) lo up true /\
  (exists f, p_obj (a_opt s) = Some f /\ f_box f = Some (mkB (length lo) lo up true)) /\
  (forall c, In c (p_cons (a_opt s)) -> f_box (k_f c) = Some (mkB (length lo) lo up true)).
(** the first call to setBoxConstraints, after the dimension and the objective function, with lower bounds below upper bounds *)
Theorem C63_first_box fs d l1 s lb ub :
  calls (api_new fs) ((CDimension d, Ok tt) :: l1) s -> Forall (fun h => plain (fst h)) l1 -> objective_accepted l1 ->
  (d <= length lb)%nat -> (d <= length ub)%nat -> (forall i, (i < d)%nat -> nth i lb 0 < nth i ub 0) ->
  exists s', api_call (CBox lb ub) s = (s', Ok tt) /\ box_in_force (firstn d lb) (firstn d ub) s'.
Proof.
  intros H H1 HO L U B. pose proof (first_phase true fs d l1 s H H1) as (Hd & D & Fr & Ob & Co & Lo & Up). pose proof (calls_inv _ _ _ H) as I. cbn [api_call].
  assert (forall i, (i < d)%nat -> good lb ub i) as G. { intros i Hi. unfold good. cbn. unfold vget. cbn. apply Rleb_false. auto. }
  destruct (api_setBox lb ub s) as [s' r] eqn:E. pose proof E as E0. apply (setBox_cases _ _ _ _ _ (i_pairs _ _ I)) in E. rewrite D, Lo, Up in E. cbn [app] in E.
  destruct E as [(X & _)|[(_ & X & _)|[(_ & _ & k & Hk & _ & Bk & _)|(_ & _ & _ & _ & o' & O & Cs)]]]; [congruence|lia|destruct (Bk (G k Hk))|].
  assert (exists f, p_obj (a_opt s) = Some f) as (f & Pf).
  { destruct HO as (f & n & x & HO). assert (objective_accepted ((CDimension d, Ok tt) :: l1)) as HO' by (exists f, n, x; right; exact HO). apply (i_obj _ _ I) in HO'. apply (i_pobj _ _ I) in HO'. destruct (p_obj (a_opt s)); [eauto|congruence]. }
  assert (length (firstn d lb) = d /\ length (firstn d ub) = d) as [L1 U1] by (rewrite !firstn_length_le by lia; auto).
  destruct (opt_setBox_accepts (box_of (firstn d lb) (firstn d ub)) (a_opt s) f) as (o1 & O1); auto.
  { cbn. congruence. } { cbn. intros i Hi. rewrite L1 in Hi. rewrite !nth_firstn_lt by exact Hi. auto. } { cbn. rewrite L1. apply (Ob f Pf). } { cbn. rewrite L1. intros c Hc. apply (Co c Hc). } { cbn. rewrite L1. rewrite <- D. apply (i_god _ _ I). congruence. }
  assert (o' = o1 /\ r = Ok tt) as [-> ->] by (split; congruence). destruct Cs as [[_ ->]|[X _]]; [|congruence]. eexists. split; [reflexivity|].
  assert (bounds_after d lb ub l1 [] (((CDimension d, Ok tt) :: l1) ++ [(CBox lb ub, Ok tt)])) as BA by (split; [reflexivity|split; auto]).
  assert (calls (api_new fs) (((CDimension d, Ok tt) :: l1) ++ [(CBox lb ub, Ok tt)]) (w_a_boxset true (w_a_opt o1 (pushes lb ub d s)))) as CA. { apply calls_app. exists s. split; [exact H|]. apply calls_one. split; [exact E0|reflexivity]. }
  destruct (ordered_state true fs d lb ub l1 [] _ _ CA BA ltac:(reflexivity)) as (_ & _ & _ & _ & Ph & _).
  destruct Ph as (_ & _ & Ob' & Co' & _ & _ & PLo & PUp & GB & PO). unfold box_in_force. split; auto. split; auto. split; auto. split.
  - destruct (p_obj (a_opt (w_a_boxset true (w_a_opt o1 (pushes lb ub d s))))) as [f'|] eqn:F; [|congruence]. exists f'. split; auto. apply (Ob' f' eq_refl).
  - intros c Hc. apply (Co' c Hc). reflexivity.
Qed.
(** every call appends the pairs that pass its check to the stored bounds; an accepted call found nothing stored *)
Theorem C63_appends {T} {NT : Num T} fs l (s : api T) lb ub s' r :
  calls (api_new fs) l s -> api_call (CBox lb ub) s = (s', r) ->
  exists k, (k <= a_dim s)%nat /\ a_lo s' = a_lo s ++ firstn k lb /\ a_up s' = a_up s ++ firstn k ub /\ (forall i, (i < k)%nat -> nleb (vget ub i) (vget lb i) = false) /\
    (r = Ok tt -> k = a_dim s /\ a_lo s = [] /\ a_up s = []).
Proof.
  intros H E. pose proof (calls_inv _ _ _ H) as I. cbn [api_call] in E. apply (setBox_cases _ _ _ _ _ (i_pairs _ _ I)) in E.
  destruct E as [(_ & -> & ->)|[(_ & _ & -> & ->)|[(_ & _ & k & Hk & G & _ & -> & ->)|(D & L & U & G & o' & O & Cs)]]].
  - exists 0%nat. cbn. rewrite !app_nil_r. repeat split; try lia; discriminate.
  - exists 0%nat. cbn. rewrite !app_nil_r. repeat split; try lia; discriminate.
  - exists k. split; [lia|]. repeat split; auto; discriminate.
  - exists (a_dim s). assert (a_lo s' = a_lo s ++ firstn (a_dim s) lb /\ a_up s' = a_up s ++ firstn (a_dim s) ub) as [-> ->] by (destruct Cs as [[_ ->]|[_ ->]]; split; reflexivity).
    split; auto. split; auto. split; auto. split; auto. intros ->. split; auto.
    destruct (opt_setBox_frame _ _ _ _ O) as (_ & _ & _ & _ & _ & _ & _ & _ & _ & _ & _ & _ & _ & _ & _ & _ & _ & _ & _ & B & _). destruct (B eq_refl) as (_ & Q & _).
    rewrite (i_god _ _ I D) in Q. cbn in Q. rewrite app_length, firstn_length_le in Q by lia. destruct (i_pairs _ _ I) as [PL _].
    assert (length (a_lo s) = 0%nat) as Z by lia. split. { destruct (a_lo s); [auto|discriminate Z]. } rewrite PL in Z. destruct (a_up s); [auto|discriminate Z].
Qed.
Lemma lo_grows {T} {NT : Num T} fs l (s : api T) c s' r : calls (api_new fs) l s -> api_call c s = (s', r) -> goes_on r = true -> exists x, a_lo s' = a_lo s ++ x.
Proof.
  intros H E G. assert (a_lo s' = a_lo s -> exists x, a_lo s' = a_lo s ++ x) as K. { intros ->. exists []. now rewrite app_nil_r. }
  destruct c as [m|i d|t|d|lb ub|ff|ff m fi|ff e fi|m|m].
  5:{ destruct (C63_appends fs l s lb ub s' r H E) as (k & _ & -> & _). eauto. }
  all: apply K; cbn [api_call] in E.
  - unfold api_setName, sbind, sthrow_if, smod in E; destruct m; cbn in E; injection E as <- <-; auto.
  - unfold api_setCwd, sbind, sthrow_if, smod in E; destruct (_ || _)%bool; cbn in E; injection E as <- <-; auto.
  - unfold api_setStrategy, sbind, sthrow_if, smod, slift in E. destruct (is_empty t). { cbn in E; injection E as <- <-. auto. }
    cbn [sret] in E. destruct (toLower t); [|injection E as <- <-; auto|injection E as <- <-; auto]. destruct (negb _); cbn [sthrow sret] in E; injection E as <- <-; auto.
  - apply setDimension_cases in E. destruct E as (o' & _ & [[_ ->]|[_ ->]]); auto.
  - unfold api_setTrainingFile, sbind, sthrow_if, smod in E; destruct ff; cbn in E; injection E as <- <-; auto.
  - apply setObjective_cases in E. destruct E as [(-> & _)|[(g & _ & _ & _ & _ & _ & ->)|(_ & ->)]]; auto. discriminate.
  - apply addConstraint_cases in E. destruct E as [(-> & _)|(g & p & o' & _ & _ & _ & ->)]; auto.
  - unfold api_setDoE, smod in E; injection E as <- <-; auto.
  - unfold api_setMax, smod in E; injection E as <- <-; auto.
Qed.
(** once a call has stored a pair, no later call can be accepted: neither after an accepted call nor after a rejected one whose
    first pair was fine *)
Theorem C63_blocked {T} {NT : Num T} fs l1 lb ub r l2 (s : api T) :
  calls (api_new fs) (l1 ++ (CBox lb ub, r) :: l2) s -> last_of dim_of l1 0%nat <> 0%nat -> nleb (vget ub 0) (vget lb 0) = false ->
  forall lb' ub', ~ In (CBox lb' ub', Ok tt) l2.
Proof.
  intros H D G lb' ub' Hin. apply calls_app in H. destruct H as (s1 & C1 & H). apply calls_cons in H. cbn [fst snd] in H. destruct H as (s2 & E & GO & C2).
  pose proof (calls_inv _ _ _ C1) as I. rewrite <- (i_adim _ _ I) in D.
  assert (a_lo s2 <> []) as NE.
  { cbn [api_call] in E. pose proof E as E0. apply (setBox_cases _ _ _ _ _ (i_pairs _ _ I)) in E. destruct E as [(X & _)|[(_ & _ & _ & ->)|[(L & _ & k & Hk & G' & Bk & -> & _)|(_ & L & U & _ & o' & _ & Cs)]]]; [congruence|discriminate| |].
    - destruct k as [|k]. { destruct (Bk G). } cbn. intros X. apply app_eq_nil in X. destruct X as [_ X]. destruct lb; [cbn in L; lia|discriminate].
    - assert (a_lo s2 = a_lo s1 ++ firstn (a_dim s1) lb) as -> by (destruct Cs as [[_ ->]|[_ ->]]; reflexivity). intros X. apply app_eq_nil in X. destruct X as [_ X]. destruct lb; [cbn in L; lia|]. destruct (a_dim s1); [lia|discriminate]. }
  assert (calls (api_new fs) (l1 ++ [(CBox lb ub, r)]) s2) as C. { apply calls_app. exists s1. split; auto. apply calls_one. auto. }
  clear - C NE C2 Hin. revert C NE C2 Hin. generalize (l1 ++ [(CBox lb ub, r)]) as l. revert s2. induction l2 as [|[c r'] l2 IH]; intros s2 l C NE C2 Hin; [destruct Hin|].
  apply calls_cons in C2. cbn [fst snd] in C2. destruct C2 as (s3 & E & GO & C2).
  destruct Hin as [Hin|Hin].
  - injection Hin as -> ->. destruct (C63_appends fs l s2 lb' ub' s3 (Ok tt) C E) as (k & _ & _ & _ & _ & X). destruct (X eq_refl) as (_ & X1 & _). congruence.
  - destruct (lo_grows fs l s2 c s3 r' C E GO) as (x & Ex). apply (IH s3 (l ++ [(c, r')])); auto. { apply calls_app. exists s2. split; auto. apply calls_one. auto. }
    rewrite Ex. intros X. apply app_eq_nil in X. tauto.
Qed.
Definition ex_fun : ufun F := fun x => Ok (vget x 0).
Ltac run_calls := repeat first [apply calls_nil | apply calls_cons; eexists; cbn [fst snd]; split; [vm_compute; reflexivity|split; [reflexivity|]]].
(** so a rejected call has an effect: the same call with correct bounds is rejected as well *)
Theorem C63_retry_refuted : exists s, calls (api_new (T := F) [])
  [(CDimension 2, Ok tt); (CObjective (Some ex_fun) (lit "f") (lit "f.csv"), Ok tt);
   (CBox [FofZ 0; FofZ 5] [FofZ 1; FofZ 3], Throw InvalidArgument); (CBox [FofZ 0; FofZ 0] [FofZ 1; FofZ 1], Throw InvalidArgument)] s.
Proof. eexists. run_calls. Qed.
Example C63_first_box_example : exists s, calls (api_new (T := F) []) [(CDimension 2, Ok tt); (CObjective (Some ex_fun) (lit "f") (lit "f.csv"), Ok tt); (CBox [FofZ 0; FofZ 0] [FofZ 1; FofZ 1], Ok tt);
   (CBox [FofZ 0; FofZ 0] [FofZ 1; FofZ 1], Throw InvalidArgument)] s /\ length (a_lo s) = 4%nat.
Proof. eexists. split. run_calls. reflexivity. Qed.

(** ** C64: the name of the training data file *)
Theorem C64_ignored {T} {NT : Num T} f g (s : api T) : f <> [] -> g <> [] -> api_call (CTrainingFile f) s = api_call (CTrainingFile g) s.
Proof. intros Hf Hg. destruct f; [congruence|]. destruct g; [congruence|]. reflexivity. Qed.
Theorem C64_stored {T} {NT : Num T} fs l (s : api T) f : calls (api_new fs) l s -> f <> [] ->
  exists s', api_call (CTrainingFile f) s = (s', Ok tt) /\ a_file s' = last_of name_of l (lit "OptimizationStudy").
Proof.
  intros H Hf. destruct f as [|x f]; [congruence|]. pose proof (calls_inv _ _ _ H) as I. destruct (i_name _ _ I) as [Q _]. eexists. split; [reflexivity|]. exact Q.
Qed.
Theorem C64_expected_refuted : exists s s', calls (api_new (T := F) []) [] s /\ api_call (CTrainingFile (lit "data.csv")) s = (s', Ok tt) /\ a_file s' <> lit "data.csv".
Proof. eexists _, _. split; [constructor|]. split; [reflexivity|]. vm_compute. discriminate. Qed.

Lemma tab_good (f : ufun R) xs m n d : tabulates f xs m -> length xs = n -> n <> 0%nat -> (forall x, In x xs -> length x = d) -> wf m /\ (0 < nrows m)%nat /\ (d < ncols m)%nat.
Proof.
  intros [[W _] F] L Hn Hx. split; auto. assert (nrows m = n) as L2 by (rewrite <- rows_length, <- (Forall2_len _ _ _ F); exact L). assert (0 < nrows m)%nat as Hr by lia. split; [exact Hr|].
  assert (exists y, nth 0 (rows m) [] = nth 0 xs [] ++ [y]) as (y & E). { destruct xs as [|x xs]; [cbn in L; lia|]. remember (rows m) as rs. destruct rs as [|r rs]; inversion F as [|? ? ? ? (y & _ & E) _]. exists y. exact E. }
  apply (f_equal (@length R)) in E. rewrite nth_rows, mrow_length, app_length in E by exact Hr. rewrite (Hx (nth 0 xs [])) in E. { cbn in E. lia. } apply nth_In. lia.
Qed.
Lemma F2inv {A B} (P : A -> B -> Prop) a l b l' : Forall2 P (a :: l) (b :: l') -> P a b /\ Forall2 P l l'.
Proof. intros H. inversion H. auto. Qed.
Lemma nodup_left {A} (a b : list A) : NoDup (a ++ b) -> NoDup a.
Proof. induction a as [|x a IH]; cbn; intros H; [constructor|]. inversion H as [|? ? H1 H2]; subst. constructor; auto. intros X. apply H1. apply in_or_app. auto. Qed.
Lemma writes_names xs cs ws : Forall2 (writes (T := R) xs) cs ws -> map fst ws = map snd cs.
Proof. induction 1 as [|c w cs ws [H _] _ IH]; cbn; congruence. Qed.

Section Doe.
  Context (fs : list (str * mat R)) (d : nat) (lb ub : list R) (l1 l2 l : history R) (s : api R).
  Context (Hc : calls (api_new fs) l s) (Hu : bounds_after d lb ub l1 l2 l).
  Context (f : ufun R) (n file : str) (Hobj : In (CObjective (Some f) n file, Ok tt) l).
  Context (HN : last_of budget_of l 0%nat <> 0%nat).
  Context (isdir W : str -> bool) (u : nat -> nat -> R) (perm : nat -> list nat).
  Context (Hcwd : last_cwd l [] <> []) (Hdir : isdir (last_cwd l []) = true).
  Let lo := firstn d lb.
  Let up := firstn d ub.
  Let cs := constraints_in l.
  Let dfile := doe_file l (lit "OptimizationStudy") [].
  Let ns := last_of samples_of l 0%nat.
  Context (k0 : nat) (r0 : Res unit) (Hdoe : In (CDoE k0, r0) l) (Hns : ns <> 0%nat).
  Context (Hu01 : forall i j, 0 <= u i j < 1) (Hperm : forall j, Permutation (perm j) (seq 0 ns)).

  Lemma doe_succeeds : functions_ok lo up f cs -> (forall x, x = dfile \/ In x (map snd cs) -> W x = true) -> NoDup (dfile :: map snd cs) ->
    exists xs s', api_prepare isdir W u perm s = (s', Ok tt) /\ a_opt s' = a_opt s /\ sampled (str_eqb (last_strategy l (lit "random")) (lit "lhs")) lo up ns xs /\
      (forall x, In x xs -> length x = d) /\
      (exists m, file_get dfile (a_files s') = Some m /\ tabulates f xs m) /\
      (forall c, In c cs -> exists m, file_get (snd c) (a_files s') = Some m /\ tabulates (fst (fst c)) xs m) /\
      (forall x, x <> dfile -> ~ In x (map snd cs) -> file_get x (a_files s') = file_get x fs).
  Proof.
    intros Hf HW ND. destruct (prepare_doe fs d lb ub l1 l2 l s Hc Hu f n file Hobj HN isdir W u perm Hcwd Hdir k0 r0 Hdoe Hns Hu01 Hperm) as (m & s' & r & E & Eo & So & Sm & Cases).
    fold lo up cs dfile ns in So, Sm, Cases. exists (rows m), s'.
    assert (forall i, (i < ns)%nat -> in_box lo up (nth i (rows m) [])) as HB. { intros i Hi. destruct Sm as (L & FB & _). rewrite Forall_forall in FB. apply FB. apply nth_In. congruence. }
    assert (forall x, In x (rows m) -> length x = d) as HL. { intros x Hx. apply (In_nth _ _ []) in Hx. destruct Hx as (i & Hi & <-). destruct So as [S1 S2]. rewrite rows_length in Hi. rewrite nth_rows by exact Hi. rewrite mrow_length. exact S2. }
    destruct Cases as [(k & td & Hk & _ & _ & [(X & _)|(_ & X & _)])|(td & k & ws & T1 & HWd & Ef & Fw & _ & Cs)].
    { destruct (Hf _ (HB k Hk)) as [Y _]. congruence. } { rewrite HW in X by auto. discriminate. }
    destruct Cs as [(-> & -> & _)|(g & p & cf & Hk & [(i & Hi & X & _)|(X & _)])].
    2:{ apply nth_error_In in Hk. destruct (Hf _ (HB i Hi)) as [_ Y]. specialize (Y _ Hk). cbn in Y. congruence. }
    2:{ apply nth_error_In in Hk. rewrite HW in X. discriminate. right. apply in_map_iff. exists (g, p, cf). auto. }
    rewrite firstn_all2 in Fw by (rewrite map_length; lia). pose proof (writes_names _ _ _ Fw) as Nw. rewrite map_map in Nw. cbn [snd] in Nw. fold cs in Nw.
    inversion ND as [|? ? ND1 ND2]; subst. split; auto. split; auto. split; auto. split; auto. rewrite Ef. split; [|split].
    - exists td. split; auto. rewrite get_puts_other by (rewrite Nw; exact ND1). apply get_put.
    - intros c Hin. assert (exists w, In w ws /\ writes (rows m) (fst (fst c), snd c) w) as ([wn wm] & Hw & [A B]).
      { apply (in_map (fun x => (fst (fst x), snd x))) in Hin. revert Hin. clear -Fw. induction Fw as [|a w ? ? H _ IH]; intros Hin; [destruct Hin|]. destruct Hin as [<-|Hin]. { exists w. split; auto. left. reflexivity. } destruct (IH Hin) as (w' & A & B). exists w'. split; auto. right. exact A. }
      cbn in A, B. subst wn. exists wm. split; auto. apply get_puts; auto. rewrite Nw. exact ND2.
    - intros x Hx Hx'. rewrite get_puts_other by (rewrite Nw; exact Hx'). apply get_put_other. exact Hx.
  Qed.
End Doe.

(** the objective function reads the file given with it; with a design of experiments whose samples go elsewhere, after a call to
    setNameOfTrainingDataFile, the run fails although the samples were computed *)
Theorem C64_samples_lost fs d lb ub l s f n file isdir W u perm fuel ini es k0 r0 :
  calls (api_new fs) l s -> usual_order d lb ub l -> In (CObjective (Some f) n file, Ok tt) l -> last_of budget_of l 0%nat <> 0%nat ->
  last_cwd l [] <> [] -> isdir (last_cwd l []) = true ->
  In (CDoE k0, r0) l -> last_of samples_of l 0%nat <> 0%nat -> (forall i j, 0 <= u i j < 1) -> (forall j, Permutation (perm j) (seq 0 (last_of samples_of l 0%nat))) ->
  functions_ok (firstn d lb) (firstn d ub) f (constraints_in l) -> (forall x, W x = true) ->
  NoDup (doe_file l (lit "OptimizationStudy") [] :: map snd (constraints_in l)) ->
  file <> doe_file l (lit "OptimizationStudy") [] -> ~ In file (map snd (constraints_in l)) -> file_get file fs = None ->
  exists s', api_run fuel isdir W u perm ini es s = Some (s', Throw RuntimeError).
Proof.
  intros Hc (l1 & l2 & Hu & _) Hobj HN Hcwd Hdir Hdoe Hns H01 Hperm Hf HW ND Hne Hni Hno.
  destruct (doe_succeeds fs d lb ub l1 l2 l s Hc Hu f n file Hobj HN isdir W u perm Hcwd Hdir k0 r0 Hdoe Hns H01 Hperm Hf) as (xs & s2 & E & Eo & _ & _ & _ & _ & Oth); auto.
  destruct (run_stops fs d lb ub l1 l2 l s Hc Hu f n file Hobj HN fuel isdir W u perm ini es s2 RuntimeError E Eo) as (s' & R & _); eauto.
  unfold api_ini. rewrite Eo. destruct (calls_objective _ _ _ Hc _ _ _ Hobj) as (g & o & _ & Po & _ & _ & Fi & _). rewrite Po. unfold surrogate_check. rewrite Fi, (Oth file Hne Hni), Hno.
  destruct (f_box o); [|reflexivity]. destruct (Nat.eqb (f_dim o) 0); reflexivity.
Qed.

(** ** C65: constraints *)
Theorem C65_in_order {T} {NT : Num T} fs l (s : api T) : calls (api_new fs) l s ->
  map k_id (p_cons (a_opt s)) = seq 0 (length (constraints_in l)) /\
  Forall2 (fun c x => f_fun (k_f c) = fst (fst x) /\ f_name (k_f c) = e_name (snd (fst x)) /\ k_gt c = e_gt (snd (fst x)) /\ k_value c = e_value (snd (fst x)) /\ f_file (k_f c) = snd x) (p_cons (a_opt s)) (constraints_in l).
Proof.
  intros H. destruct (con_forall l s (calls_inv _ _ _ H)) as [A B]. split; auto.
  clear B. induction A as [|c x cl xl (A1 & A2 & A3 & A4 & A5) _ IH]; constructor; auto.
Qed.
(** a constraint added before the dimension is set: the call reports an error, but the constraint is registered all the same *)
Lemma godim_zero {T} {NT : Num T} fs l (s : api T) : calls (api_new fs) l s -> ~ dimension_accepted l -> godim (a_opt s) = 0%nat.
Proof.
  remember (api_new fs) as s0 eqn:E0. induction 1 as [s|s l s1 c s2 r H IH E G]; subst; intros N. { reflexivity. }
  assert (~ dimension_accepted l) as N1. { intros (d & X). apply N. exists d. apply in_snoc. auto. } specialize (IH eq_refl N1).
  destruct c as [m|i d|t|d|lb ub|ff|ff m fi|ff e fi|m|m]; cbn [api_call] in E.
  - unfold api_setName, sbind, sthrow_if, smod in E; destruct m; cbn in E; injection E as <- <-; auto.
  - unfold api_setCwd, sbind, sthrow_if, smod in E; destruct (_ || _)%bool; cbn in E; injection E as <- <-; auto.
  - unfold api_setStrategy, sbind, sthrow_if, smod, slift in E. destruct (is_empty t). { cbn in E; injection E as <- <-. auto. }
    cbn [sret] in E. destruct (toLower t); [|injection E as <- <-; auto|injection E as <- <-; auto]. destruct (negb _); cbn [sthrow sret] in E; injection E as <- <-; auto.
  - apply setDimension_cases in E. destruct E as (o' & O & [[-> ->]|[X ->]]). { destruct N. exists d. apply in_snoc. auto. }
    destruct (Nat.eq_dec d 0) as [->|Hd]. { destruct (opt_setDimension_zero (a_opt s1)) as (o1 & O1 & _ & _ & _ & _ & _ & _ & _ & St). assert (o' = o1) by congruence. subst. unfold godim in *. cbn. rewrite St. exact IH. }
    destruct (opt_setDimension_ok d (a_opt s1) Hd) as (o1 & O1 & _). congruence.
  - apply (setBox_cases _ _ _ _ _ (i_pairs _ _ (calls_inv _ _ _ H))) in E. destruct E as [(_ & -> & _)|[(_ & _ & -> & _)|[(_ & _ & k & _ & _ & _ & -> & _)|(_ & _ & _ & _ & o' & O & Cs)]]]; auto.
    assert (godim o' = 0%nat) as Z. { destruct (opt_setBox_frame _ _ _ _ O) as (_ & _ & _ & _ & _ & _ & _ & -> & _). exact IH. } destruct Cs as [[_ ->]|[_ ->]]; exact Z.
  - unfold api_setTrainingFile, sbind, sthrow_if, smod in E; destruct ff; cbn in E; injection E as <- <-; auto.
  - apply setObjective_cases in E. destruct E as [(-> & _)|[(g & _ & _ & _ & _ & _ & ->)|(_ & ->)]]; auto. discriminate.
  - apply addConstraint_cases in E. destruct E as [(-> & _)|(g & p & o' & _ & _ & O & ->)]; auto. 
    destruct (opt_addConstraint_ok (mkC (a_nc s1) (e_gt p) (e_value p) (mkF (a_dim s1) (e_name p) fi g None)) (a_opt s1)) as (o1 & r1 & O1 & _ & _ & _ & _ & _ & _ & _ & _ & _ & _ & GD & _). assert (o' = o1) by congruence. subst. cbn. congruence.
  - unfold api_setDoE, smod in E; injection E as <- <-; auto.
  - unfold api_setMax, smod in E; injection E as <- <-; auto.
Qed.
Theorem C65_without_dimension {T} {NT : Num T} fs l (s : api T) f e file p : calls (api_new fs) l s -> ~ dimension_accepted l ->
  file <> [] -> parseExpression e = Ok p ->
  exists s', api_call (CConstraint (Some f) e file) s = (s', Throw InvalidArgument) /\ length (p_cons (a_opt s')) = S (length (p_cons (a_opt s))) /\
    map (fun c => f_name (k_f c)) (p_cons (a_opt s')) = map (fun c => f_name (k_f c)) (p_cons (a_opt s)) ++ [e_name p].
Proof.
  intros H N HF HP. pose proof (godim_zero _ _ _ H N) as Z. cbn [api_call]. destruct (api_addConstraint (Some f) e file s) as [s' r] eqn:E. apply addConstraint_cases in E.
  destruct E as [(_ & _ & X)|(g & p' & o' & Eg & X & O & ->)]. { cbn in X. destruct file; [congruence|]. rewrite HP in X. discriminate. }
  cbn in X. destruct file as [|x file]; [congruence|]. rewrite HP in X. injection X as <- <-.
  destruct (opt_addConstraint_ok (mkC (a_nc s) (e_gt p) (e_value p) (mkF (a_dim s) (e_name p) (x :: file) f None)) (a_opt s)) as (o1 & r1 & O1 & R & A1 & _). assert (o' = o1 /\ r = r1) as [-> ->] by (split; congruence).
  destruct R as [(_ & X & _)|(-> & _)]; [congruence|]. eexists. split; [reflexivity|]. cbn [a_opt w_a_opt]. rewrite A1. rewrite app_length, map_app. cbn. split; [lia|reflexivity].
Qed.

Section Stops.
  Context (fs : list (str * mat R)) (d : nat) (lb ub : list R) (l : history R) (s : api R).
  Context (Hc : calls (api_new fs) l s).
  Context (f : ufun R) (n file : str) (Hobj : In (CObjective (Some f) n file, Ok tt) l) (HN : last_of budget_of l 0%nat <> 0%nat).
  Context (isdir W : str -> bool) (u : nat -> nat -> R) (perm : nat -> list nat) (Hcwd : last_cwd l [] <> []) (Hdir : isdir (last_cwd l []) = true).
  Context (ND : forall k r, ~ In (CDoE k, r) l).

  (** two constraints of the same name are accepted when they are added; the run refuses them after reading all the data *)
  Theorem C65_repeated_name fuel es : usual_order d lb ub l -> data_good d fs file -> (forall c, In c (constraints_in l) -> data_good d fs (snd c)) ->
    ~ NoDup (map (fun c => e_name (snd (fst c))) (constraints_in l)) ->
    exists s', api_run fuel isdir W u perm (Ok tt) es s = Some (s', Throw InvalidArgument) /\ s_evals (p_st (a_opt s')) = s_evals (p_st (a_opt s)) /\ s_hist (p_st (a_opt s')) = s_hist (p_st (a_opt s)).
  Proof.
    intros Hu Hdata Hcdata Hnd. destruct (usual_state fs d lb ub l s Hc Hu) as (Hd & _ & _ & _ & Ph). destruct Hu as (l1 & l2 & Hu & _).
    pose proof (prepare_plain fs d lb ub l1 l2 l s Hc Hu f n file Hobj HN isdir W u perm Hcwd Hdir ND) as E.
    destruct (run_stops fs d lb ub l1 l2 l s Hc Hu f n file Hobj HN fuel isdir W u perm (Ok tt) es s InvalidArgument E eq_refl) as (s' & R & _ & A & B & C); eauto.
    destruct (calls_file _ _ _ Hc) as [_ AFS]. pose proof (calls_inv _ _ _ Hc) as I. destruct (con_forall l s I) as [Fc _].
    destruct (calls_objective _ _ _ Hc _ _ _ Hobj) as (g & o & _ & Po & _ & _ & Fi & _). destruct Ph as (_ & _ & Ob & Co & _). destruct (Ob o Po) as [Od Ox].
    unfold api_ini. rewrite Po. destruct Hdata as (m & Em & _). assert (surrogate_check s o = Ok tt) as ->. { unfold surrogate_check. rewrite Ox, Od, Fi, AFS, Em. destruct (Nat.eqb_spec d 0); [congruence|reflexivity]. } cbn [bind].
    assert (surrogate_checks s (p_cons (a_opt s)) = Ok tt) as ->.
    { assert (forall k, In k (p_cons (a_opt s)) -> surrogate_check s (k_f k) = Ok tt) as Q. { intros k Hin. destruct (Co k Hin) as [K1 K2]. apply In_nth_error in Hin. destruct Hin as [i Hi]. destruct (i_con _ _ I i k Hi) as (kf & kp & kfile & A & A1 & A2 & A3 & A4 & A5 & A6). apply nth_error_In in A. destruct (Hcdata _ A) as (m' & Em' & _). cbn [snd] in Em'. unfold surrogate_check. rewrite (K2 eq_refl), K1, A6, AFS, Em'. destruct (Nat.eqb_spec d 0); [congruence|reflexivity]. }
      revert Q. clear. induction (p_cons (a_opt s)) as [|k t IH]; intros Q; cbn [surrogate_checks]; auto. rewrite Q by (left; reflexivity). cbn [bind]. apply IH. intros k' Hk'. apply Q. right. exact Hk'. }
    cbn [bind]. rewrite repeated_bad; auto. assert (map (fun c0 => f_name (k_f c0)) (p_cons (a_opt s)) = map (fun c0 => e_name (snd (fst c0))) (constraints_in l)) as ->; [|exact Hnd].
    clear -Fc. induction Fc as [|k x kl xl (_ & _ & _ & Q & _) _ IH]; cbn; auto. congruence.
  Qed.
  (** a constraint added after the bounds has none: the run fails, whatever data files there are *)
  Theorem C65_after_bounds fuel ini es : late_constraint d lb ub l ->
    exists s', api_run fuel isdir W u perm ini es s = Some (s', Throw RuntimeError) /\ s_evals (p_st (a_opt s')) = s_evals (p_st (a_opt s)) /\ s_hist (p_st (a_opt s')) = s_hist (p_st (a_opt s)).
  Proof.
    intros (l1 & l2 & Hu & Hl). destruct (ordered_state false fs d lb ub l1 l2 l s Hc Hu ltac:(discriminate)) as (_ & _ & _ & _ & _ & Lt). destruct (Lt Hl) as (c & Hin & Hb).
    pose proof (prepare_plain fs d lb ub l1 l2 l s Hc Hu f n file Hobj HN isdir W u perm Hcwd Hdir ND) as E.
    destruct (run_stops fs d lb ub l1 l2 l s Hc Hu f n file Hobj HN fuel isdir W u perm ini es s RuntimeError E eq_refl) as (s' & R & _ & A & B & C); eauto.
    assert (forall x, surrogate_check s x = Ok tt \/ surrogate_check s x = Throw RuntimeError) as Q. { intros x. unfold surrogate_check. destruct (f_box x); auto. destruct (Nat.eqb _ 0); auto. destruct (file_get _ _); auto. }
    unfold api_ini. destruct (p_obj (a_opt s)) as [o|]; [|reflexivity]. destruct (Q o) as [-> | ->]; [|reflexivity]. cbn [bind].
    assert (surrogate_checks s (p_cons (a_opt s)) = Throw RuntimeError) as ->; [|reflexivity].
    revert Hin. generalize (p_cons (a_opt s)). induction l0 as [|k t IH]; intros Hin; [destruct Hin|]. cbn [surrogate_checks]. destruct Hin as [->|Hin].
    - unfold surrogate_check at 1. rewrite Hb. reflexivity.
    - destruct (Q (k_f k)) as [-> | ->]; [|reflexivity]. cbn [bind]. auto.
  Qed.
End Stops.

(** ** C78: the data files written by the design of experiments *)
Theorem C78_files fs d lb ub l s f n file isdir W u perm k0 r0 :
  calls (api_new fs) l s -> usual_order d lb ub l -> In (CObjective (Some f) n file, Ok tt) l -> last_of budget_of l 0%nat <> 0%nat ->
  last_cwd l [] <> [] -> isdir (last_cwd l []) = true ->
  In (CDoE k0, r0) l -> last_of samples_of l 0%nat <> 0%nat -> (forall i j, 0 <= u i j < 1) -> (forall j, Permutation (perm j) (seq 0 (last_of samples_of l 0%nat))) ->
  let dfile := doe_file l (lit "OptimizationStudy") [] in let cs := constraints_in l in
  functions_ok (firstn d lb) (firstn d ub) f cs -> (forall x, x = dfile \/ In x (map snd cs) -> W x = true) -> NoDup (dfile :: map snd cs) ->
  exists xs s', api_prepare isdir W u perm s = (s', Ok tt) /\
    sampled (str_eqb (last_strategy l (lit "random")) (lit "lhs")) (firstn d lb) (firstn d ub) (last_of samples_of l 0%nat) xs /\
    (exists m, file_get dfile (a_files s') = Some m /\ tabulates f xs m) /\
    (forall c, In c cs -> exists m, file_get (snd c) (a_files s') = Some m /\ tabulates (fst (fst c)) xs m) /\
    (forall x, x <> dfile -> ~ In x (map snd cs) -> file_get x (a_files s') = file_get x fs).
Proof.
  intros Hc (l1 & l2 & Hu & _) Hobj HN Hcwd Hdir Hdoe Hns H01 Hperm dfile cs Hf HW ND.
  destruct (doe_succeeds fs d lb ub l1 l2 l s Hc Hu f n file Hobj HN isdir W u perm Hcwd Hdir k0 r0 Hdoe Hns H01 Hperm Hf HW ND) as (xs & s2 & E & _ & A & _ & B & C & D). exists xs, s2. auto.
Qed.
(** when the objective function throws at a sample, the file holds the samples before it, none is lost and none repeated; when a
    constraint function throws, the objective's samples and those of the constraints before it are complete *)
Theorem C78_interrupted fs d lb ub l s f n file isdir W u perm k0 r0 :
  calls (api_new fs) l s -> usual_order d lb ub l -> In (CObjective (Some f) n file, Ok tt) l -> last_of budget_of l 0%nat <> 0%nat ->
  last_cwd l [] <> [] -> isdir (last_cwd l []) = true ->
  In (CDoE k0, r0) l -> last_of samples_of l 0%nat <> 0%nat -> (forall i j, 0 <= u i j < 1) -> (forall j, Permutation (perm j) (seq 0 (last_of samples_of l 0%nat))) ->
  let dfile := doe_file l (lit "OptimizationStudy") [] in let cs := constraints_in l in let ns := last_of samples_of l 0%nat in
  (forall x, W x = true) -> NoDup (dfile :: map snd cs) -> file_get dfile fs = None ->
  exists xs s' r, api_prepare isdir W u perm s = (s', r) /\ length xs = ns /\ Forall (in_box (firstn d lb) (firstn d ub)) xs /\
    ((exists k, (k < ns)%nat /\ isOk (f (nth k xs [])) = false /\ isOk r = false /\
        match k with 0%nat => file_get dfile (a_files s') = None | _ => exists m, file_get dfile (a_files s') = Some m /\ tabulates f (firstn k xs) m end) \/
     ((exists m, file_get dfile (a_files s') = Some m /\ tabulates f xs m) /\
      ((exists k g p cf i, nth_error cs k = Some (g, p, cf) /\ (i < ns)%nat /\ isOk (g (nth i xs [])) = false /\ isOk r = false /\
          (forall c, In c (firstn k cs) -> exists m, file_get (snd c) (a_files s') = Some m /\ tabulates (fst (fst c)) xs m) /\
          (forall c, In c (skipn k cs) -> file_get (snd c) (a_files s') = file_get (snd c) fs)) \/
       (r = Ok tt /\ (forall c, In c cs -> exists m, file_get (snd c) (a_files s') = Some m /\ tabulates (fst (fst c)) xs m))))).
Proof.
  intros Hc (l1 & l2 & Hu & _) Hobj HN Hcwd Hdir Hdoe Hns H01 Hperm dfile cs ns HW ND Hno.
  destruct (prepare_doe fs d lb ub l1 l2 l s Hc Hu f n file Hobj HN isdir W u perm Hcwd Hdir k0 r0 Hdoe Hns H01 Hperm) as (m & s' & r & E & Eo & So & Sm & Cases).
  fold cs dfile ns in So, Sm, Cases. exists (rows m), s', r. destruct Sm as (S1 & S2 & _). split; auto. split; auto. split; auto.
  destruct Cases as [(k & td & Hk & T & Ef & [(X & ->)|(_ & X & _)])|(td & k & ws & T1 & HWd & Ef & Fw & Lk & Cs)]; [| rewrite HW in X; discriminate |].
  - left. exists k. split; auto. split; auto. split. { destruct (f _) as [|e|]; [discriminate| |reflexivity]. destruct e; reflexivity. }
    rewrite Ef. destruct k; [exact Hno|]. cbn [Nat.eqb]. exists td. split; auto. apply get_put.
  - right. inversion ND as [|? ? ND1 ND2]; subst.
    assert (map fst ws = firstn k (map snd cs)) as Nw. { rewrite (writes_names _ _ _ Fw), <- firstn_map, map_map. reflexivity. }
    assert (forall c, In c (firstn k cs) -> exists m0, file_get (snd c) (a_files s') = Some m0 /\ tabulates (fst (fst c)) (rows m) m0) as Done.
    { intros c Hin. assert (exists w, In w ws /\ writes (rows m) (fst (fst c), snd c) w) as ([wn wm] & Hw & [A B]).
      { apply (in_map (fun x => (fst (fst x), snd x))) in Hin. rewrite <- firstn_map in Hin. revert Hin. clear -Fw. induction Fw as [|a w ? ? H _ IH]; intros Hin; [destruct Hin|]. destruct Hin as [<-|Hin]. { exists w. split; auto. left. reflexivity. } destruct (IH Hin) as (w' & A & B). exists w'. split; auto. right. exact A. }
      cbn in A, B. subst wn. exists wm. split; auto. rewrite Ef. apply get_puts; auto. rewrite Nw. rewrite <- (firstn_skipn k (map snd cs)) in ND2. exact (nodup_left _ _ ND2). }
    split. { exists td. split; auto. rewrite Ef, get_puts_other. apply get_put. rewrite Nw. intros X. apply ND1. rewrite <- (firstn_skipn k). apply in_or_app. auto. }
    destruct Cs as [(-> & -> & _)|(g & p & cf & Hk & [(i & Hi & X & ->)|(X & _)])]; [right| left |rewrite HW in X; discriminate].
    + split; auto. rewrite firstn_all in Done. exact Done.
    + exists k, g, p, cf, i. split; auto. split; auto. split; auto. split. { destruct (g _); [discriminate| |]; reflexivity. } split; auto.
      intros c Hin. rewrite Ef. apply (in_map snd) in Hin. rewrite <- skipn_map in Hin. rewrite get_puts_other.
      * apply get_put_other. intros X'. apply ND1. rewrite <- X', <- (firstn_skipn k). apply in_or_app. auto.
      * rewrite Nw. intros X'. rewrite <- (firstn_skipn k (map snd cs)) in ND2. revert ND2 X' Hin. clear. generalize (skipn k (map snd cs)) as b. induction (firstn k (map snd cs)) as [|a t IH]; intros b ND X Y; [destruct X|].
        cbn in ND. inversion ND as [|? ? N1 N2]; subst. destruct X as [->|X]. { apply N1. apply in_or_app. auto. } apply (IH b); auto.
Qed.

(** ** C79: a whole study *)
Definition completed (d : nat) (lo up : list R) (f : ufun R) (cs : list (ufun R * pexpr R * str)) (N : nat) (start : list (list R)) (os : list outcome) (s : api R) : Prop :=
  let st := p_st (a_opt s) in
  s_evals st = N /\ length os = N /\ s_pts st = map o_x os /\ rows (h_data (s_hist st)) = start ++ map outcome_row os /\
  Forall (fun o => in_box lo up (o_x o) /\ f (o_x o) = Ok (o_f o) /\ constraint_values cs (o_x o) (o_vs o) /\ (o_fe o = true <-> Forall2 constraint_holds cs (o_vs o))) os /\
  exists fe i, reports d (length cs) (mkB (length lo) lo up true) (rows (h_data (s_hist st))) i fe (go_d (s_gopt st)) /\
    if fe : bool then best_feasible d (rows (h_data (s_hist st))) i else (forall j, ~ candidate d (rows (h_data (s_hist st))) j) /\ best_any d (rows (h_data (s_hist st))) i.

(** the training data are in files that exist *)
Theorem C79_study fs d lb ub l s f n file isdir W u perm es fuel :
  calls (api_new fs) l s -> usual_order d lb ub l -> In (CObjective (Some f) n file, Ok tt) l -> last_of budget_of l 0%nat <> 0%nat ->
  last_cwd l [] <> [] -> isdir (last_cwd l []) = true -> (forall k r, ~ In (CDoE k, r) l) ->
  let lo := firstn d lb in let up := firstn d ub in let cs := constraints_in l in let N := last_of budget_of l 0%nat in
  functions_ok lo up f cs -> NoDup (map (fun c => e_name (snd (fst c))) cs) ->
  data_good d fs file -> (forall c, In c cs -> data_good d fs (snd c)) -> surrogates_ok es -> (N <= fuel)%nat ->
  exists s' start os m, api_run fuel isdir W u perm (Ok tt) es s = Some (s', Ok tt) /\ completed d lo up f cs N start os s' /\
    file_get file fs = Some m /\ length start = nrows m /\ Forall2 (fun sample row => firstn (S d) row = firstn (S d) sample) (rows m) start.
Proof.
  intros Hc Hu Hobj HN Hcwd Hdir ND lo up cs N Hf Hnames Hdata Hcdata Hes Hfuel. pose proof Hu as (l1 & l2 & Hb & _).
  pose proof (prepare_plain fs d lb ub l1 l2 l s Hc Hb f n file Hobj HN isdir W u perm Hcwd Hdir ND) as E. destruct (calls_file _ _ _ Hc) as [_ AFS].
  destruct (optimise fs d lb ub l s Hc Hu f n file Hobj Hf HN Hnames s es fuel eq_refl Hes Hfuel) as (st & os & start & R & A1 & A2 & A3 & A4 & A5 & A6 & A7 & A8). { now rewrite AFS. } { now rewrite AFS. }
  destruct Hdata as (m & Em & Wm & Rm & Cm).
  unfold api_run. rewrite E, R. eexists _, start, os, m. split; [reflexivity|]. unfold completed. cbn [a_opt w_a_opt p_st w_p_st]. split; [|split; [exact Em|]]. { repeat (split; [assumption|]). exact A8. }
  assert (file_data s file = m) as Fm by (unfold file_data; rewrite AFS, Em; reflexivity). rewrite Fm in A6. split; auto.
  destruct (calls_objective _ _ _ Hc _ _ _ Hobj) as (g & o & _ & Po & _ & _ & Fi & _). destruct (usual_state _ _ _ _ _ _ Hc Hu) as (_ & _ & _ & _ & _ & (F1 & _) & _).
  assert (c_data (api_cfg s) = m) as Cd by (unfold api_cfg; rewrite Po; cbn; rewrite Fi; exact Fm). assert (c_dim (api_cfg s) = d) as Dd by (unfold api_cfg; cbn; exact F1).
  rewrite Cd in A5. assert (Forall (fun r => length r = ncols m) (rows m)) as FL. { apply Forall_forall. intros x Hx. apply (In_nth _ _ []) in Hx. destruct Hx as (i & Hi & <-). rewrite rows_length in Hi. rewrite nth_rows by exact Hi. apply mrow_length. }
  clear - A5 FL Dd Cm. induction A5 as [|r row rs rws (vs & fl & -> & _) _ IH]; constructor; pose proof (Forall_inv FL) as H1; pose proof (Forall_inv_tail FL) as H2; auto.
  rewrite Dd. unfold history_row. assert (d < length r)%nat as Lr by (rewrite H1; exact Cm). clear - Lr. rewrite (ApiDoE.firstn_S_nth r d 0) by exact Lr. assert (length (firstn d r) = d) as Ld by (apply firstn_length_le; lia).
  rewrite <- Ld at 1. replace (S (length (firstn d r))) with (length (firstn d r) + 1)%nat by lia. rewrite firstn_app_2. reflexivity.
Qed.
(** the training data come from the design of experiments *)
Theorem C79_study_with_doe fs d lb ub l s f n file isdir W u perm es fuel k0 r0 :
  calls (api_new fs) l s -> usual_order d lb ub l -> In (CObjective (Some f) n file, Ok tt) l -> last_of budget_of l 0%nat <> 0%nat ->
  last_cwd l [] <> [] -> isdir (last_cwd l []) = true ->
  In (CDoE k0, r0) l -> last_of samples_of l 0%nat <> 0%nat -> (forall i j, 0 <= u i j < 1) -> (forall j, Permutation (perm j) (seq 0 (last_of samples_of l 0%nat))) ->
  let lo := firstn d lb in let up := firstn d ub in let cs := constraints_in l in let N := last_of budget_of l 0%nat in
  functions_ok lo up f cs -> NoDup (map (fun c => e_name (snd (fst c))) cs) ->
  doe_file l (lit "OptimizationStudy") [] = file -> NoDup (file :: map snd cs) -> (forall x, W x = true) -> surrogates_ok es -> (N <= fuel)%nat ->
  exists s' xs start os, api_run fuel isdir W u perm (Ok tt) es s = Some (s', Ok tt) /\ completed d lo up f cs N start os s' /\
    sampled (str_eqb (last_strategy l (lit "random")) (lit "lhs")) lo up (last_of samples_of l 0%nat) xs /\
    Forall2 (fun x row => exists y vs fl, f x = Ok y /\ row = history_row x y vs 0 fl /\
      Forall2 (fun c v => exists x', In x' xs /\ near (1 / 10 ^ 8) x' x /\ fst (fst c) x' = Ok v) cs vs /\ (fl = true <-> Forall2 constraint_holds cs vs)) xs start.
Proof.
  intros Hc Hu Hobj HN Hcwd Hdir Hdoe Hns H01 Hperm lo up cs N Hf Hnames Hfile ND HW Hes Hfuel. pose proof Hu as (l1 & l2 & Hb & _).
  destruct (doe_succeeds fs d lb ub l1 l2 l s Hc Hb f n file Hobj HN isdir W u perm Hcwd Hdir k0 r0 Hdoe Hns H01 Hperm Hf) as (xs & s2 & E & Eo & Sx & Lx & (m & Em & Tm) & Tc & _); auto. { rewrite Hfile. exact ND. }
  rewrite Hfile in Em. pose proof Sx as (Nx & Bx & _).
  assert (data_good d (a_files s2) file) as Hdata. { exists m. split; auto. apply (tab_good f xs m _ d Tm Nx Hns Lx). }
  assert (forall c, In c cs -> data_good d (a_files s2) (snd c)) as Hcdata. { intros c Hin. destruct (Tc c Hin) as (m' & Em' & Tm'). exists m'. split; auto. apply (tab_good _ xs m' _ d Tm' Nx Hns Lx). }
  destruct (optimise fs d lb ub l s Hc Hu f n file Hobj Hf HN Hnames s2 es fuel Eo Hes Hfuel Hdata Hcdata) as (st & os & start & R & A1 & A2 & A3 & A4 & A5 & A6 & A7 & A8).
  unfold api_run. rewrite E, R. eexists _, xs, start, os. split; [reflexivity|]. unfold completed. cbn [a_opt w_a_opt p_st w_p_st]. split. { repeat (split; [assumption|]). exact A8. } split; auto.
  destruct (calls_objective _ _ _ Hc _ _ _ Hobj) as (g & o & _ & Po & _ & _ & Fi & _). destruct (usual_state _ _ _ _ _ _ Hc Hu) as (_ & _ & _ & _ & _ & (F1 & _) & _ & _ & _ & _ & PLo & PUp & _).
  assert (c_data (api_cfg s2) = m) as Cd by (unfold api_cfg; rewrite Eo, Po; cbn; rewrite Fi; unfold file_data; rewrite Em; reflexivity).
  assert (c_dim (api_cfg s2) = d) as Dd by (unfold api_cfg; rewrite Eo; cbn; exact F1).
  assert (c_lb (api_cfg s2) = lo /\ c_ub (api_cfg s2) = up) as [Bl Bu] by (unfold api_cfg; rewrite Eo; cbn; rewrite PLo, PUp; auto).
  destruct (con_forall l s (calls_inv _ _ _ Hc)) as [Fc _]. fold cs in Fc.
  assert (c_cons (api_cfg s2) = map (ocon_of s2) (p_cons (a_opt s))) as Cc by (unfold api_cfg; rewrite Eo; reflexivity).
  rewrite Cd in A5. destruct Tm as [_ Tm].
  assert (forall x, In x xs -> forall pc qs vs, Forall2 con_is pc qs -> (forall c, In c qs -> In c cs) -> Forall2 (fun oc v => start_value d oc x v) (map (ocon_of s2) pc) vs ->
     Forall2 (fun c v => exists x', In x' xs /\ near (1 / 10 ^ 8) x' x /\ fst (fst c) x' = Ok v) qs vs /\ (Forall2 satisfies (map (ocon_of s2) pc) vs <-> Forall2 constraint_holds qs vs)) as Q.
  { intros x Hx pc qs vs F. revert vs. induction F as [|k q pc qs (K1 & K2 & K3 & K4 & K5) _ IH]; intros vs Hin Hv.
    { destruct vs; [|inversion Hv]. split; [constructor|]. split; constructor. }
    destruct vs as [|v vs']; [inversion Hv|]. cbn [map] in Hv. apply F2inv in Hv. destruct Hv as [V1 V2].
    destruct (IH vs') as [I1 I2]; auto. { intros c Hc'. apply Hin. right. exact Hc'. }
    destruct (Tc q (Hin q (or_introl eq_refl))) as (mq & Emq & _ & Tq).
    unfold start_value in V1. cbn [oc_user ocon_of oc_data] in V1. unfold file_data in V1. rewrite K5, Emq in V1.
    assert (forall r, In r (rows mq) -> exists x' y, In x' xs /\ fst (fst q) x' = Ok y /\ r = x' ++ [y]) as Rr. { clear - Tq. induction Tq as [|x r xs rs (y & Y1 & Y2) _ IH]; intros r' Hr; [destruct Hr|]. destruct Hr as [<-|Hr]. { exists x, y. split; [left; reflexivity|auto]. } destruct (IH r' Hr) as (x' & y' & B1 & B2 & B3). exists x', y'. split; [right; exact B1|auto]. }
    assert (forall x' y, In x' xs -> firstn d (x' ++ [y]) = x' /\ nth d (x' ++ [y]) 0 = y) as Fx. { intros x' y Hx'. rewrite <- (Lx x' Hx'). split. { rewrite firstn_app, firstn_all, Nat.sub_diag. cbn. apply app_nil_r. } rewrite app_nth2, Nat.sub_diag by lia. reflexivity. }
    split.
    - constructor; auto. destruct V1 as [(r & Hr & Hn & ->)|(Hno & _)].
      + destruct (Rr r Hr) as (x' & y & B1 & B2 & ->). destruct (Fx x' y B1) as [G1 G2]. rewrite G1 in Hn. rewrite G2. eauto.
      + exfalso. assert (exists y, In (x ++ [y]) (rows mq)) as (y & Hy). { clear - Tq Hx. induction Tq as [|x0 r xs rs (y & Y1 & Y2) _ IH]; [destruct Hx|]. destruct Hx as [->|Hx]. { exists y. left. auto. } destruct (IH Hx) as (y' & Hy). exists y'. right. exact Hy. }
        apply (Hno _ Hy). destruct (Fx x y Hx) as [-> _]. intros j _. replace (nth j x 0 - nth j x 0) with 0 by ring. rewrite Rabs_R0. apply Rlt_le. apply Rdiv_lt_0_compat; [lra|]. apply pow_lt. lra.
    - assert (satisfies (ocon_of s2 k) v <-> constraint_holds q v) as Sat. { unfold satisfies, constraint_holds. cbn [oc_gt oc_target ocon_of]. rewrite K1, K2. tauto. }
      cbn [map]. split; intros H; inversion H; subst; constructor; tauto. }
  assert (forall x, In x xs -> In x xs /\ length x = d /\ in_box lo up x) as Hx. { intros x Hin. split; auto. split; auto. rewrite Forall_forall in Bx. auto. }
  assert (forall ys rs sts, (forall x, In x ys -> In x xs) -> Forall2 (fun x row => exists y, f x = Ok y /\ row = x ++ [y]) ys rs -> Forall2 (start_row (api_cfg s2)) rs sts ->
    Forall2 (fun x row => exists y vs fl, f x = Ok y /\ row = history_row x y vs 0 fl /\
      Forall2 (fun c v => exists x', In x' xs /\ near (1 / 10 ^ 8) x' x /\ fst (fst c) x' = Ok v) cs vs /\ (fl = true <-> Forall2 constraint_holds cs vs)) ys sts) as Fin; [|apply (Fin xs (rows m)); auto].
  intros ys rs sts Hin F1' F2'. revert sts F2'. induction F1' as [|x r ys rs (y & Y1 & ->) _ IH]; intros sts F2'; (destruct sts as [|row sts]; [try constructor; inversion F2'|]); [inversion F2'|]; apply F2inv in F2'; destruct F2' as [S1 S2]; constructor.
  - destruct S1 as (vs & fl & -> & V & FE). destruct (Hx x (Hin x (or_introl eq_refl))) as (X1 & X2 & X3). rewrite Dd in *.
    assert (firstn d (x ++ [y]) = x /\ nth d (x ++ [y]) 0 = y) as [G1 G2]. { rewrite <- X2. split. { rewrite firstn_app, firstn_all, Nat.sub_diag. cbn. apply app_nil_r. } rewrite app_nth2, Nat.sub_diag by lia. reflexivity. }
    rewrite G1 in V, FE. rewrite G1, G2. exists y, vs, fl. split; auto. split; auto. unfold feasible_values in FE. rewrite Cc in V, FE. destruct (Q x X1 _ _ _ Fc (fun c h => h) V) as [Q1 Q2]. split; auto.
    rewrite FE, Bl, Bu. split.
    + intros [Z|[Z _]]; [|apply Q2; exact Z]. apply Q2. rewrite Z in V |- *. inversion V. constructor.
    + intros Z. right. split; [apply Q2; exact Z|exact X3].
  - apply IH; auto. intros z Hz. apply Hin. right. exact Hz.
Qed.

(** ** C80: the expression of a constraint *)
Theorem C80_accepted s name (g : bool) m e : expression_text s name g m e -> Rabs (Rlit m e) <= @ndblmax R RNum -> parseExpression s = Ok (mkE name g (Rlit m e)).
Proof.
  intros H B. rewrite (parse_accepts _ _ _ _ _ H). cbn [nltb nabs nlit RNum]. destruct (Rltb ndblmax (Rabs (Rlit m e))) eqn:C; [|reflexivity]. apply Rltb_true in C. lra.
Qed.
Theorem C80_only s (p : pexpr R) : parseExpression s = Ok p -> exists m e, expression_text s (e_name p) (e_gt p) m e /\ e_value p = Rlit m e /\ Rabs (Rlit m e) <= @ndblmax R RNum.
Proof.
  intros H. destruct (parse_inv _ _ H) as (m & e & A & B & C). exists m, e. split; auto. split; auto. cbn [nltb nabs nlit RNum] in C. apply Rltb_false in C. lra.
Qed.
(** the other texts are refused, and the call changes nothing *)
Theorem C80_refused fs l (s : api R) f e file : calls (api_new fs) l s -> (forall name g m k, expression_text e name g m k -> Rabs (Rlit m k) > @ndblmax R RNum) ->
  api_call (CConstraint f e file) s = (s, Throw InvalidArgument).
Proof.
  intros H N. cbn [api_call]. destruct (api_addConstraint f e file s) as [s' r] eqn:E. apply addConstraint_cases in E. destruct E as [(-> & -> & _)|(g & p & o' & -> & X & _)]; [reflexivity|].
  exfalso. cbn in X. destruct file; [discriminate|]. destruct (parseExpression e) as [p'| |] eqn:P; try discriminate. destruct (C80_only _ _ P) as (m & k & A & _ & B). specialize (N _ _ _ _ A). lra.
Qed.
(** a constraint with a correct expression is accepted once the dimension is set *)
Theorem C80_added fs l (s : api R) f e file name g m k : calls (api_new fs) l s -> last_of dim_of l 0%nat <> 0%nat -> file <> [] -> expression_text e name g m k -> Rabs (Rlit m k) <= @ndblmax R RNum ->
  exists s', api_call (CConstraint (Some f) e file) s = (s', Ok tt) /\ constraint_of (CConstraint (Some f) e file) = [(f, mkE name g (Rlit m k), file)].
Proof.
  intros H D HF HX HB. pose proof (C80_accepted _ _ _ _ _ HX HB) as P. pose proof (calls_inv _ _ _ H) as I. rewrite <- (i_adim _ _ I) in D.
  assert (constraint_of (CConstraint (Some f) e file) = [(f, mkE name g (Rlit m k), file)]) as C. { cbn. destruct file; [congruence|]. now rewrite P. }
  cbn [api_call]. destruct (api_addConstraint (Some f) e file s) as [s' r] eqn:E. apply addConstraint_cases in E. destruct E as [(_ & _ & X)|(f' & p & o' & _ & _ & O & ->)]; [congruence|].
  destruct (opt_addConstraint_ok (mkC (a_nc s) (e_gt p) (e_value p) (mkF (a_dim s) (e_name p) file f' None)) (a_opt s)) as (o1 & r1 & O1 & R & _). assert (r = r1) by congruence. subst r1.
  destruct R as [(-> & _)|(_ & Z)]. { eexists. split; [reflexivity|exact C]. } rewrite (i_god _ _ I D) in Z. congruence.
Qed.

(** ** C81: a run with incomplete settings is refused and changes nothing *)
Theorem C81_incomplete {T} {NT : Num T} fs l (s : api T) fuel isdir W u perm ini es : calls (api_new fs) l s ->
  last_of budget_of l 0%nat = 0%nat \/ ~ dimension_accepted l \/ ~ box_accepted l \/ ~ objective_accepted l \/ last_cwd l [] = [] \/ isdir (last_cwd l []) = false \/
    ((exists k r, In (CDoE k, r) l) /\ last_of samples_of l 0%nat = 0%nat) ->
  api_run fuel isdir W u perm ini es s = Some (s, Throw InvalidArgument).
Proof.
  intros H X. pose proof (calls_inv _ _ _ H) as I. destruct (calls_cwd _ _ _ H) as [CW _].
  assert (api_prepare isdir W u perm s = (s, Throw InvalidArgument)) as EP; [|unfold api_run; now rewrite EP].
  unfold api_prepare. destruct (api_check s) as [s1 r1] eqn:E.
  assert (s1 = s /\ (r1 = Throw InvalidArgument \/ (r1 = Ok tt /\ last_of budget_of l 0%nat <> 0%nat /\ dimension_accepted l /\ box_accepted l /\ objective_accepted l))) as [-> Q].
  { unfold api_check, sbind, sget, sthrow_if in E. destruct (i_N _ _ I) as [EN _]. rewrite EN in E. destruct (Nat.eqb_spec (last_of budget_of l 0%nat) 0) as [|Z0]; [injection E as <- <-; auto|]. cbn [sret] in E.
    destruct (a_dimset s) eqn:Z1; cbn in E; [|injection E as <- <-; auto]. destruct (a_boxset s) eqn:Z2; cbn in E; [|injection E as <- <-; auto]. destruct (a_objset s) eqn:Z3; cbn in E; [|injection E as <- <-; auto].
    injection E as <- <-. split; auto. right. split; auto. split; auto. split. now apply (i_dset _ _ I). split. now apply (i_box _ _ I). now apply (i_obj _ _ I). }
  destruct Q as [-> |(-> & Q1 & Q2 & Q3 & Q4)]. { exact (bind_throw _ _ _ _ _ E). }
  rewrite (bind_ok _ _ _ _ _ E). unfold sbind at 1. cbn [sget]. rewrite CW.
  destruct X as [X|[X|[X|[X|[X|[X|[(k & r & Y) X]]]]]]]; try contradiction.
  - rewrite X. reflexivity.
  - rewrite X. rewrite orb_true_r. reflexivity.
  - unfold sbind at 1, sthrow_if at 1. destruct (_ || _)%bool; [reflexivity|]. cbn [sret]. assert (a_doe s = true) as -> by (apply (calls_doe _ _ _ H); eauto). cbn [swhen]. rewrite (i_ns _ _ I), X. reflexivity.
Qed.

(** *** the hypotheses can be met: a study in two dimensions with a constraint, once with data files and once with samples *)
Definition demo_f : ufun R := fun x => Ok (nth 0 x 0 + nth 1 x 0).
Definition demo_g : ufun R := fun x => Ok (nth 0 x 0).
Definition demo_g_text : str := lit "g > 0.25".
Lemma demo_decimals : decimal (lit "0") 0 /\ decimal (lit "25") 25.
Proof. split. { exact (dec_snoc [] 0%Z 0 dec_nil ltac:(lia)). } exact (dec_snoc _ 2%Z 5 (dec_snoc [] 0%Z 2 dec_nil ltac:(lia)) ltac:(lia)). Qed.
Lemma demo_expression : expression_text demo_g_text (lit "g") true 25 (-2).
Proof.
  assert (In " "%char spaces) as Sp by (left; reflexivity). destruct demo_decimals as [D0 D25].
  apply (expression_is [] (lit "g") (lit " ") true (lit " 0.25") 25 (-2)).
  - constructor. - discriminate. - constructor; [|constructor]. intros X. repeat (destruct X as [X|X]; [discriminate X|]). destruct X. - constructor; [exact Sp|constructor]. - discriminate.
  - exists " "%char. split; [exact Sp|reflexivity].
  - apply (leading_is (lit " ") false [] (lit "0") 0 (lit ".25") 2 25 [] 0 []).
    + constructor; [exact Sp|constructor]. + constructor. + exact D0. + exact (fr_some (lit "25") 25 D25). + left. discriminate. + constructor. + exact Logic.I. + intros _. split; discriminate. + discriminate.
Qed.
Lemma demo_small : Rabs (Rlit 25 (-2)) <= @ndblmax R RNum.
Proof.
  assert (Rlit 25 (-2) = 1 / 4) as -> by (unfold Rlit; simpl; field). rewrite Rabs_right by lra. apply Rle_trans with 1; [lra|].
  change (1 <= (2 - powerRZ 2 (-52)) * powerRZ 2 1023).
  assert (powerRZ 2 (-52) <= 1) as A. { change (/ 2 ^ 52 <= 1). rewrite <- Rinv_1. apply Rinv_le_contravar; [lra|]. apply pow_R1_Rle. lra. }
  assert (1 <= powerRZ 2 1023) as B. { change (1 <= 2 ^ Pos.to_nat 1023). apply pow_R1_Rle. lra. }
  replace 1 with (1 * 1) by ring. apply Rmult_le_compat; lra.
Qed.
Definition demo_head : history R :=
  [(CDimension 2, Ok tt); (CObjective (Some demo_f) (lit "f") (lit "f.csv"), Ok tt); (CConstraint (Some demo_g) demo_g_text (lit "g.csv"), Ok tt)].
Definition here : str -> bool := fun _ => true.
Definition demo_tail (doe : bool) : history R := [(CMax 5, Ok tt); (CCwd here (lit "/tmp"), Ok tt)] ++ (if doe then [(CStrategy (lit "LHS"), Ok tt); (CDoE 4, Ok tt)] else []).
Definition demo_history (doe : bool) : history R := demo_head ++ (CBox [0; 0] [1; 1], Ok tt) :: demo_tail doe.
Lemma demo_calls fs doe : exists s, calls (api_new fs) (demo_history doe) s.
Proof.
  assert (exists s0, calls (api_new fs) [(CDimension 2, Ok tt); (CObjective (Some demo_f) (lit "f") (lit "f.csv"), Ok tt)] s0) as (s0 & C0).
  { assert (exists sa, api_call (CDimension 2) (api_new fs) = (sa, Ok tt)) as (sa & Ea). { cbn [api_call]. destruct (api_setDimension 2 (api_new fs)) as [sa r] eqn:E. apply setDimension_cases in E. destruct E as (o' & O & _). destruct (opt_setDimension_ok 2 (a_opt (api_new fs)) ltac:(discriminate)) as (o1 & O1 & _). exists sa. congruence. }
    assert (calls (api_new fs) [(CDimension 2, Ok tt)] sa) as Ca by (apply calls_one; split; [exact Ea|reflexivity]).
    assert (exists sb, api_call (CObjective (Some demo_f) (lit "f") (lit "f.csv")) sa = (sb, Ok tt)) as (sb & Eb).
    { cbn [api_call]. destruct (api_setObjective (Some demo_f) (lit "f") (lit "f.csv") sa) as [sb r] eqn:E. apply setObjective_cases in E. destruct E as [(_ & _ & [X|[X|X]])|[(g & _ & _ & _ & _ & -> & _)|(X & _)]]; try discriminate X; [eauto|].
      exfalso. pose proof (calls_inv _ _ _ Ca) as I. apply (i_pobj _ _ I) in X. apply (i_obj _ _ I) in X. destruct X as (x1 & x2 & x3 & [X|[]]). discriminate X. }
    exists sb. change [(CDimension 2, Ok tt); (CObjective (Some demo_f) (lit "f") (lit "f.csv"), Ok tt)] with ([(CDimension 2, Ok tt)] ++ [(CObjective (Some demo_f) (lit "f") (lit "f.csv"), Ok tt)]). apply calls_app. exists sa. split; auto. apply calls_one. split; [exact Eb|reflexivity]. }
  destruct (C80_added fs _ s0 demo_g demo_g_text (lit "g.csv") _ _ _ _ C0 ltac:(discriminate) ltac:(discriminate) demo_expression demo_small) as (s1 & E1 & _).
  assert (calls (api_new fs) demo_head s1) as C1. { change demo_head with ([(CDimension 2, Ok tt); (CObjective (Some demo_f) (lit "f") (lit "f.csv"), Ok tt)] ++ [(CConstraint (Some demo_g) demo_g_text (lit "g.csv"), Ok tt)]). apply calls_app. exists s0. split; auto. apply calls_one. split; auto. }
  destruct (C63_first_box fs 2 _ s1 [0; 0] [1; 1] C1) as (s2 & E2 & _). { repeat constructor. } { exists (Some demo_f), (lit "f"), (lit "f.csv"). left. reflexivity. } { cbn. lia. } { cbn. lia. }
  { intros i Hi. destruct i as [|[|i]]; cbn; [lra|lra|lia]. }
  unfold demo_history. assert (exists s3, calls s2 (demo_tail doe) s3) as (s3 & C3).
  { destruct doe; eexists; unfold demo_tail; cbn [app]; repeat first [apply calls_nil | apply calls_cons; eexists; cbn [fst snd]; split; [reflexivity|split; [reflexivity|]]]. }
  exists s3. apply calls_app. exists s1. split; auto. apply calls_cons. exists s2. auto.
Qed.
Lemma demo_order doe : usual_order 2 [0; 0] [1; 1] (demo_history doe).
Proof. exists (tl demo_head), (demo_tail doe). split; [|destruct doe; reflexivity]. split; [reflexivity|]. split; [repeat constructor|destruct doe; repeat constructor]. Qed.
Lemma demo_constraints doe : constraints_in (demo_history doe) = [(demo_g, mkE (lit "g") true (Rlit 25 (-2)), lit "g.csv")].
Proof. unfold constraints_in, demo_history, demo_head. cbn [app flat_map fst constraint_of]. rewrite (C80_accepted _ _ _ _ _ demo_expression demo_small). destruct doe; reflexivity. Qed.
Definition demo_matrix : mat R := mkMat 1 3 [1 / 2; 1 / 2; 1].
Definition demo_files : list (str * mat R) := [(lit "f.csv", demo_matrix); (lit "g.csv", demo_matrix)].
Definition demo_env : env R := mkEnv (Ok tt) (fun _ _ _ => 0) (fun _ _ _ => 0) (fun _ _ => 0) (fun _ _ => 0) [] [] (fun _ => Ok 0) (Ok tt) None.
Example C79_hypotheses_met : exists s, calls (api_new demo_files) (demo_history false) s /\ usual_order 2 [0; 0] [1; 1] (demo_history false) /\
  In (CObjective (Some demo_f) (lit "f") (lit "f.csv"), Ok tt) (demo_history false) /\ last_of budget_of (demo_history false) 0%nat = 5%nat /\ last_cwd (demo_history false) [] = lit "/tmp" /\
  (forall k r, ~ In (CDoE k, r) (demo_history false)) /\ functions_ok [0; 0] [1; 1] demo_f (constraints_in (demo_history false)) /\
  NoDup (map (fun c => e_name (snd (fst c))) (constraints_in (demo_history false))) /\ data_good 2 demo_files (lit "f.csv") /\ (forall c, In c (constraints_in (demo_history false)) -> data_good 2 demo_files (snd c)).
Proof.
  destruct (demo_calls demo_files false) as (s & C). exists s. split; auto. split; [apply demo_order|]. rewrite demo_constraints.
  split; [right; left; reflexivity|]. split; [reflexivity|]. split; [reflexivity|]. split. { intros k r X. cbn in X. repeat (destruct X as [X|X]; [discriminate X|]). destruct X. }
  split. { intros x _. split; [reflexivity|]. intros c [<-|[]]. reflexivity. } split. { constructor; [intros []|constructor]. }
  assert (wf demo_matrix /\ (0 < nrows demo_matrix)%nat /\ (2 < ncols demo_matrix)%nat) as M by (repeat split; cbn; lia).
  split. { exists demo_matrix. split; auto. } intros c [<-|[]]. exists demo_matrix. split; auto.
Qed.
Example C79_doe_hypotheses_met : exists s, calls (api_new []) (demo_history true) s /\ usual_order 2 [0; 0] [1; 1] (demo_history true) /\
  In (CObjective (Some demo_f) (lit "f") (lit "f.csv"), Ok tt) (demo_history true) /\ last_of budget_of (demo_history true) 0%nat = 5%nat /\ last_cwd (demo_history true) [] = lit "/tmp" /\
  In (CDoE 4, Ok tt) (demo_history true) /\ last_of samples_of (demo_history true) 0%nat = 4%nat /\ last_strategy (demo_history true) (lit "random") = lit "lhs" /\
  functions_ok [0; 0] [1; 1] demo_f (constraints_in (demo_history true)) /\ NoDup (map (fun c => e_name (snd (fst c))) (constraints_in (demo_history true))) /\
  doe_file (demo_history true) (lit "OptimizationStudy") [] = lit "f.csv" /\ NoDup (lit "f.csv" :: map snd (constraints_in (demo_history true))) /\ surrogates_ok (fun _ => demo_env).
Proof.
  destruct (demo_calls [] true) as (s & C). exists s. split; auto. split; [apply demo_order|]. rewrite demo_constraints.
  split; [right; left; reflexivity|]. split; [reflexivity|]. split; [reflexivity|]. split. { cbn. auto 20. } split; [reflexivity|]. split; [reflexivity|].
  split. { intros x _. split; [reflexivity|]. intros c [<-|[]]. reflexivity. } split. { constructor; [intros []|constructor]. } split; [reflexivity|].
  split. { constructor; [intros [X|[]]; discriminate X|constructor; [intros []|constructor]]. } intros k. cbn. split; auto. split; auto. split; intros; lra.
Qed.
(** the run of the second study, from start to end *)
Example C79_run : exists s s' xs start os, calls (api_new []) (demo_history true) s /\ api_run 5 here here (fun _ _ => 0) (fun _ => [0; 1; 2; 3]%nat) (Ok tt) (fun _ => demo_env) s = Some (s', Ok tt) /\
  completed 2 [0; 0] [1; 1] demo_f (constraints_in (demo_history true)) 5 start os s' /\ sampled true [0; 0] [1; 1] 4 xs /\ length start = 4%nat.
Proof.
  destruct C79_doe_hypotheses_met as (s & H1 & H2 & H3 & H4 & H5 & H6 & H7 & H8 & H9 & H10 & H11 & H12 & H13).
  destruct (C79_study_with_doe [] 2 [0; 0] [1; 1] (demo_history true) s demo_f (lit "f") (lit "f.csv") here here (fun _ _ => 0) (fun _ => [0; 1; 2; 3]%nat) (fun _ => demo_env) 5 4 (Ok tt) H1 H2 H3
    ltac:(rewrite H4; discriminate) ltac:(rewrite H5; discriminate) eq_refl H6 ltac:(rewrite H7; discriminate) ltac:(intros; lra) ltac:(rewrite H7; intros; apply Permutation_refl) H9 H10 H11 H12 ltac:(reflexivity) H13 ltac:(rewrite H4; lia)) as (s' & xs & start & os & R & K & S & F).
  rewrite H4 in K. rewrite H7, H8 in S. exists s, s', xs, start, os. split; auto. split; auto. split; auto. split; auto. apply Forall2_len in F. destruct S as [S _]. rewrite <- F. exact S.
Qed.
(** texts that are refused or read in an unexpected way *)
Example C80_examples : parseExpression (T := F) (lit "g>5") = Throw InvalidArgument /\ parseExpression (T := F) (lit "g >= 5") = Throw InvalidArgument /\ parseExpression (T := F) (lit "g > 5 7") = Ok (mkE (lit "g") true (FofZ 5)) /\
  parseExpression (T := F) (lit "g < -1.5e1") = Ok (mkE (lit "g") false (Flit (-15) 0)).
Proof. vm_compute. repeat split. Qed.
Example C65_example : exists s s', calls (api_new (T := F) []) [] s /\ api_call (CConstraint (Some ex_fun) (lit "g > 1") (lit "g.csv")) s = (s', Throw InvalidArgument) /\ length (p_cons (a_opt s')) = 1%nat.
Proof. eexists _, _. split; [constructor|]. split; [vm_compute; reflexivity|reflexivity]. Qed.

Print Assumptions C63_first_box.
Print Assumptions C63_blocked.
Print Assumptions C64_samples_lost.
Print Assumptions C65_repeated_name.
Print Assumptions C65_after_bounds.
Print Assumptions C78_interrupted.
Print Assumptions C79_study.
Print Assumptions C79_study_with_doe.
Print Assumptions C80_only.
Print Assumptions C81_incomplete.
