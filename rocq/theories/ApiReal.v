(** Whole studies through the API over the real numbers. *)
From Coq Require Import Ascii String ZArith Bool Arith Permutation Reals Lra List Lia.
From Verif Require Import Base StM Num RealNum VecModel MatModel MatLemmas MatSpec MatProofs RSpec MatReal BoundsModel DataProofs DesignModel HistModel HistSpec HistProofs KrigModel OptModel OptProofs OptSpec OptReal OptRun OptRunReal OptStart OptTop.
From Verif Require Import StrModel StrSpec StrReal ApiModel ApiSpec ApiText ApiProofs ApiDoE ApiStudy.
Import ListNotations.
Local Open Scope R_scope.

(** *** sampling *)
Definition sampled (lhs : bool) (lo up : list R) (n : nat) (xs : list (list R)) : Prop :=
  length xs = n /\ Forall (in_box lo up) xs /\
  (lhs = true -> forall j k, (j < length lo)%nat -> (k < n)%nat -> exists i, ((i < n)%nat /\ in_stratum (nth j lo 0) (nth j up 0) n k (nth j (nth i xs []) 0)) /\
     forall i', (i' < n)%nat /\ in_stratum (nth j lo 0) (nth j up 0) n k (nth j (nth i' xs []) 0) -> i' = i).
Lemma rows_in_box lo up (m : mat R) : length lo = ncols m -> (forall i j, (i < nrows m)%nat -> (j < ncols m)%nat -> nth j lo 0 <= mget m i j <= nth j up 0) -> Forall (in_box lo up) (rows m).
Proof.
  intros L H. apply Forall_forall. intros x Hx. apply (In_nth _ _ []) in Hx. destruct Hx as (i & Hi & <-). rewrite rows_length in Hi. rewrite nth_rows by exact Hi. split. { rewrite mrow_length. auto. }
  intros j Hj. rewrite mrow_length in Hj. pose proof (vget_mrow m i j Hj) as E. unfold vget in E. cbn [n0 RNum] in E. rewrite E. auto.
Qed.
Lemma doe_samples_ok u perm (s : api R) : (0 < a_ns s)%nat -> (0 < a_dim s)%nat -> length (a_lo s) = a_dim s -> length (a_up s) = a_dim s -> (forall i, (i < a_dim s)%nat -> nth i (a_lo s) 0 < nth i (a_up s) 0) ->
  (forall i j, 0 <= u i j < 1) -> (forall j, Permutation (perm j) (seq 0 (a_ns s))) -> a_type s = lit "random" \/ a_type s = lit "lhs" ->
  exists m, doe_samples u perm s = (w_a_samples m s, Ok tt) /\ samples_ok (a_dim s) (a_ns s) m /\ sampled (str_eqb (a_type s) (lit "lhs")) (a_lo s) (a_up s) (a_ns s) (rows m).
Proof.
  intros Hn Hd Hl Hu Hb Hr Hp Ht. unfold doe_samples. unfold sbind at 1. cbn [sget]. set (m0 := mat_resize (a_samples s) (a_ns s) (a_dim s)).
  assert (nrows m0 = a_ns s /\ ncols m0 = a_dim s) as [N0 C0] by (split; reflexivity). destruct Ht as [Ht|Ht]; rewrite Ht.
  - change (str_eqb (lit "random") (lit "random")) with true. change (str_eqb (lit "random") (lit "lhs")) with false. cbn iota.
    destruct (mat_fillRandomV_ok m0 (a_lo s) (a_up s) u) as [H _]. { intros i j. specialize (Hr i j). lra. }
    destruct H as (m & E & W & N & C & B). { congruence. } { congruence. } { rewrite C0. intros j Hj. specialize (Hb j Hj). lra. }
    exists m. unfold sbind, smod, slift. rewrite E. split; [reflexivity|]. split. { split; congruence. } split. { rewrite rows_length. congruence. } split; [|discriminate].
    apply rows_in_box. congruence. rewrite N, C. exact B.
  - change (str_eqb (lit "lhs") (lit "random")) with false. change (str_eqb (lit "lhs") (lit "lhs")) with true. cbn iota.
    destruct (lhs_strata m0 (a_lo s) (a_up s) u perm) as (m & E & W & N & C & B & S). { lia. } { congruence. } { congruence. } { rewrite C0. exact Hb. } { exact Hr. } { intros j _. rewrite N0. apply Hp. }
    exists m. unfold sbind, smod, slift. rewrite E. split; [reflexivity|]. split. { split; congruence. } split. { rewrite rows_length. congruence. } split.
    + apply rows_in_box. congruence. rewrite N, C. intros i j Hi Hj. specialize (B i j Hi Hj). lra.
    + intros _ j k Hj Hk. rewrite N0, C0 in S. destruct (S j k ltac:(lia) Hk) as (i & (Hi & Q) & U). assert (forall i', (i' < a_ns s)%nat -> nth j (nth i' (rows m) []) 0 = mget m i' j) as G.
      { intros i' Hi'. rewrite nth_rows by lia. pose proof (vget_mrow m i' j ltac:(lia)) as X. exact X. }
      exists i. split. { split; auto. rewrite G by exact Hi. exact Q. } intros i' (Hi' & Q'). apply U. split; auto. rewrite G in Q' by exact Hi'. exact Q'.
Qed.
(** *** design of experiments *)
Lemma performDoE_ok W u perm cs f (s : api R) : (0 < a_ns s)%nat -> (0 < a_dim s)%nat -> length (a_lo s) = a_dim s -> length (a_up s) = a_dim s -> (forall i, (i < a_dim s)%nat -> nth i (a_lo s) 0 < nth i (a_up s) 0) ->
  (forall i j, 0 <= u i j < 1) -> (forall j, Permutation (perm j) (seq 0 (a_ns s))) -> a_type s = lit "random" \/ a_type s = lit "lhs" ->
  a_cptrs s = map fst cs -> a_cfiles s = map snd cs -> a_nc s = length cs -> a_ptr s = Some f ->
  exists m s' r, performDoE W u perm s = (s', r) /\ (samples_ok (a_dim s) (a_ns s) m /\ sampled (str_eqb (a_type s) (lit "lhs")) (a_lo s) (a_up s) (a_ns s) (rows m)) /\
    ((* the objective fails at sample k, or its file cannot be written *)
     (exists k td, (k < a_ns s)%nat /\ tabulates f (firstn k (rows m)) td /\ s' = (if Nat.eqb k 0 then w_a_samples m s else w_a_files (file_put (a_file s) td (a_files s)) (w_a_samples m s)) /\
        ((isOk (f (nth k (rows m) [])) = false /\ r = rmap (fun _ => tt) (as_runtime (f (nth k (rows m) [])))) \/ (k = 0%nat /\ W (a_file s) = false /\ r = Throw RuntimeError))) \/
     (exists td k ws, tabulates f (rows m) td /\ W (a_file s) = true /\ s' = w_a_files (puts ws (file_put (a_file s) td (a_files s))) (w_a_samples m s) /\ Forall2 (writes (rows m)) (firstn k cs) ws /\ (k <= length cs)%nat /\
        ((r = Ok tt /\ k = length cs /\ forall p, In p cs -> W (snd p) = true) \/
         (exists g file, nth_error cs k = Some (g, file) /\ ((exists i, (i < a_ns s)%nat /\ isOk (g (nth i (rows m) [])) = false /\ r = rmap (fun _ => tt) (g (nth i (rows m) []))) \/ (W file = false /\ r = Throw RuntimeError)))))).
Proof.
  intros Hn Hd Hl Hu Hb Hr Hp Ht C1 C2 C3 Hf. destruct (doe_samples_ok u perm s Hn Hd Hl Hu Hb Hr Hp Ht) as (m & E & Hs & Hm). exists m. pose proof (conj Hs Hm) as Hm2.
  unfold performDoE. rewrite (bind_ok _ _ _ _ _ E). unfold sbind at 1. cbn [sget]. change (a_ptr (w_a_samples m s)) with (a_ptr s). rewrite Hf. change (a_ns (w_a_samples m s)) with (a_ns s).
  unfold sbind at 1, sthrow_if at 1. destruct (Nat.eqb_spec (a_ns s) 0) as [|_]; [lia|]. cbn [sret]. unfold sbind at 1.
  destruct (objective_rows W f (a_dim s) (a_ns s) (a_ns s) 0 mat_empty (w_a_samples m s) Hs ltac:(lia) (tab_empty f)) as (k & s1 & r & td & E1 & Hk & T1 & Es1 & Cs). { cbn. lia. }
  match goal with |- exists s' r', (let (a, b) := ?X in _) = _ /\ _ => replace X with (s1, r) by (symmetry; exact E1) end. change (a_samples (w_a_samples m s)) with m in *. cbn [Nat.add] in *.
  change (a_file (w_a_samples m s)) with (a_file s) in *. change (a_files (w_a_samples m s)) with (a_files s) in *.
  destruct Cs as [(-> & -> & HW)|[(K & F & ->)|(-> & K & HW & ->)]].
  - destruct Hs as [Hs1 Hs2]. rewrite firstn_all2 in T1 by (rewrite rows_length; lia). destruct (Nat.eqb_spec (a_ns s) 0) as [|_]; [lia|].
    destruct HW as [HW|]; [|lia]. unfold swhen. change (a_nc (w_a_samples m s)) with (a_nc s). rewrite C3. destruct cs as [|p cs].
    + cbn [length Nat.ltb Nat.leb]. exists s1, (Ok tt). split; [reflexivity|]. split; auto. right. exists td, 0%nat, []. cbn. split; auto. split; auto. split; auto. split; [constructor|]. split; auto.
    + destruct (Nat.ltb_spec 0 (length (p :: cs))) as [_|Z]; [|cbn in Z; lia].
      destruct (doe_constraints_ok W (a_dim s) (a_ns s) (p :: cs) s1) as (k & ws & r & E2 & F2 & K2 & R2); try (subst s1; auto; fail). { discriminate. } { subst s1. split; auto. }
      rewrite E2. exists (w_a_files (puts ws (a_files s1)) s1), r. split; auto. split; auto. right. exists td, k, ws. subst s1. cbn [a_files w_a_files a_samples w_a_samples] in *. auto 10.
  - exists s1, (rmap (fun _ => tt) (as_runtime (f (nth k (rows m) [])))). split. { destruct (f (nth k (rows m) [])) as [y|e|]; [discriminate| |reflexivity]. destruct e; reflexivity. } split; auto. left. exists k, td. auto 10.
  - exists s1, (Throw RuntimeError). split; [reflexivity|]. split; auto. left. exists 0%nat, td. auto 10.
Qed.

(** *** a run from a prepared optimiser *)
Lemma ego_ok c es s0 : settings_ok c -> data_ok c -> constraints_ok c -> (forall k, world_ok c (es k)) -> c_objset c = true -> c_N c <> 0%nat ->
  prepared c s0 -> s_iter s0 = 0%nat -> s_evals s0 = 0%nat -> s_pts s0 = [] -> s_trLen s0 = 4 / 5 -> s_succ s0 = 0%nat -> s_fail s0 = 0%nat ->
  forall fuel, (c_N c <= fuel)%nat ->
  exists s' os b, ego fuel c (Ok tt) es s0 = Some (s', Ok tt) /\ length os = c_N c /\
    s_pts s' = map o_x os /\ s_evals s' = c_N c /\
    exists start, Forall2 (start_row c) (rows (c_data c)) start /\ rows (h_data (s_hist s')) = start ++ map outcome_row os /\
      initial_best (c_dim c) start b /\ map o_im os = improvements b (map (fun o => (o_fe o, o_f o)) os) /\ outcomes_ok c es 0 start os /\
      optimum_of c (rows (h_data (s_hist s'))) (s_gopt s') /\ b_lo (go_box (s_gopt s')) = c_lb c /\ b_up (go_box (s_gopt s')) = c_ub c.
Proof.
  intros Hs Hd Hc Hw Ho HN P0 S1 S2 S3 S5 S6 S7 fuel Hf.
  destruct (startRun_ok c s0 Hs Hd P0 Ho HN) as (s1 & E1 & R1 & T1 & T2 & T3 & T4 & T5 & T6 & T7 & T8 & T9 & T10 & T11 & T12).
  assert (tr_inv (4 / 5) [] s1) as Ti. { unfold tr_inv. cbn. split. congruence. split. rewrite T10, S6. reflexivity. rewrite T11, S7. reflexivity. }
  assert (budget (c_N c) (s_iter s1) = c_N c) as Bd by (unfold budget; lia).
  destruct (loop_ok c es Hs Hc Hw (4 / 5) (c_N c) fuel 0 s1 [] Bd Hf R1 Ti) as (s' & os & E' & R' & L1 & L2 & L3 & L4 & L5 & L6 & L7 & L8 & L9 & L10 & L11).
  exists s', os, (s_best s1). split. { unfold ego. rewrite E1. exact E'. } split; auto. split. { rewrite L5, T5, S3. reflexivity. } split. { rewrite L6, T4, S2. reflexivity. }
  exists (rows (h_data (s_hist s1))). split; auto. split; auto. split; auto. split; auto. split; auto. destruct R' as (_ & R1' & R2' & R3' & _). auto.
Qed.

(** *** the constraints in use and the ones registered *)
Definition con_is {T} (c : fcon T) (x : ufun T * pexpr T * str) : Prop :=
  k_gt c = e_gt (snd (fst x)) /\ k_value c = e_value (snd (fst x)) /\ f_fun (k_f c) = fst (fst x) /\ f_name (k_f c) = e_name (snd (fst x)) /\ f_file (k_f c) = snd x.
Lemma Forall2_nth_error {A B} (P : A -> B -> Prop) l1 l2 : length l1 = length l2 -> (forall i a, nth_error l1 i = Some a -> exists b, nth_error l2 i = Some b /\ P a b) -> Forall2 P l1 l2.
Proof.
  revert l2. induction l1 as [|a l1 IH]; intros [|b l2] L H; try discriminate L; constructor.
  - destruct (H 0%nat a eq_refl) as (b' & E & Q). cbn in E. injection E as <-. exact Q.
  - apply IH. { cbn in L. lia. } intros i x E. exact (H (S i) x E).
Qed.
Lemma Forall2_len {A B} (P : A -> B -> Prop) l1 l2 : Forall2 P l1 l2 -> length l1 = length l2.
Proof. induction 1; cbn; auto. Qed.
Lemma con_forall {T} {NT : Num T} l (s : api T) : api_inv l s -> Forall2 con_is (p_cons (a_opt s)) (constraints_in l) /\ map k_id (p_cons (a_opt s)) = seq 0 (length (constraints_in l)).
Proof.
  intros I. split.
  - apply Forall2_nth_error. { apply (i_cons _ _ I). } intros i c E. destruct (i_con _ _ I i c E) as (f & p & file & A & A1 & A2 & A3 & A4 & A5 & A6). exists (f, p, file). split; auto. unfold con_is. cbn. auto.
  - rewrite <- (i_cons _ _ I). apply (nth_ext _ _ 0%nat 0%nat). { now rewrite map_length, seq_length. } rewrite map_length. intros i Hi. rewrite seq_nth by exact Hi.
    destruct (nth_error (p_cons (a_opt s)) i) as [c|] eqn:E. 2:{ apply nth_error_None in E. lia. } rewrite (nth_error_nth (map k_id (p_cons (a_opt s))) i 0%nat (map_nth_error k_id i _ E)). destruct (i_con _ _ I i c E) as (f & p & file & A & A1 & _). lia.
Qed.
Lemma repeated_ok {T} (l : list (fcon T)) : forall seen, NoDup (map (fun c => f_name (k_f c)) l) -> (forall c, In c l -> ~ In (f_name (k_f c)) seen) -> repeated_name seen l = false.
Proof.
  induction l as [|c t IH]; intros seen N H; cbn [repeated_name]; auto. cbn in N. inversion N as [|? ? N1 N2]; subst.
  assert (existsb (str_eqb (f_name (k_f c))) seen = false) as ->. { destruct (existsb _ seen) eqn:E; auto. apply existsb_exists in E. destruct E as (x & Hx & E). apply str_eqb_eq in E. subst x. destruct (H c (or_introl eq_refl) Hx). }
  apply IH; auto. intros c' Hc' X. apply in_snoc in X. destruct X as [X|X]. { exact (H c' (or_intror Hc') X). } apply N1. rewrite <- X. apply in_map_iff. eauto.
Qed.
Lemma repeated_bad {T} (l : list (fcon T)) : forall seen, ~ NoDup (map (fun c => f_name (k_f c)) l) -> repeated_name seen l = true.
Proof.
  induction l as [|c t IH]; intros seen N; cbn [repeated_name map] in *. { destruct N. constructor. }
  destruct (existsb (str_eqb (f_name (k_f c))) seen) eqn:E; [reflexivity|]. cbn [orb].
  assert (forall seen, In (f_name (k_f c)) seen -> In (f_name (k_f c)) (map (fun c => f_name (k_f c)) t) -> repeated_name seen t = true) as D.
  { clear. induction t as [|c' t IH]; intros seen Hs Ht; [destruct Ht|]. cbn [repeated_name]. destruct Ht as [Ht|Ht].
    - assert (existsb (str_eqb (f_name (k_f c'))) seen = true) as ->; [|reflexivity]. apply existsb_exists. exists (f_name (k_f c)). split; auto. apply str_eqb_eq. exact Ht.
    - rewrite IH; auto. apply orb_true_r. apply in_snoc. auto. }
  destruct (in_dec (list_eq_dec ascii_dec) (f_name (k_f c)) (map (fun c => f_name (k_f c)) t)) as [I|I].
  - apply D; auto. apply in_snoc. auto.
  - apply IH. intros M. apply N. constructor; auto.
Qed.

(** *** the study *)
Definition data_good (d : nat) (files : list (str * mat R)) (n : str) : Prop := exists m, file_get n files = Some m /\ wf m /\ (0 < nrows m)%nat /\ (d < ncols m)%nat.
(** the values of the constraints at a design *)
Definition constraint_values (cs : list (ufun R * pexpr R * str)) (x vs : list R) : Prop := Forall2 (fun c v => fst (fst c) x = Ok v) cs vs.
Definition constraint_holds (c : ufun R * pexpr R * str) (v : R) : Prop := if e_gt (snd (fst c)) then v > e_value (snd (fst c)) else v < e_value (snd (fst c)).
(** the functions of the user return a value everywhere in the box *)
Definition functions_ok (lo up : list R) (f : ufun R) (cs : list (ufun R * pexpr R * str)) : Prop :=
  forall x, in_box lo up x -> isOk (f x) = true /\ forall c, In c cs -> isOk (fst (fst c) x) = true.
(** training and storing samples succeed, draws in [0,1) *)
Definition surrogates_ok (es : nat -> env R) : Prop := forall k, e_train (es k) = Ok tt /\ e_add (es k) = Ok tt /\ (forall i j, 0 <= e_u1 (es k) i j < 1) /\ (forall i j, 0 <= e_u2 (es k) i j < 1).
Lemma fobj_eval_ok (o : fobj R) x : length x = f_dim o -> fobj_eval o x = f_fun o x.
Proof. intros H. unfold fobj_eval. rewrite H, Nat.eqb_refl. reflexivity. Qed.
Lemma good_lt (lb ub : list R) i : good lb ub i -> nth i lb 0 < nth i ub 0.
Proof. unfold good, vget. cbn. intros H. apply Rleb_false in H. lra. Qed.
Lemma nth_firstn_lt {A} (l : list A) n i d : (i < n)%nat -> nth i (firstn n l) d = nth i l d.
Proof. revert l i. induction n as [|n IH]; intros [|a l] [|i] H; try lia; cbn; auto. apply IH. lia. Qed.

Section Study.
  Context (fs : list (str * mat R)) (d : nat) (lb ub : list R) (l : history R) (s : api R).
  Context (Hc : calls (api_new fs) l s) (Hu : usual_order d lb ub l).
  Context (f : ufun R) (n file : str) (Hobj : In (CObjective (Some f) n file, Ok tt) l).
  Let lo := firstn d lb.
  Let up := firstn d ub.
  Let cs := constraints_in l.
  Context (Hf : functions_ok lo up f cs) (HN : last_of budget_of l 0%nat <> 0%nat) (Hnames : NoDup (map (fun c => e_name (snd (fst c))) cs)).

  Lemma optimise (s2 : api R) es fuel : a_opt s2 = a_opt s -> surrogates_ok es -> (last_of budget_of l 0%nat <= fuel)%nat ->
    data_good d (a_files s2) file -> (forall c, In c cs -> data_good d (a_files s2) (snd c)) ->
    exists st os start, ego fuel (api_cfg s2) (api_ini s2 (Ok tt)) (fun k => with_objective (p_obj (a_opt s2)) (es k)) (p_st (a_opt s2)) = Some (st, Ok tt) /\
      s_evals st = last_of budget_of l 0%nat /\ length os = last_of budget_of l 0%nat /\ s_pts st = map o_x os /\ rows (h_data (s_hist st)) = start ++ map outcome_row os /\
      Forall2 (start_row (api_cfg s2)) (rows (c_data (api_cfg s2))) start /\ length start = nrows (file_data s2 file) /\
      Forall (fun o => in_box lo up (o_x o) /\ f (o_x o) = Ok (o_f o) /\ constraint_values cs (o_x o) (o_vs o) /\ (o_fe o = true <-> Forall2 constraint_holds cs (o_vs o))) os /\
      exists fe i, reports d (length cs) (mkB (length lo) lo up true) (rows (h_data (s_hist st))) i fe (go_d (s_gopt st)) /\
        if fe : bool then best_feasible d (rows (h_data (s_hist st))) i else (forall j, ~ candidate d (rows (h_data (s_hist st))) j) /\ best_any d (rows (h_data (s_hist st))) i.
  Proof.
    intros Eo Hes Hfuel Hdata Hcdata.
    destruct (usual_state fs d lb ub l s Hc Hu) as (Hd & Llb & Lub & Hg & Ph). fold lo up in Ph.
    pose proof (calls_inv _ _ _ Hc) as I. destruct (con_forall l s I) as [Fc Idc]. fold cs in Fc, Idc.
    destruct (calls_objective _ _ _ Hc _ _ _ Hobj) as (g & o & Eg & Po & Fo & _ & Fi & _). injection Eg as <-.
    destruct Ph as (D1 & (F1 & F2 & F3 & F4 & F5 & F6 & F7 & F8 & F9 & F10 & F11 & F12) & Ob & Co & Lo & Up & PLo & PUp & GB & _).
    destruct (Ob o Po) as [Od Ox]. assert (length lo = d) as Llo by (unfold lo; rewrite firstn_length_le; auto). assert (length up = d) as Lup by (unfold up; rewrite firstn_length_le; auto).
    set (c := api_cfg s2).
    assert (c_dim c = d /\ c_lb c = lo /\ c_ub c = up /\ c_N c = last_of budget_of l 0%nat /\ c_disc c = [] /\ c_boxset c = true /\ c_objset c = true /\ c_how c = (1000 * 100)%nat /\ c_cons c = map (ocon_of s2) (p_cons (a_opt s)) /\ c_data c = file_data s2 file) as (C1 & C2 & C3 & C4 & C5 & C6 & C7 & C8 & C9 & C10).
    { unfold c, api_cfg. rewrite Eo, Po. cbn [c_dim c_lb c_ub c_N c_disc c_boxset c_objset c_how c_cons c_data]. destruct (i_N _ _ I) as [N1 N2]. rewrite Fi, PLo, PUp. cbn [b_lo b_up box_of].
      repeat (split; auto). rewrite N2, N1. reflexivity. rewrite (i_pbox _ _ I). apply (i_box _ _ I). destruct Hu as (l1 & l2 & (-> & _) & _). exists lb, ub. right. apply in_or_app. right. left. reflexivity. }
    assert (length (c_cons c) = length cs) as Lc. { rewrite C9, map_length. apply (i_cons _ _ I). }
    assert (forall k x, In k (p_cons (a_opt s)) -> in_box lo up x -> exists cc, In cc cs /\ con_is k cc /\ fcon_eval k x = as_runtime (fst (fst cc) x)) as Hk.
    { intros k x Hin Hx. destruct (Co k Hin) as [Kd _]. apply In_nth_error in Hin. destruct Hin as [i Hi]. destruct (i_con _ _ I i k Hi) as (kf & kp & kfile & A & A1 & A2 & A3 & A4 & A5 & A6). exists (kf, kp, kfile). split. { eapply nth_error_In; eauto. } split. { unfold con_is. cbn. auto. }
      unfold fcon_eval. rewrite fobj_eval_ok by (rewrite Kd; destruct Hx; lia). cbn. congruence. }
    assert (settings_ok c) as Hs.
    { unfold settings_ok. rewrite C1, C2, C3, C5, C6, C8, Lc. split; [lia|]. split; auto. split; auto. split. { intros i Hi. unfold lo, up. rewrite !nth_firstn_lt by exact Hi. apply good_lt. auto. } split; [constructor|]. split; [intros i dx []|].
      split. { rewrite C9, map_map. cbn [oc_id ocon_of]. exact Idc. } split; [discriminate|reflexivity]. }
    assert (constraints_ok c) as Hco.
    { intros oc x Hin Hx. rewrite C2, C3 in Hx. rewrite C9 in Hin. apply in_map_iff in Hin. destruct Hin as (k & <- & Hin). cbn [oc_fun ocon_of]. destruct (Hk k x Hin Hx) as (cc & Hcc & _ & ->). destruct (Hf x Hx) as [_ Hfx]. specialize (Hfx cc Hcc). destruct (fst (fst cc) x); [reflexivity|discriminate|discriminate]. }
    assert (forall k, world_ok c (with_objective (p_obj (a_opt s2)) (es k))) as Hw.
    { intros k. destruct (Hes k) as (W1 & W2 & W3 & W4). rewrite Eo, Po. repeat (split; auto). cbn [e_eval with_objective]. intros x Hx. rewrite C2, C3 in Hx. rewrite fobj_eval_ok by (rewrite Od; destruct Hx; lia). rewrite Fo. apply (Hf x Hx). }
    assert (data_ok c) as Hda.
    { unfold data_ok. rewrite C10. unfold file_data. destruct Hdata as (m & Em & M1 & M2 & M3). rewrite Em. split; auto. split; auto. split; [lia|]. rewrite C1, C9. intros oc Hin. apply in_map_iff in Hin. destruct Hin as (k & <- & Hin). cbn [oc_user ocon_of oc_data]. unfold file_data.
      apply In_nth_error in Hin. destruct Hin as [i Hi]. destruct (i_con _ _ I i k Hi) as (kf & kp & kfile & A & A1 & A2 & A3 & A4 & A5 & A6). apply nth_error_In in A. destruct (Hcdata _ A) as (m' & Em' & M1' & M2' & M3'). cbn [snd] in Em'. rewrite A6, Em'. auto. }
    assert (prepared c (p_st (a_opt s2))) as Hp.
    { rewrite Eo. unfold prepared, gopt_ready. rewrite C1, C2, C3, Lc, GB. cbn [b_lo b_up b_set box_of]. rewrite (i_pnc _ _ I) in F4. split. { split; [lia|]. split; [exact F3|]. split; [exact F4|]. auto. }
      split; auto. split; auto. split; auto. split; auto. rewrite F7. cbn. unfold Rlit. simpl. lra. }
    assert (api_ini s2 (Ok tt) = Ok tt) as Hini.
    { unfold api_ini. rewrite Eo, Po. destruct Hdata as (m & Em & _). assert (surrogate_check s2 o = Ok tt) as ->. { unfold surrogate_check. rewrite Ox, Od, Fi, Em. destruct (Nat.eqb_spec d 0); [congruence|reflexivity]. } cbn [bind].
      assert (surrogate_checks s2 (p_cons (a_opt s)) = Ok tt) as ->.
      { assert (forall k, In k (p_cons (a_opt s)) -> surrogate_check s2 (k_f k) = Ok tt) as Q. { intros k Hin. destruct (Co k Hin) as [K1 K2]. apply In_nth_error in Hin. destruct Hin as [i Hi]. destruct (i_con _ _ I i k Hi) as (kf & kp & kfile & A & A1 & A2 & A3 & A4 & A5 & A6). apply nth_error_In in A. destruct (Hcdata _ A) as (m' & Em' & _). cbn [snd] in Em'. unfold surrogate_check. rewrite (K2 eq_refl), K1, A6, Em'. destruct (Nat.eqb_spec d 0); [congruence|reflexivity]. }
        revert Q. clear. induction (p_cons (a_opt s)) as [|k t IH]; intros Q; cbn [surrogate_checks]; auto. rewrite Q by (left; reflexivity). cbn [bind]. apply IH. intros k' Hk'. apply Q. right. exact Hk'. }
      cbn [bind]. rewrite repeated_ok; auto. assert (map (fun c0 => f_name (k_f c0)) (p_cons (a_opt s)) = map (fun c0 => e_name (snd (fst c0))) cs) as ->; [|exact Hnames].
      clear -Fc. induction Fc as [|k x kl xl (_ & _ & _ & Q & _) _ IH]; cbn; auto. congruence. }
    rewrite Hini. assert (s_trLen (p_st (a_opt s2)) = 4 / 5) as Htr. { rewrite Eo, F7. cbn. unfold Rlit. simpl. field. }
    destruct (ego_ok c (fun k => with_objective (p_obj (a_opt s2)) (es k)) (p_st (a_opt s2)) Hs Hda Hco Hw C7) with (fuel := fuel) as (st & os & b & E & L1 & L2 & L3 & start & G1 & G2 & G3 & G4 & G5 & G6 & G7 & G8); rewrite ?Eo; auto; try congruence.
    exists st, os, start. split. { rewrite <- Eo. exact E. } split; [congruence|]. split; [congruence|]. split; auto. split; auto. split; auto. split. { rewrite <- (Forall2_len _ _ _ G1), rows_length, C10. reflexivity. } split.
    2:{ destruct G6 as (fe & i & Q1 & Q2). exists fe, i. unfold reports in *. cbn [b_lo b_up]. rewrite C1, Lc, G7, G8, C2, C3 in Q1. rewrite C1 in Q2. auto. }
    clear -G5 C2 C3 C5 C9 Eo Po Fo Od Hk Fc Llo Co. revert G5. generalize 0%nat as k0. generalize start as before. induction os as [|oo os IH]; intros before k0 G; constructor.
    - destruct G as [(Ad & Ev & Va & Fe & _) _]. destruct Ad as [Bx _]. rewrite C2, C3 in Bx. split; auto. cbn [e_eval with_objective] in Ev. rewrite Eo, Po in Ev. rewrite fobj_eval_ok in Ev by (rewrite Od; destruct Bx; lia). split; [congruence|].
      unfold values_at in Va. rewrite C9, map_map in Va. cbn [oc_fun ocon_of] in Va. unfold feasible_values in Fe. rewrite C9 in Fe.
      assert (Forall2 con_is (p_cons (a_opt s)) cs /\ (forall k, In k (p_cons (a_opt s)) -> f_dim (k_f k) = d)) as [Fc' Cd]. { split; auto. intros k Hin. apply (Co k Hin). }
      assert (length (o_x oo) = d) as Lx by (destruct Bx; lia).
      assert (constraint_values cs (o_x oo) (o_vs oo) /\ (Forall2 satisfies (map (ocon_of s2) (p_cons (a_opt s))) (o_vs oo) <-> Forall2 constraint_holds cs (o_vs oo))) as [Q1 Q2].
      { revert Va Cd. generalize (o_vs oo) as vs. clear -Fc' Lx. unfold constraint_values. induction Fc' as [|k x kl xl Q _ IH]; intros vs Va Cd.
        - destruct vs; [|discriminate]. split; [constructor|]. split; constructor.
        - destruct vs as [|v vs]; [discriminate|]. cbn [map] in Va. injection Va as Va1 Va2. destruct (IH vs Va2) as [I1 I2]. { intros k' Hk'. apply Cd. right. exact Hk'. } destruct Q as (Q1 & Q2 & Q3 & Q4 & Q5).
          assert (fst (fst x) (o_x oo) = Ok v) as Ev. { unfold fcon_eval in Va1. rewrite fobj_eval_ok in Va1 by (rewrite Cd by (left; reflexivity); exact Lx). rewrite Q3 in Va1. destruct (fst (fst x) (o_x oo)) as [y|e|]; cbn in Va1; [congruence|destruct e; discriminate|discriminate]. }
          split. { constructor; auto. } cbn [map]. assert (satisfies (ocon_of s2 k) v <-> constraint_holds x v) as Sat. { unfold satisfies, constraint_holds. cbn [oc_gt oc_target ocon_of]. rewrite Q1, Q2. tauto. }
          split; intros H; inversion H; subst; constructor; tauto. }
      split; auto. rewrite Fe, Q2. tauto.
    - eapply IH. destruct G as [_ G]. exact G.
  Qed.
End Study.
