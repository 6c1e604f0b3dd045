(** Runs of the API: preparation, design of experiments, runs that stop before the first evaluation. *)
From Coq Require Import Ascii String ZArith Bool Arith Permutation Reals Lra List Lia.
From Verif Require Import Base StM Num RealNum VecModel MatModel MatLemmas MatSpec MatProofs RSpec MatReal BoundsModel DataProofs DesignModel HistModel HistSpec HistProofs KrigModel OptModel OptProofs OptSpec OptReal OptRun OptRunReal OptStart OptTop.
From Verif Require Import StrModel StrSpec StrReal ApiModel ApiSpec ApiText ApiProofs ApiDoE ApiStudy ApiReal.
Import ListNotations.
Local Open Scope R_scope.

Lemma startRun_stops c e s : settings_ok c -> c_objset c = true -> c_N c <> 0%nat ->
  exists s', startRun c (Throw e) s = (s', Throw e) /\ s_evals s' = s_evals s /\ s_pts s' = s_pts s /\ s_hist s' = s_hist s.
Proof.
  intros Hs Hobj HN. pose proof Hs as (Hd & Hl & Hu & Hb & Dn & Dd & Ids & How & Box).
  unfold startRun. rewrite Hobj, Box. cbn [negb sthrow_if]. do 2 rewrite (sbind_ok _ _ _ s tt) by reflexivity.
  assert (settingsOk c s = (s, Ok tt)) as E1.
  { unfold settingsOk. destruct (Nat.eqb_spec (c_N c) 0) as [|?]; [lia|]. cbn [sthrow_if]. rewrite (sbind_ok _ _ _ s tt) by reflexivity.
    assert (existsb (fun i => nleb (vget (c_ub c) i) (vget (c_lb c) i)) (seq 0 (c_dim c)) = false) as ->; [|reflexivity].
    destruct (existsb _ _) eqn:E; auto. apply existsb_exists in E as (i & Hi & Q). apply in_seq in Hi. cbn in Q. apply Rleb_true in Q. unfold vget in Q. cbn in Q. specialize (Hb i ltac:(lia)). lra. }
  rewrite (sbind_ok _ _ _ s tt E1). set (s1 := fst (initSettings c s)).
  assert (initSettings c s = (s1, Ok tt) /\ s_evals s1 = s_evals s /\ s_pts s1 = s_pts s /\ s_hist s1 = s_hist s) as (E2 & A & B & C).
  { unfold s1, initSettings. destruct (Nat.eqb_spec (c_dim c) 0) as [|?]; [lia|]. cbn [sthrow_if]. rewrite (sbind_ok _ _ _ s tt) by reflexivity. unfold smod. repeat split. }
  rewrite (sbind_ok _ _ _ s1 tt E2). exists s1. split; auto.
Qed.

Lemma check_ok {T} {NT : Num T} fs l (s : api T) : calls (api_new fs) l s -> last_of budget_of l 0%nat <> 0%nat -> dimension_accepted l -> box_accepted l -> objective_accepted l -> api_check s = (s, Ok tt).
Proof.
  intros H HN HD HB HO. pose proof (calls_inv _ _ _ H) as I. unfold api_check, sbind, sget, sthrow_if.
  destruct (i_N _ _ I) as [-> _]. destruct (Nat.eqb_spec (last_of budget_of l 0%nat) 0); [contradiction|]. cbn [sret].
  rewrite (proj2 (i_dset _ _ I) HD), (proj2 (i_box _ _ I) HB), (proj2 (i_obj _ _ I) HO). reflexivity.
Qed.

Section Study.
  Context (fs : list (str * mat R)) (d : nat) (lb ub : list R) (l1 l2 l : history R) (s : api R).
  Context (Hc : calls (api_new fs) l s) (Hu : bounds_after d lb ub l1 l2 l).
  Context (f : ufun R) (n file : str) (Hobj : In (CObjective (Some f) n file, Ok tt) l).
  Context (HN : last_of budget_of l 0%nat <> 0%nat).
  Let lo := firstn d lb.
  Let up := firstn d ub.
  Let cs := constraints_in l.

  Lemma study_check : api_check s = (s, Ok tt).
  Proof.
    destruct Hu as (-> & _). eapply check_ok; eauto. { exists d. left. reflexivity. } { exists lb, ub. right. apply in_or_app. right. left. reflexivity. } exists (Some f), n, file. exact Hobj.
  Qed.
  Lemma study_cfg (s2 : api R) : a_opt s2 = a_opt s -> settings_ok (api_cfg s2) /\ c_objset (api_cfg s2) = true /\ c_N (api_cfg s2) = last_of budget_of l 0%nat.
  Proof.
    intros Eo. destruct (ordered_state false fs d lb ub l1 l2 l s Hc Hu ltac:(discriminate)) as (Hd & Llb & Lub & Hg & Ph & _). fold lo up in Ph.
    pose proof (calls_inv _ _ _ Hc) as I. destruct (con_forall l s I) as [Fc Idc]. fold cs in Fc, Idc.
    destruct (calls_objective _ _ _ Hc _ _ _ Hobj) as (g & o & Eg & Po & Fo & _ & Fi & _). injection Eg as <-.
    destruct Ph as (D1 & (F1 & F2 & F3 & F4 & F5 & F6 & F7 & F8 & F9 & F10 & F11 & F12) & Ob & Co & Lo & Up & PLo & PUp & GB & _).
    assert (length lo = d) as Llo by (unfold lo; rewrite firstn_length_le; auto). assert (length up = d) as Lup by (unfold up; rewrite firstn_length_le; auto).
    set (c := api_cfg s2).
    assert (c_dim c = d /\ c_lb c = lo /\ c_ub c = up /\ c_N c = last_of budget_of l 0%nat /\ c_disc c = [] /\ c_boxset c = true /\ c_objset c = true /\ c_how c = (1000 * 100)%nat /\ c_cons c = map (ocon_of s2) (p_cons (a_opt s))) as (C1 & C2 & C3 & C4 & C5 & C6 & C7 & C8 & C9).
    { unfold c, api_cfg. rewrite Eo, Po. cbn [c_dim c_lb c_ub c_N c_disc c_boxset c_objset c_how c_cons c_data]. destruct (i_N _ _ I) as [N1 N2]. rewrite PLo, PUp. cbn [b_lo b_up box_of].
      repeat (split; auto). rewrite N2, N1. reflexivity. rewrite (i_pbox _ _ I). apply (i_box _ _ I). destruct Hu as (-> & _). exists lb, ub. right. apply in_or_app. right. left. reflexivity. }
    assert (length (c_cons c) = length cs) as Lc. { rewrite C9, map_length. apply (i_cons _ _ I). }
    split; auto. unfold settings_ok. rewrite C1, C2, C3, C5, C6, C8, Lc. split; [lia|]. split; auto. split; auto. split. { intros i Hi. unfold lo, up. rewrite !nth_firstn_lt by exact Hi. apply good_lt. auto. } split; [constructor|]. split; [intros i dx []|].
    split. { rewrite C9, map_map. cbn [oc_id ocon_of]. exact Idc. } split; [discriminate|reflexivity].
  Qed.
  (** a run stops when the surrogates cannot be initialised; nothing is evaluated and no row is recorded *)
  Lemma run_stops fuel isdir W u perm ini es (s2 : api R) e : api_prepare isdir W u perm s = (s2, Ok tt) -> a_opt s2 = a_opt s -> api_ini s2 ini = Throw e ->
    exists s', api_run fuel isdir W u perm ini es s = Some (s', Throw e) /\ a_files s' = a_files s2 /\ s_evals (p_st (a_opt s')) = s_evals (p_st (a_opt s)) /\ s_pts (p_st (a_opt s')) = s_pts (p_st (a_opt s)) /\ s_hist (p_st (a_opt s')) = s_hist (p_st (a_opt s)).
  Proof.
    intros P Eo Ei. destruct (study_cfg s2 Eo) as (S1 & S2 & S3). unfold api_run. rewrite P, Ei. unfold ego.
    destruct (startRun_stops (api_cfg s2) e (p_st (a_opt s2)) S1 S2) as (st & E & A & B & C). { congruence. }
    rewrite E. eexists. split; [reflexivity|]. cbn [a_files w_a_opt a_opt p_st w_p_st]. rewrite <- Eo. auto.
  Qed.

  (** *** preparation *)
  Context (isdir W : str -> bool) (u : nat -> nat -> R) (perm : nat -> list nat).
  Context (Hcwd : last_cwd l [] <> []) (Hdir : isdir (last_cwd l []) = true).
  Lemma prepare_head : api_prepare isdir W u perm s = swhen (a_doe s) (run sthrow_if (Nat.eqb (a_ns s) 0) InvalidArgument; performDoE W u perm) s.
  Proof.
    unfold api_prepare. rewrite (bind_ok _ _ _ _ _ study_check). unfold sbind at 1. cbn [sget]. destruct (calls_cwd _ _ _ Hc) as [-> _]. rewrite Hdir.
    assert (is_empty (last_cwd l []) = false) as ->. { destruct (last_cwd l []); [congruence|reflexivity]. } reflexivity.
  Qed.
  Lemma prepare_plain : (forall k r, ~ In (CDoE k, r) l) -> api_prepare isdir W u perm s = (s, Ok tt).
  Proof.
    intros ND. rewrite prepare_head. destruct (a_doe s) eqn:E; [|reflexivity]. apply (calls_doe _ _ _ Hc) in E. destruct E as (k & r & X). destruct (ND k r X).
  Qed.
  Lemma prepare_doe k0 r0 : In (CDoE k0, r0) l -> last_of samples_of l 0%nat <> 0%nat -> (forall i j, 0 <= u i j < 1) -> (forall j, Permutation (perm j) (seq 0 (last_of samples_of l 0%nat))) ->
    let dfile := doe_file l (lit "OptimizationStudy") [] in let ns := last_of samples_of l 0%nat in
    exists m s' r, api_prepare isdir W u perm s = (s', r) /\ a_opt s' = a_opt s /\
      samples_ok d ns m /\ sampled (str_eqb (last_strategy l (lit "random")) (lit "lhs")) lo up ns (rows m) /\
      ((exists k td, (k < ns)%nat /\ tabulates f (firstn k (rows m)) td /\ a_files s' = (if Nat.eqb k 0 then fs else file_put dfile td fs) /\
         ((isOk (f (nth k (rows m) [])) = false /\ r = rmap (fun _ => tt) (as_runtime (f (nth k (rows m) [])))) \/ (k = 0%nat /\ W dfile = false /\ r = Throw RuntimeError))) \/
       (exists td k ws, tabulates f (rows m) td /\ W dfile = true /\ a_files s' = puts ws (file_put dfile td fs) /\ Forall2 (writes (rows m)) (firstn k (map (fun x => (fst (fst x), snd x)) cs)) ws /\ (k <= length cs)%nat /\
         ((r = Ok tt /\ k = length cs /\ forall p, In p cs -> W (snd p) = true) \/
          (exists g p cfile, nth_error cs k = Some (g, p, cfile) /\ ((exists i, (i < ns)%nat /\ isOk (g (nth i (rows m) [])) = false /\ r = rmap (fun _ => tt) (g (nth i (rows m) []))) \/ (W cfile = false /\ r = Throw RuntimeError)))))).
  Proof.
    intros Hin Hns Hr Hp dfile ns. rewrite prepare_head. pose proof (calls_inv _ _ _ Hc) as I.
    assert (a_doe s = true) as -> by (apply (calls_doe _ _ _ Hc); eauto). cbn [swhen]. pose proof (i_ns _ _ I) as NS. fold ns in NS.
    unfold sbind at 1, sthrow_if at 1. rewrite NS. destruct (Nat.eqb_spec ns 0) as [|_]; [contradiction|]. cbn [sret].
    destruct (ordered_state false fs d lb ub l1 l2 l s Hc Hu ltac:(discriminate)) as (Hd & Llb & Lub & Hg & Ph & _). fold lo up in Ph.
    destruct Ph as (D1 & _ & _ & _ & Lo & Up & _). cbn [b_lo b_up box_of] in Lo, Up.
    assert (length lo = d) as Llo by (unfold lo; rewrite firstn_length_le; auto). assert (length up = d) as Lup by (unfold up; rewrite firstn_length_le; auto).
    destruct (calls_objective _ _ _ Hc _ _ _ Hobj) as (g & o & Eg & Po & Fo & _ & Fi & Pt). injection Eg as <-.
    destruct (calls_file _ _ _ Hc) as [AF AFS]. destruct (calls_cwd _ _ _ Hc) as [_ AT]. fold dfile in AF.
    set (cs2 := map (fun x => (fst (fst x), snd x)) cs).
    destruct (performDoE_ok W u perm cs2 f s) as (m & s' & r & E & (So & Sm) & Cases).
    { rewrite NS. lia. } { rewrite D1. lia. } { rewrite Lo, D1. exact Llo. } { rewrite Up, D1. exact Lup. } { rewrite Lo, Up, D1. intros i Hi. unfold lo, up. rewrite !nth_firstn_lt by exact Hi. apply good_lt. auto. }
    { exact Hr. } { rewrite NS. exact Hp. } { apply (i_type _ _ I). } { unfold cs2. rewrite map_map. apply (i_ptrs _ _ I). } { unfold cs2. rewrite map_map. apply (i_files _ _ I). } { unfold cs2. rewrite map_length. apply (i_nc _ _ I). } { exact Pt. }
    rewrite D1, NS in So. rewrite Lo, Up, NS, AT in Sm. rewrite NS, AF, AFS in Cases. exists m, s', r. split; auto.
    assert (length cs2 = length cs) as L2 by (unfold cs2; apply map_length).
    destruct Cases as [(k & td & A1 & A2 & -> & A4)|(td & k & ws & A1 & A2 & -> & A4 & A5 & A6)].
    - split. { destruct (Nat.eqb k 0); reflexivity. } split; auto. split; auto. left. exists k, td. split; auto. split; auto. split; auto. destruct (Nat.eqb k 0); cbn; auto.
    - split; [reflexivity|]. split; auto. split; auto. right. exists td, k, ws. split; auto. split; auto. split; [reflexivity|]. split; auto. split; [lia|].
      destruct A6 as [(-> & B1 & B2)|(g & cf & B1 & B2)].
      + left. split; auto. split; [lia|]. intros p Hp'. apply (B2 (fst (fst p), snd p)). unfold cs2. apply in_map_iff. eauto.
      + right. unfold cs2 in B1. rewrite nth_error_map in B1. destruct (nth_error cs k) as [[[g' p'] cf']|] eqn:B; cbn in B1; [|discriminate]. injection B1 as <- <-. exists g', p', cf'. auto.
  Qed.
End Study.
