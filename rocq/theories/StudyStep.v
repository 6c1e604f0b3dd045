(** One iteration of a study: what it does when the training, the simulation or a constraint may fail. *)
From Coq Require Import Reals Lra Lia Psatz List Arith Bool ZArith.
From Verif Require Import Base StM Num RealNum VecModel VecProofs VecProofs2 VecReal MatModel MatLemmas MatSpec MatProofs MatProofs2 BoundsModel DataProofs DesignModel HistModel HistSpec HistProofs KrigModel OptModel OptProofs OptRun OptSpec OptReal OptRunReal RunFileModel RunFileProofs.
Import ListNotations.
Local Open Scope R_scope.

Definition draws_unit (e : env R) : Prop := (forall k j, 0 <= e_u1 e k j < 1) /\ (forall k j, 0 <= e_u2 e k j < 1).
Lemma findDesign_draws c e s : settings_ok c -> draws_unit e -> ready c s ->
  exists x xn, findDesign c e s = (set_cur (ds_set_point x xn (s_cur s)) s, Ok tt) /\ admissible c x.
Proof.
  intros Hs (U1 & U2) HR. set (e' := mkEnv (Ok tt) (e_ei e) (e_acq e) (e_u1 e) (e_u2 e) (e_s1 e) (e_s2 e) (fun _ => Ok 0) (Ok tt) (e_mult e)).
  destruct (findDesign_ok c e' s Hs) as (x & xn & E & A & _); auto. { repeat split; auto; try apply U1; apply U2. } exists x, xn. split; auto.
Qed.
Lemma cons_eval_fails (x : list R) : forall cs k v, map oc_id cs = seq k (length cs) -> length v = (k + length cs)%nat -> isOk (cons_eval cs x v) = false -> exists oc, In oc cs /\ isOk (oc_fun oc x) = false.
Proof.
  intros cs k v Hi Hl H. destruct (forallb (fun oc => isOk (oc_fun oc x)) cs) eqn:E.
  - destruct (cons_eval_ok x cs k v Hi Hl) as (vs & EQ & _). { apply forallb_forall; auto. } rewrite EQ in H. discriminate.
  - assert (exists oc, In oc cs /\ isOk (oc_fun oc x) = false) as Q; auto. clear -E. induction cs as [|oc cs IH]; [discriminate|]. cbn [forallb] in E. apply andb_false_iff in E. destruct E as [E|E].
    exists oc. split; auto. left; auto. destruct (IH E) as (o & A & B). exists o. split; auto. right; auto.
Qed.
Definition failed (c : cfg R) (e : env R) (s : ost R) {A} (r : Res A) : Prop :=
  (Nat.modulo (S (s_iter s)) (c_how c) = 1%nat /\ isOk (e_train e) = false /\ exists x, (r = Throw x /\ e_train e = Throw x) \/ (r = UB /\ e_train e = UB)) \/
  (exists x, admissible c x /\ (isOk (e_eval e x) = false \/ exists oc, In oc (c_cons c) /\ isOk (oc_fun oc x) = false)).
Lemma before_cases c e s s' r : settings_ok c -> draws_unit e -> e_add e = Ok tt -> ready c s -> beforeUpdate c e s = (s', r) ->
  match r with
  | Ok d => exists x f vs fe im sfin, ds_x d = x /\ ds_f d = f /\ ds_con d = vs /\ (run in_hist (hist_update d); run afterUpdate c e; findOptimum c) s' = (sfin, Ok tt) /\ ready c sfin /\ iter_spec c e s sfin x f vs fe im
  | _ => s_iter s' = S (s_iter s) /\ failed c e s r
  end.
Proof.
  intros Hs Hw W2 HR H. pose proof HR as (G1 & G2 & G3 & G4 & Hh & Hn & H1 & H2 & H3 & C1 & C2 & I & T0 & T1 & T2).
  pose proof Hs as (Hd & Hl & Hu & Hb & Dn & Dd & Ids & How & Box).
  unfold beforeUpdate in H. set (s1 := set_iter (S (s_iter s)) s) in *. rewrite (sbind_ok _ _ _ s1 tt) in H by reflexivity. rewrite (sbind_ok _ _ _ s1 (S (s_iter s))) in H by reflexivity.
  destruct (Nat.eqb_spec (c_how c) 0); [lia|].
  destruct (Nat.eqb (S (s_iter s) mod c_how c) 1 && negb (isOk (e_train e)))%bool eqn:ET.
  { apply andb_true_iff in ET. destruct ET as (ET1 & ET2). rewrite ET1 in H. unfold swhen in H. apply Nat.eqb_eq in ET1. apply negb_true_iff in ET2. unfold sbind, slift in H.
    destruct (e_train e) as [[]|x|] eqn:EE; [discriminate| |]; injection H as <- <-; (split; [reflexivity|]); left; rewrite EE; split; auto; split; auto; [exists x|exists RuntimeError]; auto. }
  set (s2 := if Nat.eqb (S (s_iter s) mod c_how c) 1 then set_init true (set_ghost (s_pts s1) (s_trained s1 ++ [S (s_iter s)]) s1) else s1).
  rewrite (sbind_ok _ _ _ s2 tt) in H. 2:{ unfold s2, swhen. destruct (Nat.eqb _ _); [|reflexivity]. cbn [andb] in ET. apply negb_false_iff in ET. destruct (e_train e) as [[]|x|]; try discriminate. reflexivity. }
  assert (s_hist s2 = s_hist s /\ s_gopt s2 = s_gopt s /\ s_cur s2 = s_cur s /\ s_best s2 = s_best s /\ s_init s2 = true /\ s_trLen s2 = s_trLen s /\ s_trMin s2 = s_trMin s /\ s_trMax s2 = s_trMax s /\
    s_iter s2 = S (s_iter s) /\ s_evals s2 = s_evals s /\ s_pts s2 = s_pts s /\ s_succ s2 = s_succ s /\ s_fail s2 = s_fail s /\ s_sigma s2 = s_sigma s) as (A1 & A2 & A3 & A4 & A5 & A6 & A7 & A8 & A9 & A10 & A11 & A12 & A13 & A14).
  { unfold s2. destruct (Nat.eqb _ _); cbn; repeat split; auto. }
  clearbody s2. clear s1 ET.
  assert (ready c s2) as HR2. { unfold ready. rewrite A1, A2, A3, A5, A6, A7, A8. repeat (split; auto). }
  destruct (findDesign_draws c e s2 Hs Hw HR2) as (x & xn & Ef & Ax). rewrite (sbind_ok _ _ _ _ tt Ef) in H.
  set (s3 := set_cur (ds_set_point x xn (s_cur s2)) s2) in *. rewrite (sbind_ok _ _ _ s3 (ds_set_point x xn (s_cur s2))) in H by reflexivity. cbn [ds_x ds_set_point] in H.
  set (s4 := set_ghost (s_pts s3 ++ [x]) (s_trained s3) s3) in *. rewrite (sbind_ok _ _ _ s4 tt) in H by reflexivity.
  destruct (e_eval e x) as [f|y|] eqn:Ee.
  2,3: unfold sbind at 1, slift in H; injection H as <- <-; (split; [exact A9|]); right; exists x; split; [exact Ax|]; left; rewrite Ee; reflexivity.
  rewrite (sbind_ok _ _ _ s4 f) in H by reflexivity.
  set (s5 := set_cur (ds_set_f f (s_cur s4)) s4) in *. rewrite (sbind_ok _ _ _ s5 tt) in H by reflexivity.
  set (s6 := set_evals (S (s_evals s5)) s5) in *. rewrite (sbind_ok _ _ _ s6 tt) in H by reflexivity.
  destruct (forallb (fun oc => isOk (oc_fun oc x)) (c_cons c)) eqn:EC.
  2:{ assert (exists oc, In oc (c_cons c) /\ isOk (oc_fun oc x) = false) as Q.
      { clear -EC. induction (c_cons c) as [|oc cs IH]; [discriminate|]. cbn [forallb] in EC. apply andb_false_iff in EC. destruct EC as [E|E]. exists oc. split; auto. left; auto. destruct (IH E) as (o & A & B). exists o. split; auto. right; auto. }
      assert (exists r', evalConstraints c s6 = (s6, r') /\ isOk r' = false) as (r' & Er & Nr).
      { unfold evalConstraints. destruct (c_cons c) as [|oc0 t] eqn:Ec. { destruct Q as (? & [] & _). } rewrite <- Ec in *. rewrite (sbind_ok _ _ _ s6 (s_cur s6)) by reflexivity. change (ds_x (s_cur s6)) with x.
        assert (isOk (cons_eval (c_cons c) x (ds_con (s_cur s6))) = false) as NE.
        { destruct Q as (oc & Qi & Qf). clear -Qi Qf. generalize (ds_con (s_cur s6)). induction (c_cons c) as [|o cs IH]; intros v. destruct Qi. cbn [cons_eval]. destruct Qi as [->|Qi]. { destruct (oc_fun oc x); [discriminate| |]; reflexivity. }
          destruct (oc_fun o x); cbn [bind]; auto. destruct (vec_set v (oc_id o) a); cbn [bind]; auto. }
        unfold sbind at 1, slift at 1. destruct (cons_eval (c_cons c) x (ds_con (s_cur s6))); [discriminate| |]; eexists; (split; [reflexivity|reflexivity]). }
      rewrite (sbind_fail _ _ _ _ _ Er Nr) in H. injection H as <- <-. destruct r' as [u|y|]; [discriminate| |]; (split; [exact A9|]); right; exists x; (split; [exact Ax|]); right; exact Q. }
  destruct (evalConstraints_ok c s6) as (vs & fe & Ev & V1 & V2 & V3); auto.
  { change (length (ds_con (s_cur s2)) = length (c_cons c)). congruence. } { intros oc Ho. exact (proj1 (forallb_forall _ _) EC oc Ho). } { change (c_cons c = [] -> ds_feas (s_cur s2) = true). rewrite A3. auto. }
  rewrite (sbind_ok _ _ _ _ tt Ev) in H. set (d7 := ds_set_feas fe (ds_set_con vs (s_cur s6))) in *. set (s7 := set_cur d7 s6) in *.
  destruct (improvement (s_best s7) (ds_feas (s_cur s7)) (ds_f (s_cur s7))) as [b im] eqn:Ei.
  set (d8 := ds_set_imp im d7). set (s8 := set_best b (set_cur d8 s7)). rewrite (sbind_ok _ _ _ s8 tt) in H by (unfold smod; rewrite Ei; reflexivity).
  rewrite (sbind_ok _ _ _ s8 d8) in H by reflexivity. rewrite hasNan_R in H. cbn [sthrow_if] in H. rewrite (sbind_ok _ _ _ s8 tt) in H by reflexivity.
  rewrite W2 in H. rewrite (sbind_ok _ _ _ s8 tt) in H by reflexivity. injection H as <- <-.
  assert (hist_ok (s_hist s)) as Hok. { destruct Hh as [Ht Hcn]. split; auto. intros _. unfold hist_width. rewrite H1, H2. auto. }
  assert (ds_x d8 = x /\ ds_f d8 = f /\ ds_con d8 = vs /\ ds_imp d8 = im /\ ds_feas d8 = fe) as (D1 & D2 & D3 & D4 & D5) by (repeat split).
  assert (length x = c_dim c) as Lx. { rewrite <- Hl. apply Ax. }
  destruct (hist_update_ok (s_hist s) d8 Hok) as (m & Eu & Tm & Rm & Cm). { split. congruence. rewrite D3, V2, H2. lia. }
  set (h9 := hset_data m (s_hist s)). set (s9 := set_hist h9 s8).
  exists x, f, vs, fe, im.
  rewrite (sbind_ok _ _ _ s9 tt). 2:{ unfold in_hist, szoom. change (s_hist s8) with (s_hist s2). rewrite A1, Eu. reflexivity. }
  assert (row_of (s_hist s) d8 = history_row x f vs im fe) as Er. { unfold row_of. rewrite D1, D2, D3, D4, D5, H2, <- V2, firstn_all. auto. }
  rewrite Er in Rm. unfold hist_width in Cm. rewrite H1, H2 in Cm.
  assert (nrows m = S (nrows (h_data (s_hist s)))) as Nm. { rewrite <- !rows_length, Rm, app_length. cbn. lia. }
  unfold afterUpdate. rewrite sbind_assoc.
  rewrite (sbind_ok _ _ _ (trUpdate s9) tt) by reflexivity. pose proof (trUpdate_step s9) as Ts. destruct (trUpdate_frame s9) as (l & su & fa & bd & mu & Et).
  assert (0 <= l) as Hl0. { assert (0 <= s_trLen (trUpdate s9)) as Q. { apply trUpdate_len; cbn; congruence. } rewrite Et in Q. exact Q. } rewrite Et in Ts |- *.
  set (s10 := set_sig bd mu (s_sigma s9) (s_coef s9) (set_tr l su fa s9)).
  assert (exists s11, swhen (c_var c) (run adjustSigma e; smod (fun s => set_sig (s_delta s) (s_mult s *! nlit 101 (-2)) (s_sigma s) (s_coef s) s)) s10 = (s11, Ok tt) /\
    (exists k, s_hist s11 = mkH (c_dim c) (length (c_cons c)) m k (h_doe (s_hist s))) /\ s_gopt s11 = s_gopt s10 /\ s_cur s11 = s_cur s10 /\ s_best s11 = s_best s10 /\ s_init s11 = s_init s10 /\ s_trLen s11 = s_trLen s10 /\ s_trMin s11 = s_trMin s10 /\ s_trMax s11 = s_trMax s10 /\
    s_iter s11 = s_iter s10 /\ s_evals s11 = s_evals s10 /\ s_pts s11 = s_pts s10 /\ s_succ s11 = s_succ s10 /\ s_fail s11 = s_fail s10 /\ (if c_var c then 1 <= s_sigma s11 <= 100 else s_sigma s11 = s_sigma s10)) as (s11 & E11 & (k & B1) & B2 & B3 & B4 & B5 & B6 & B7 & B8 & B9 & B10 & B11 & B12 & B13 & B14).
  { destruct (c_var c); cbn [swhen].
    - destruct (crowding_ok h9) as (k & Ek). { cbn. rewrite H1, Cm. lia. } { cbn. rewrite Nm. lia. } eexists. split.
      + unfold adjustSigma. unfold sbind at 1. rewrite (sbind_ok _ _ _ (set_hist (mkH (h_dim h9) (h_cn h9) (h_data h9) k (h_doe h9)) s10) tt). 2:{ unfold in_hist, szoom. change (s_hist s10) with h9. rewrite Ek. reflexivity. }
        cbv beta iota zeta delta [smod]. reflexivity.
      + cbn [s_hist set_sig set_hist]. split; [exists k; cbn; rewrite H1, H2; reflexivity|]. do 12 (split; [reflexivity|]). apply sigma_range.
    - exists s10. split; [reflexivity|]. split; [|repeat split]. exists (h_crowd (s_hist s)). cbn. unfold h9, hset_data. rewrite H1, H2. reflexivity. }
  rewrite (sbind_ok _ _ _ s11 tt E11).
  destruct (gopt_fromHistory_ok (c_dim c) (length (c_cons c)) (s_gopt s) m) as (fb & ib & g' & Eg & Rg & Bg & Dg & Ng & Og); auto.
  { split; auto. } { lia. } { right. intros; exact Logic.I. }
  assert (s_gopt s10 = s_gopt s) as Hg10 by (cbn; exact A2).
  exists (set_gopt g' s11). split; [exact D1|]. split; [exact D2|]. split; [exact D3|]. split.
  { unfold findOptimum. rewrite Box. cbn [negb sthrow_if]. rewrite (sbind_ok _ _ _ s11 tt) by reflexivity. rewrite (sbind_ok _ _ _ s11 (s_hist s11)) by reflexivity. rewrite B1. cbn [h_data].
    destruct (Nat.eqb_spec (nrows m) 0); [lia|]. destruct (Nat.eqb_spec (ncols m) 0); [lia|]. cbn [orb sthrow_if]. rewrite (sbind_ok _ _ _ s11 tt) by reflexivity.
    unfold in_gopt, szoom. rewrite B2, Hg10, Eg. reflexivity. }
  split.
  - unfold ready. cbn [s_gopt set_gopt s_hist s_cur s_init s_trLen s_trMin s_trMax]. rewrite B1, B3, B5, B6, B7, B8. cbn [h_data h_dim h_cn h_doe]. rewrite Bg.
    split. { destruct G1 as (? & ? & ? & ? & ? & ?). unfold gopt_ready. rewrite Bg. repeat (split; auto). }
    split; auto. split; auto. split. { exists fb, ib. rewrite Bg. split; auto. }
    split. { split; auto. } split; [lia|]. split; auto. split; auto. split; [lia|]. split. { change (length vs = length (c_cons c)). auto. }
    split. { intros Hnil. change (fe = true). apply V3. unfold feasible_values. rewrite Hnil in V2 |- *. destruct vs; [constructor|discriminate]. }
    split. { exact A5. } split. { exact Hl0. } split. { change (0 <= s_trMin s2). lra. } change (0 <= s_trMax s2). lra.
  - split; auto. split; auto. split; auto. split; auto. split; auto. cbn [s_best s_iter s_evals s_pts s_hist set_gopt s_trMin s_trMax s_trLen s_succ s_fail s_sigma]. rewrite B1, B4, B6, B7, B8, B9, B10, B11, B12, B13.
    split. { change (improvement (s_best s) fe f = (b, im)). rewrite <- A4. exact Ei. }
    split. { exact A9. } split. { change (S (s_evals s2) = S (s_evals s)). congruence. } split. { change (s_pts s2 ++ [x] = s_pts s ++ [x]). congruence. } split. { exact Rm. }
    split. { exact A7. } split. { exact A8. } split. { cbn [s_trLen s_succ s_fail set_sig set_tr s10] in *. cbn [s_gopt s_cur set_hist set_best set_cur s9 s8 s_trLen s_trMin s_trMax s_succ s_fail s7 s6 s5 s4 s3 set_evals set_ghost] in Ts. change (ds_imp d8) with im in Ts. rewrite A2, A6, A7, A8, A12, A13 in Ts. exact Ts. }
    split. { destruct (c_var c); auto. rewrite B14. exact A14. } reflexivity.
Qed.
