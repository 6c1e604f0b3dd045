(** Properties C36, C37, C38 and C66: the optimisation history, the reported optimum and the sample layouts. *)
From Coq Require Import List Arith Bool ZArith Lia Reals.
From Verif Require Import Base StM Num RealNum NumFloat VecModel VecProofs2 MatModel MatLemmas MatSpec MatProofs MatProofs2 BoundsModel DataModel DataSpec DataProofs DesignModel HistModel HistSpec HistProofs.
Import ListNotations.

(** *** C36: the report *)
Theorem C36_reported_optimum : forall {T : Type} {NT : Num T} {OL : OrdLaws T} d c (g : gopt T) (m : mat T),
  gopt_ready d c g -> history d c m -> 0 < nrows m -> (forall i, i < nrows m -> nisnan (row_obj d (rowi (rows m) i)) = false) ->
  exists i g', gopt_fromHistory m g = (g', Ok tt) /\
    ((best_feasible d (rows m) i /\ reports d c (go_box g) (rows m) i true (go_d g')) \/
     ((forall j, ~ candidate d (rows m) j) /\ best_any d (rows m) i /\ reports d c (go_box g) (rows m) i false (go_d g'))).
Proof.
  intros T NT OL d c g m Hr Hh Hn Hg. destruct (gopt_fromHistory_ok d c g m Hr Hh Hn) as (fe & i & g' & E & R & _ & _ & _ & B).
  { right. intros. apply good_isnan. auto. }
  exists i, g'. split; auto. destruct fe; [left|right]; tauto.
Qed.
Print Assumptions C36_reported_optimum.
(** when a feasible row exists, NaN entries elsewhere in the history do not matter *)
Theorem C36_feasible_report_with_any_data : forall {T : Type} {NT : Num T} {OL : OrdLaws T} d c (g : gopt T) (m : mat T),
  gopt_ready d c g -> history d c m -> (exists j, candidate d (rows m) j) ->
  exists i g', gopt_fromHistory m g = (g', Ok tt) /\ best_feasible d (rows m) i /\ reports d c (go_box g) (rows m) i true (go_d g').
Proof.
  intros T NT OL d c g m Hr Hh [j Hj]. destruct (gopt_fromHistory_ok d c g m Hr Hh) as (fe & i & g' & E & R & _ & _ & _ & B); eauto.
  { destruct Hj as [Hj _]. rewrite rows_length in Hj. lia. }
  exists i, g'. split; auto. destruct fe; auto. destruct B as [B _]. exfalso. eapply B; eauto.
Qed.
Print Assumptions C36_feasible_report_with_any_data.
(** rejected calls change nothing *)
Theorem C36_rejected : forall {T : Type} {NT : Num T} (g : gopt T) (m : mat T),
  nrows m = 0 \/ b_set (go_box g) = false \/ ds_dim (go_d g) = 0 \/ ncols m <= ds_dim (go_d g) ->
  exists e, gopt_fromHistory m g = (g, Throw e).
Proof.
  intros T NT g m H. unfold gopt_fromHistory. rewrite (sbind_ok _ _ _ g g) by reflexivity.
  destruct (Nat.eqb_spec (nrows m) 0). { eexists; reflexivity. } rewrite (sbind_ok _ _ _ g tt) by reflexivity.
  destruct (b_set (go_box g)) eqn:Eb. 2:{ eexists; reflexivity. } rewrite (sbind_ok _ _ _ g tt) by reflexivity.
  destruct (Nat.eqb_spec (ds_dim (go_d g)) 0). { eexists; reflexivity. } rewrite (sbind_ok _ _ _ g tt) by reflexivity.
  assert (ncols m <= ds_dim (go_d g)) as L. { destruct H as [?|[?|[?|?]]]; auto; try lia; discriminate. }
  unfold best_index. apply Nat.leb_le in L. rewrite L. eexists. reflexivity.
Qed.
Print Assumptions C36_rejected.
(** a box can only be bound when it is set and has the dimension of the optimum object *)
Theorem C36_box_binding : forall {T : Type} {NT : Num T} (g : gopt T) (b : bnds T),
  gopt_setBox b g = (if (b_set b && Nat.eqb (ds_dim (go_d g)) (b_dim b))%bool then (mkGO (go_d g) b, Ok tt) else (g, Throw InvalidArgument)).
Proof.
  intros. unfold gopt_setBox. rewrite (sbind_ok _ _ _ g g) by reflexivity. destruct (b_set b); [|reflexivity]. cbn [negb andb].
  rewrite (sbind_ok _ _ _ g tt) by reflexivity. destruct (Nat.eqb _ _); reflexivity.
Qed.
Print Assumptions C36_box_binding.

(** *** C38: appending and reading back *)
Theorem C38_update_appends_one_row : forall {T : Type} {NT : Num T} (h : hist T) (s : design T), hist_ok h ->
  (length (ds_x s) = h_dim h /\ h_cn h <= length (ds_con s) ->
   exists h', hist_update s h = (h', Ok tt) /\ hist_ok h' /\ h_dim h' = h_dim h /\ h_cn h' = h_cn h /\
     rows (h_data h') = rows (h_data h) ++ [history_row (ds_x s) (ds_f s) (firstn (h_cn h) (ds_con s)) (ds_imp s) (ds_feas s)]) /\
  (~ (length (ds_x s) = h_dim h /\ h_cn h <= length (ds_con s)) -> exists e, hist_update s h = (h, Throw e)).
Proof.
  intros T NT h s Hh. split; intros Hf.
  - destruct (hist_update_ok h s Hh Hf) as (m & E & Tm & Rm & Cm). exists (hset_data m h). split; auto. split; [|auto]. split; auto.
  - eexists. apply hist_update_throws. auto.
Qed.
Print Assumptions C38_update_appends_one_row.
Theorem C38_appending_many : forall {T : Type} {NT : Num T} (h : hist T) (ds : list (design T)), hist_ok h -> Forall (fits_history h) ds ->
  exists h', append_designs ds h = (h', Ok tt) /\ hist_ok h' /\
    rows (h_data h') = rows (h_data h) ++ map (fun s => history_row (ds_x s) (ds_f s) (firstn (h_cn h) (ds_con s)) (ds_imp s) (ds_feas s)) ds.
Proof.
  intros T NT h ds Hh Hf. destruct (append_ok ds h Hh Hf) as (m & E & Tm & Rm & Cm). exists (hset_data m h). split; auto. split; auto. split; auto.
Qed.
Print Assumptions C38_appending_many.
(** reading a row back returns the stored fields *)
Theorem C38_round_trip : forall {T : Type} {NT : Num T} {OL : OrdLaws T} d c (g : gopt T) x f cs imp fe,
  gopt_ready d c g -> length x = d -> length cs = c ->
  exists g', extract (history_row x f cs imp fe) g = (g', Ok tt) /\ ds_x (go_d g') = x /\ ds_f (go_d g') = f /\ ds_con (go_d g') = cs /\
    ds_imp (go_d g') = imp /\ vec_normalize x (b_lo (go_box g)) (b_up (go_box g)) = Ok (ds_xn (go_d g')) /\
    (row_feas (history_row x f cs imp fe) <-> fe = true).
Proof.
  intros T NT OL d c g x f cs imp fe Hr <- <-. destruct (extract_ok (length x) (length cs) g (history_row x f cs imp fe) Hr) as (xn & E & N).
  { unfold history_row. rewrite !app_length. simpl. lia. }
  assert (row_x (length x) (history_row x f cs imp fe) = x) as Ex. { unfold row_x, history_row. rewrite firstn_app, Nat.sub_diag, firstn_all, firstn_O, app_nil_r. auto. }
  rewrite Ex in *. eexists. split; [exact E|]. cbn. split; auto. split.
  { unfold row_obj, history_row. rewrite app_nth2, Nat.sub_diag by lia. auto. }
  split. { unfold row_con, history_row. rewrite app_assoc, skipn_app. rewrite skipn_all2 by (rewrite app_length; simpl; lia).
    rewrite app_length. simpl length. rewrite Nat.sub_diag. simpl. rewrite firstn_app, Nat.sub_diag, firstn_all, firstn_O, app_nil_r. auto. }
  split. { unfold row_imp, history_row. rewrite !app_length. simpl length. rewrite app_nth2 by lia. simpl app. replace (length x + _ - 2 - length x) with (S (length cs)) by lia.
    simpl. rewrite app_nth2, Nat.sub_diag by lia. auto. }
  split; auto. unfold row_feas, history_row. replace (x ++ [f] ++ cs ++ [imp; if fe then n1 else n0]) with ((x ++ [f] ++ cs ++ [imp]) ++ [if fe then n1 else n0]) by (rewrite <- !app_assoc; auto).
  rewrite last_last. destruct fe.
  - pose proof ltb_01. tauto.
  - rewrite ltb_irrefl by apply good_n0. split; discriminate.
Qed.
Print Assumptions C38_round_trip.
Theorem C38_setData : forall {T : Type} {NT : Num T} (h : hist T) m, 0 < h_dim h -> mat_isEmpty m = false ->
  (ncols m = h_dim h + h_cn h + 3 -> exists h', hist_setData m h = (h', Ok tt) /\ h_data h' = m /\ h_dim h' = h_dim h /\ h_cn h' = h_cn h) /\
  (ncols m <> h_dim h + h_cn h + 3 -> hist_setData m h = (h, Throw RuntimeError)).
Proof.
  intros T NT h m Hd He. unfold hist_setData. rewrite (sbind_ok _ _ _ h h) by reflexivity. destruct (Nat.eqb_spec (h_dim h) 0); [lia|].
  rewrite (sbind_ok _ _ _ h tt) by reflexivity. rewrite He. rewrite (sbind_ok _ _ _ h tt) by reflexivity. unfold hist_width.
  destruct (Nat.eqb_spec (ncols m) (h_dim h + 1 + h_cn h + 2)); cbn [negb]; split; intros H; try lia.
  - exists (hset_data m h). auto.
  - reflexivity.
Qed.
Print Assumptions C38_setData.

(** *** C37: appending designs never worsens the report *)
Theorem C37_best_never_worsens : forall {T : Type} {NT : Num T} {OL : OrdLaws T} d c (h : hist T) (ds : list (design T)) (g g1 : gopt T),
  h_dim h = d -> h_cn h = c -> history d c (h_data h) -> Forall (fits_history h) ds -> gopt_ready d c g ->
  (forall i, i < nrows (h_data h) -> nisnan (row_obj d (rowi (rows (h_data h)) i)) = false) ->
  gopt_fromHistory (h_data h) g = (g1, Ok tt) -> ds_feas (go_d g1) = true ->
  exists h' g2, append_designs ds h = (h', Ok tt) /\ gopt_fromHistory (h_data h') g = (g2, Ok tt) /\
    ds_feas (go_d g2) = true /\ nleb (ds_f (go_d g2)) (ds_f (go_d g1)) = true.
Proof.
  intros T NT OL d c h ds g g1 Hd Hc Hh Hf Hr Hg E1 Hfe.
  destruct (append_ok ds h) as (m & E & Tm & Rm & Cm); auto. { split; [apply Hh|]. intros _. unfold hist_width. rewrite Hd, Hc. apply Hh. }
  assert (0 < nrows (h_data h)) as Hn.
  { destruct (nrows (h_data h)) eqn:Z; [|lia]. destruct (C36_rejected g (h_data h)) as [e Ee]; auto. rewrite E1 in Ee. discriminate. }
  destruct (gopt_fromHistory_ok d c g (h_data h) Hr Hh Hn) as (fe & i & g' & E1' & R1 & _ & _ & _ & B1). { right; intros. apply good_isnan; auto. }
  rewrite E1 in E1'. injection E1' as <-. destruct R1 as (_ & F1 & _ & O1 & _). rewrite Hfe in F1. subst fe.
  destruct B1 as (C1 & M1 & _).
  assert (forall j, j < nrows (h_data h) -> rowi (rows m) j = rowi (rows (h_data h)) j) as Hrow.
  { intros j Hj. unfold rowi. rewrite Rm, app_nth1; auto. rewrite rows_length; auto. }
  assert (candidate d (rows m) i) as C2.
  { destruct C1 as (A1 & A2 & A3). rewrite rows_length in A1. split. rewrite Rm, app_length, rows_length. lia. rewrite Hrow by auto. auto. }
  assert (history d c m) as Hm.
  { split; auto. rewrite Cm. unfold hist_width. congruence. rewrite <- rows_length, Rm, app_length, rows_length. lia. }
  destruct (C36_feasible_report_with_any_data d c g m Hr Hm) as (i2 & g2 & E2 & B2 & R2). eauto.
  exists (hset_data m h), g2. split; auto. split; auto. destruct R2 as (_ & F2 & _ & O2 & _). split; auto.
  rewrite O1, O2. destruct B2 as (_ & M2 & _). specialize (M2 i C2). rewrite (Hrow i) in M2; auto. destruct C1 as [A _]. rewrite rows_length in A. auto.
Qed.
Print Assumptions C37_best_never_worsens.

(** example: two parameters, one constraint, three rows appended to an empty history *)
Definition ex_design (x y f c imp : F) (fe : bool) : design F :=
  ds_set_feas fe (ds_set_imp imp (ds_set_con [c] (ds_set_f f (ds_set_point [x; y] [] design_new)))).
Definition ex_box : bnds F := mkB 2 [FofZ 0; FofZ 0] [FofZ 10; FofZ 10] true.
Definition ex_hist : hist F :=
  fst (append_designs [ex_design (FofZ 1) (FofZ 2) (FofZ 5) (FofZ 1) (FofZ 0) true; ex_design (FofZ 2) (FofZ 2) (FofZ (-7)) (FofZ 1) (FofZ 0) false;
                       ex_design (FofZ 3) (FofZ 4) (FofZ 2) (FofZ 9) (FofZ 3) true]
                      (mkH 2 1 mat_empty n0 0)).
Definition ex_gopt : gopt F := mkGO (fst (design_setNumberOfConstraints 1 (fst (design_setDimension 2 design_new)))) ex_box.
Example C36_example :
  gopt_ready 2 1 ex_gopt /\ history 2 1 (h_data ex_hist) /\ nrows (h_data ex_hist) = 3 /\
  (let g := fst (gopt_fromHistory (h_data ex_hist) ex_gopt) in
   ds_ID (go_d g) = 2%Z /\ ds_feas (go_d g) = true /\ ds_f (go_d g) = FofZ 2 /\ ds_x (go_d g) = [FofZ 3; FofZ 4] /\ ds_con (go_d g) = [FofZ 9] /\ ds_imp (go_d g) = FofZ 3).
Proof. split. vm_compute; repeat (split; auto with arith). split. split; [split|]; vm_compute; auto with arith. split; [vm_compute; auto|]. vm_compute. repeat split. Qed.
Example C37_example : hist_ok (mkH 2 1 (@mat_empty F) n0 0) /\ fits_history (mkH 2 1 (@mat_empty F) n0 0) (ex_design (FofZ 1) (FofZ 2) (FofZ 5) (FofZ 1) (FofZ 0) true).
Proof. split. split; [split|]; vm_compute; auto; lia. vm_compute. auto. Qed.

(** *** C66: sample layouts *)
Theorem C66_objective_samples : forall {T : Type} {NT : Num T} (s : design T), length (ds_x s) = ds_dim s ->
  sample_obj s = Ok (ds_x s ++ [ds_f s]) /\ sample_objL s = Ok (ds_x s ++ [ds_fL s]) /\
  (length (ds_grad s) = ds_dim s -> sample_objG s = Ok (ds_x s ++ [ds_f s] ++ ds_grad s) /\
     sample_objG0 s = Ok (ds_x s ++ [ds_f s] ++ repeat n0 (ds_dim s))) /\
  (length (ds_gradL s) = ds_dim s -> sample_objGL s = Ok (ds_x s ++ [ds_fL s] ++ ds_gradL s)) /\
  (length (ds_dir s) = ds_dim s -> sample_objT s = Ok (ds_x s ++ [ds_f s; ds_t s] ++ ds_dir s) /\
     sample_objTL s = Ok (ds_x s ++ [ds_fL s; ds_tL s] ++ ds_dir s)).
Proof.
  intros T NT s Hx. unfold sample_obj, sample_objL, sample_objG, sample_objG0, sample_objGL, sample_objT, sample_objTL.
  split; [apply sample_plain; auto|]. split; [apply sample_plain; auto|].
  split; [|split]; intros H; rewrite H, Nat.eqb_refl; cbn [negb]; repeat split.
  all: first [apply sample_with|apply sample_with2]; auto; apply repeat_length.
Qed.
Print Assumptions C66_objective_samples.
Theorem C66_objective_samples_rejected : forall {T : Type} {NT : Num T} (s : design T),
  (length (ds_grad s) <> ds_dim s -> sample_objG s = Throw InvalidArgument /\ sample_objG0 s = Throw InvalidArgument) /\
  (length (ds_gradL s) <> ds_dim s -> sample_objGL s = Throw InvalidArgument) /\
  (length (ds_dir s) <> ds_dim s -> sample_objT s = Throw InvalidArgument /\ sample_objTL s = Throw InvalidArgument).
Proof.
  intros T NT s. unfold sample_objG, sample_objG0, sample_objGL, sample_objT, sample_objTL.
  split; [|split]; intros H; apply Nat.eqb_neq in H; rewrite H; auto.
Qed.
Print Assumptions C66_objective_samples_rejected.
(** constraint number c *)
Theorem C66_constraint_samples : forall {T : Type} {NT : Num T} (s : design T) c, length (ds_x s) = ds_dim s -> c < ds_nc s ->
  (length (ds_con s) = ds_nc s -> sample_con c s = Ok (ds_x s ++ [nth c (ds_con s) n0])) /\
  (length (ds_conL s) = ds_nc s -> sample_conL c s = Ok (ds_x s ++ [nth c (ds_conL s) n0])) /\
  (length (ds_con s) = ds_nc s -> nrows (ds_cgm s) = ds_nc s -> ncols (ds_cgm s) = ds_dim s ->
     sample_conG c s = Ok (ds_x s ++ [nth c (ds_con s) n0] ++ nth c (rows (ds_cgm s)) [])) /\
  (length (ds_conL s) = ds_nc s -> nrows (ds_cgmL s) = ds_nc s -> ncols (ds_cgmL s) = ds_dim s ->
     sample_conGL c s = Ok (ds_x s ++ [nth c (ds_conL s) n0] ++ nth c (rows (ds_cgmL s)) [])) /\
  (length (ds_conL s) = ds_nc s -> nrows (ds_cdmL s) = ds_nc s -> ncols (ds_cdmL s) = ds_dim s -> length (ds_ctL s) = ds_nc s ->
     sample_conTL c s = Ok (ds_x s ++ [nth c (ds_conL s) n0; nth c (ds_ctL s) n0] ++ nth c (rows (ds_cdmL s)) [])).
Proof.
  intros T NT s c Hx Hc. unfold sample_con, sample_conL, sample_conG, sample_conGL, sample_conTL.
  destruct (Nat.leb_spec (ds_nc s) c); [lia|]. repeat split; intros; repeat match goal with H : ?a = ds_nc s |- context [Nat.eqb ?a _] => rewrite H, Nat.eqb_refl; cbn [negb] end.
  1,2: apply sample_plain; auto.
  - rewrite <- (sample_with (ds_x s) (nth c (ds_con s) n0) (nth c (rows (ds_cgm s)) []) (ds_dim s)) by (auto; rewrite nth_rows, mrow_length; auto; lia).
    rewrite (getRow_ok _ c) by (auto; lia). reflexivity.
  - rewrite <- (sample_with (ds_x s) (nth c (ds_conL s) n0) (nth c (rows (ds_cgmL s)) []) (ds_dim s)) by (auto; rewrite nth_rows, mrow_length; auto; lia).
    rewrite (getRow_ok _ c) by (auto; lia). reflexivity.
  - rewrite <- (sample_with2 (ds_x s) (nth c (ds_conL s) n0) (nth c (ds_ctL s) n0) (nth c (rows (ds_cdmL s)) []) (ds_dim s)) by (auto; rewrite nth_rows, mrow_length; auto; lia).
    rewrite (getRow_ok _ c) by (auto; lia). reflexivity.
Qed.
Print Assumptions C66_constraint_samples.
(** the high-fidelity constraint sample with tangent takes the direction of row [ID] of the design, whatever the constraint *)
Theorem C66_constraint_tangent_sample_uses_design_ID : forall {T : Type} {NT : Num T} (s : design T) c i, length (ds_x s) = ds_dim s -> c < ds_nc s ->
  length (ds_con s) = ds_nc s -> nrows (ds_cdm s) = ds_nc s -> ncols (ds_cdm s) = ds_dim s -> length (ds_ct s) = ds_nc s ->
  ds_ID s = Z.of_nat i ->
  sample_conT c s = (if Nat.ltb i (ds_nc s) then Ok (ds_x s ++ [nth c (ds_con s) n0; nth c (ds_ct s) n0] ++ nth i (rows (ds_cdm s)) []) else Throw OutOfRange).
Proof.
  intros T NT s c i Hx Hc H1 H2 H3 H4 Hi. unfold sample_conT. destruct (Nat.leb_spec (ds_nc s) c); [lia|]. rewrite H1, H2, H4, Nat.eqb_refl; cbn [negb]. rewrite Hi.
  destruct (Nat.ltb_spec i (ds_nc s)).
  - rewrite <- (sample_with2 (ds_x s) (nth c (ds_con s) n0) (nth c (ds_ct s) n0) (nth i (rows (ds_cdm s)) []) (ds_dim s)) by (auto; rewrite nth_rows, mrow_length; auto; lia).
    rewrite (getRow_ok _ i) by (auto; lia). reflexivity.
  - destruct (sample_make_ok (2 * ds_dim s + 2) (ds_x s) [(ds_dim s, vget (ds_con s) c); (ds_dim s + 1, vget (ds_ct s) c)]) as (r & -> & _); simpl length; try lia.
    { rewrite Hx. simpl. repeat f_equal; lia. }
    cbn [bind]. rewrite (proj1 (getRow_throws (ds_cdm s) (Z.of_nat i))); auto. lia.
Qed.
Print Assumptions C66_constraint_tangent_sample_uses_design_ID.
Definition two_constraints : design F :=
  mkD 1 2 [FofZ 5] [] [FofZ 1; FofZ 2] [] [] [] [] n0 n0 n0 n0 n0 [] mat_empty mat_empty (mkMat 2 1 [FofZ 10; FofZ 20]) mat_empty [FofZ 3; FofZ 4] [] 0 true.
Theorem C66_tangent_row_is_the_constraints_refuted :
  exists (s : design F) c, length (ds_x s) = ds_dim s /\ c < ds_nc s /\ length (ds_con s) = ds_nc s /\ nrows (ds_cdm s) = ds_nc s /\ ncols (ds_cdm s) = ds_dim s /\
    length (ds_ct s) = ds_nc s /\ sample_conT c s <> Ok (ds_x s ++ [nth c (ds_con s) n0; nth c (ds_ct s) n0] ++ nth c (rows (ds_cdm s)) []).
Proof. exists two_constraints, 1. vm_compute. repeat split; auto. discriminate. Qed.
Print Assumptions C66_tangent_row_is_the_constraints_refuted.
(** the layouts are the ones the training data reader splits: inputs, output, gradient; inputs, output, derivative, direction *)
Theorem C66_reader_agrees : forall {T : Type} {NT : Num T} (x gr : list T) f t d, length x = d -> length gr = d ->
  columns_ok false false d (length (x ++ [f])) /\ columns_ok true false d (length (x ++ [f] ++ gr)) /\ columns_ok false true d (length (x ++ [f; t] ++ gr)) /\
  inputs d [x ++ [f]] = [x] /\ outputs d [x ++ [f]] = [f] /\
  inputs d [x ++ [f] ++ gr] = [x] /\ outputs d [x ++ [f] ++ gr] = [f] /\ gradients d [x ++ [f] ++ gr] = [gr] /\
  inputs d [x ++ [f; t] ++ gr] = [x] /\ outputs d [x ++ [f; t] ++ gr] = [f] /\ derivatives d [x ++ [f; t] ++ gr] = [t] /\ directions d [x ++ [f; t] ++ gr] = [gr].
Proof.
  intros T NT x gr f t d <- Hg.
  assert (forall w, firstn (length x) (x ++ w) = x) as F by (intros w; rewrite firstn_app, Nat.sub_diag, firstn_all, firstn_O, app_nil_r; auto).
  assert (forall w k, skipn (length x + k) (x ++ w) = skipn k w) as K. { intros w k. rewrite skipn_app. rewrite skipn_all2 by lia. simpl. f_equal. lia. }
  assert (forall w k, nth (length x + k) (x ++ w) n0 = nth k w n0) as N. { intros w k. rewrite app_nth2 by lia. f_equal. lia. }
  assert (forall w, nth (length x) (x ++ w) n0 = nth 0 w n0) as N0. { intros w. rewrite <- (N w 0). f_equal. lia. }
  unfold columns_ok, inputs, outputs, gradients, derivatives, directions. cbn [map]. rewrite !F, !K, !N, !N0, !app_length. simpl. rewrite <- Hg, firstn_all. repeat split; lia.
Qed.
Print Assumptions C66_reader_agrees.
Example C66_example :
  let s := mkD 2 0 [FofZ 1; FofZ 2] [] [] [] [FofZ 7; FofZ 8] [] [FofZ 0; FofZ 1] (FofZ 5) n0 (FofZ 6) n0 n0 [] mat_empty mat_empty mat_empty mat_empty [] [] 0 true in
  length (ds_x s) = ds_dim s /\ length (ds_grad s) = ds_dim s /\ length (ds_dir s) = ds_dim s /\
  sample_objG s = Ok [FofZ 1; FofZ 2; FofZ 5; FofZ 7; FofZ 8] /\ sample_objT s = Ok [FofZ 1; FofZ 2; FofZ 5; FofZ 6; FofZ 0; FofZ 1].
Proof. vm_compute. repeat split. Qed.
