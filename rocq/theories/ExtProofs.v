(** Proofs about external evaluation. *)
From Coq Require Import Ascii String ZArith Bool Arith Reals Lra List Lia.
From Verif Require Import Base StM Num RealNum VecModel StrModel StrSpec StrProofs StrNum StrReal ApiModel ApiText KeyModel DriverModel DriverSpec DriverText ExtModel ExtSpec.
Import ListNotations.

(** *** numbers read from a stream *)
Lemma mantissa_inv t m k s3 : mantissa t = Some (m, k, s3) ->
  exists sp neg sg ip n ft f, t = sp ++ sg ++ ip ++ ft ++ s3 /\ Forall (fun c => In c spaces) sp /\ sign_text neg sg /\ decimal ip n /\ fraction_text ft k f /\ (ip <> [] \/ k <> 0) /\
    match s3 with [] => True | c :: _ => is_digit c = false end /\ (ft = [] -> hd_error s3 <> Some "."%char) /\ m = with_sign neg (n * 10 ^ Z.of_nat k + f).
Proof.
  unfold mantissa, skip_spaces. pose proof (span_split is_space t) as H0. destruct (span is_space t) as [sp s0]. destruct H0 as (-> & S & _). cbn [snd].
  pose proof (take_sign_form s0) as H1. destruct (take_sign s0) as [neg s1]. destruct H1 as (sg & -> & G).
  pose proof (span_split is_digit s1) as H2. destruct (span is_digit s1) as [ip s2]. destruct H2 as (-> & AD & N2).
  pose proof (digits_decimal ip AD) as D. apply all_space in S.
  assert (P : exists fp s3 ft, (match s2 with c :: t => if Ascii.eqb c "." then span is_digit t else ([], s2) | [] => ([], s2) end) = (fp, s3) /\ s2 = ft ++ s3 /\
    fraction_text ft (length fp) (digits_val fp) /\ decimal fp (digits_val fp) /\ match s3 with [] => True | c :: _ => is_digit c = false end /\ (ft = [] -> hd_error s3 <> Some "."%char)).
  { destruct s2 as [|c t].
    - exists [], [], []. repeat split; try constructor. discriminate.
    - destruct (Ascii.eqb c ".") eqn:EP.
      + apply Ascii.eqb_eq in EP. subst c. pose proof (span_split is_digit t) as H3. destruct (span is_digit t) as [fp s4]. destruct H3 as (-> & AF & N3).
        pose proof (digits_decimal fp AF) as DF. exists fp, s4, (lit "." ++ fp). repeat split; auto. now constructor. discriminate.
      + apply Ascii.eqb_neq in EP. exists [], (c :: t), []. repeat split; try constructor; auto. cbn. congruence. }
  destruct P as (fp & s4 & ft & P & Es2 & F & DF & N3 & NP).
  match goal with |- (let (fp, s3) := ?X in _) = _ -> _ => replace X with (fp, s4) by (symmetry; exact P) end. clear P. subst s2.
  destruct (is_empty (ip ++ fp)) eqn:NE; [discriminate|].
  assert (NZ : ip <> [] \/ length fp <> 0). { destruct ip; [right|left; discriminate]. destruct fp; [discriminate NE|discriminate]. }
  rewrite signed_eq, (decimal_val _ _ (decimal_app _ _ _ _ D DF)). intros [= <- <- <-].
  exists sp, neg, sg, ip, (digits_val ip), ft, (digits_val fp). repeat split; auto.
Qed.
Lemma mantissa_reads sp neg sg ip n ft k f s3 : Forall (fun c => In c spaces) sp -> sign_text neg sg -> decimal ip n -> fraction_text ft k f -> (ip <> [] \/ k <> 0) ->
  match s3 with [] => True | c :: _ => is_digit c = false end -> (ft = [] -> hd_error s3 <> Some "."%char) ->
  mantissa (sp ++ sg ++ ip ++ ft ++ s3) = Some (with_sign neg (n * 10 ^ Z.of_nat k + f), k, s3).
Proof.
  intros S G D F NZ ND NP. pose proof (decimal_digits _ _ D) as AD.
  assert (AF : exists fp, (ft = [] /\ fp = [] /\ k = 0 /\ f = 0%Z) \/ (ft = lit "." ++ fp /\ decimal fp f /\ length fp = k)).
  { destruct F as [|fp f' DF]; [exists []; auto|exists fp; auto]. }
  destruct AF as (fp & AF). assert (DF : decimal fp f /\ length fp = k). { destruct AF as [(-> & -> & -> & ->)|(-> & ? & ?)]; auto. split; [constructor|reflexivity]. }
  destruct DF as (DF & LF). pose proof (decimal_digits _ _ DF) as ADF.
  assert (T1 : take_sign (skip_spaces (sp ++ sg ++ ip ++ ft ++ s3)) = (neg, ip ++ ft ++ s3)).
  { apply all_space in S. unfold skip_spaces. rewrite span_app; [|exact S|].
    - cbn [snd]. destruct G; [reflexivity|reflexivity|]. cbn [app].
      destruct ip as [|c ip]. + destruct AF as [(-> & -> & -> & ->)|(-> & _)]; [destruct NZ; congruence|reflexivity].
      + inversion AD; subst. cbn [app]. now apply digit_not_sign.
    - destruct G; [reflexivity|reflexivity|]. cbn [app]. destruct ip as [|c ip].
      + destruct AF as [(-> & -> & -> & ->)|(-> & _)]; [destruct NZ; congruence|reflexivity].
      + inversion AD; subst. cbn [app]. now apply digit_not_space. }
  unfold mantissa. rewrite T1. rewrite span_app; [|exact AD|].
  2:{ destruct AF as [(-> & _)|(-> & _)]; [exact ND|reflexivity]. }
  assert (NE : is_empty (ip ++ fp) = false). { destruct ip; [|reflexivity]. destruct fp; [|reflexivity]. cbn in LF. destruct NZ; congruence. }
  assert (T2 : match ft ++ s3 with c :: t => if Ascii.eqb c "." then span is_digit t else ([], ft ++ s3) | [] => ([], ft ++ s3) end = (fp, s3)).
  { destruct AF as [(-> & -> & -> & ->)|(-> & _)].
    - cbn [app]. destruct s3 as [|c r]; [reflexivity|].
      specialize (NP eq_refl). cbn in NP. replace (Ascii.eqb c ".") with false; [reflexivity|]. symmetry. apply Ascii.eqb_neq. congruence.
    - change (span is_digit (fp ++ s3) = (fp, s3)). apply span_app; [exact ADF|exact ND]. }
  match goal with |- (let (fp, s3) := ?X in _) = _ => replace X with (fp, s3) by (symmetry; exact T2) end. rewrite NE, signed_eq. rewrite (decimal_val _ _ (decimal_app _ _ _ _ D DF)), LF.
  reflexivity.
Qed.
Lemma starts_exponent_iff s : starts_exponent s = true <-> hd_error s = Some "e"%char \/ hd_error s = Some "E"%char.
Proof.
  destruct s as [|c s]; cbn. { split; [discriminate|intros [H|H]; discriminate H]. }
  rewrite orb_true_iff, !Ascii.eqb_eq. split; (intros [H|H]; [left|right]; congruence).
Qed.
Lemma stream_number_iff t m e r : streamNumber t = Some (m, e, r) <-> stream_text t m e r.
Proof.
  split.
  - unfold streamNumber. destruct (mantissa t) as [[[m0 k] s3]|] eqn:M; [|discriminate]. destruct (take_exponent s3) as [x s4] eqn:TE.
    destruct (starts_exponent s3 && Nat.eqb (length s4) (length s3))%bool eqn:B; [discriminate|]. intros [= <- <- <-].
    destruct (mantissa_inv _ _ _ _ M) as (sp & neg & sg & ip & n & ft & f & -> & S & G & D & F & NZ & ND & NP & ->).
    destruct (take_exponent_inv _ _ _ TE ND) as (et & E3 & X & R1 & R2).
    assert (A : sp ++ sg ++ ip ++ ft ++ s3 = sp ++ sg ++ ip ++ ft ++ et ++ s4) by (now rewrite E3). rewrite A.
    apply (stream_is sp neg sg ip n ft k f et x s4); auto.
    + intros ->. cbn [app] in E3. subst s4. rewrite Nat.eqb_refl, andb_true_r in B.
      assert (N : ~ starts_exponent s3 = true) by congruence. rewrite starts_exponent_iff in N. tauto.
    + intros Hf ->. cbn [app] in E3. subst s4. auto.
  - intros [sp neg sg ip n ft k f et x r' S G D F NZ X R1 R2 R3].
    assert (ND : match et ++ r' with [] => True | c :: _ => is_digit c = false end).
    { destruct X as [|E ng sgx es nx HE _ _ _]; cbn [app]; [now apply not_digit_next_ok|]. destruct HE as [->| ->]; reflexivity. }
    unfold streamNumber. rewrite (mantissa_reads sp neg sg ip n ft k f (et ++ r')); auto.
    2:{ intros Hf. destruct X as [|E ng sgx es nx HE _ _ _]; cbn [app]; [auto|]. cbn. destruct HE as [->| ->]; discriminate. }
    rewrite (take_exponent_reads et x r' X R1).
    + destruct X as [|E ng sgx es nx HE _ _ _].
      * cbn [app]. assert (starts_exponent r' = false) as ->; [|reflexivity]. specialize (R2 eq_refl). destruct (starts_exponent r') eqn:Q; [|reflexivity]. apply starts_exponent_iff in Q. tauto.
      * assert (Nat.eqb (length r') (length ((E :: sgx ++ es) ++ r')) = false) as ->; [|now rewrite andb_false_r]. apply Nat.eqb_neq. rewrite app_length. cbn [length]. lia.
    + intros -> et' e' r2 X' NX ->. specialize (R2 eq_refl). destruct X' as [|E ng sgx es nx HE _ _ _]; [congruence|]. cbn in R2. destruct HE as [->| ->]; tauto.
Qed.
Lemma stream_unique t m e r m' e' r' : stream_text t m e r -> stream_text t m' e' r' -> m = m' /\ e = e' /\ r = r'.
Proof. rewrite <- !stream_number_iff. intros -> [= <- <- <-]. auto. Qed.

Lemma read_one t (l : vec R) : readValues 1 t = Ok l <-> exists v, l = [v] /\ first_number t v.
Proof.
  unfold readValues. split.
  - destruct (streamNumber t) as [[[m e] r]|] eqn:E; [|discriminate]. change (@nlit R _ m e) with (IZR m * powerRZ 10 e)%R. change (@nabs R _) with Rabs. change (@nltb R _) with Rltb.
    destruct (Rltb_spec ndblmax (Rabs (IZR m * powerRZ 10 e))) as [X|B]; [discriminate|]. cbn [bind]. intros [= <-]. eexists. split; [reflexivity|].
    exists m, e, r. split; [now apply stream_number_iff|]. split; [reflexivity|lra].
  - intros (v & -> & m & e & r & S & -> & B). apply stream_number_iff in S. rewrite S. change (@nlit R _ m e) with (IZR m * powerRZ 10 e)%R. change (@nabs R _) with Rabs. change (@nltb R _) with Rltb.
    destruct (Rltb_spec ndblmax (Rabs (IZR m * powerRZ 10 e))) as [X|_]; [lra|]. reflexivity.
Qed.
Lemma read_none n t : (exists l : vec R, readValues n t = Ok l) \/ @readValues R _ n t = Throw RuntimeError.
Proof.
  revert t. induction n as [|n IH]; intros t; cbn [readValues]; [eauto|]. destruct (streamNumber t) as [[[m e] r]|]; [|auto].
  destruct (ndblmax <! nabs (nlit m e))%bool; [auto|]. destruct (IH r) as [[l ->]| ->]; cbn [bind]; eauto.
Qed.
Lemma str_eqb_spec a b : reflect (a = b) (str_eqb a b).
Proof.
  revert b. induction a as [|x a IH]; intros [|y b]; cbn; try (constructor; congruence).
  destruct (Ascii.eqb_spec x y) as [->|N]; cbn; [|constructor; congruence]. destruct (IH b) as [->|N]; constructor; congruence.
Qed.
Lemma put_same f t fs : put f t fs f = Some t.
Proof. unfold put. destruct (str_eqb_spec f f); congruence. Qed.
Lemma put_other f t fs g : g <> f -> put f t fs g = fs g.
Proof. intros N. unfold put. destruct (str_eqb_spec g f); congruence. Qed.

(** *** the command *)
Lemma command_iff exe cmd : command_of exe cmd <-> cmd = executionCommand exe.
Proof.
  assert (A : forall b, exe = b ++ lit ".py" -> (Nat.leb 3 (length exe) && str_eqb (skipn (length exe - 3) exe) (lit ".py"))%bool = true).
  { intros b ->. rewrite app_length. change (length (lit ".py")) with 3. replace (length b + 3 - 3) with (length b) by lia.
    rewrite skipn_app, skipn_all, Nat.sub_diag. cbn [app skipn]. destruct (str_eqb_spec (lit ".py") (lit ".py")); [|congruence]. rewrite andb_true_r. apply Nat.leb_le. lia. }
  assert (B : (Nat.leb 3 (length exe) && str_eqb (skipn (length exe - 3) exe) (lit ".py"))%bool = true -> exe = firstn (length exe - 3) exe ++ lit ".py").
  { intros H. apply andb_true_iff in H. destruct H as [_ H]. destruct (str_eqb_spec (skipn (length exe - 3) exe) (lit ".py")) as [E|]; [|discriminate]. rewrite <- E. now rewrite firstn_skipn. }
  assert (C : contains (lit "/") exe = true <-> In "/"%char exe).
  { rewrite contains_has. unfold has. split; [intros N; destruct (not_absent _ _ N) as (a & r & -> & _); apply in_or_app; right; left; reflexivity|].
    intros I. apply in_split in I. destruct I as (a & r & E). intros AB. exact (AB a r E). }
  unfold executionCommand. split.
  - intros [b E|N I|N I].
    + now rewrite (A b E).
    + destruct (Nat.leb 3 (length exe) && str_eqb (skipn (length exe - 3) exe) (lit ".py"))%bool eqn:Q; [destruct (N _ (B eq_refl))|]. now rewrite (proj2 C I).
    + destruct (Nat.leb 3 (length exe) && str_eqb (skipn (length exe - 3) exe) (lit ".py"))%bool eqn:Q; [destruct (N _ (B eq_refl))|].
      destruct (contains (lit "/") exe) eqn:K; [destruct (I (proj1 C eq_refl))|reflexivity].
  - intros ->. destruct (Nat.leb 3 (length exe) && str_eqb (skipn (length exe - 3) exe) (lit ".py"))%bool eqn:Q.
    + apply (cmd_python exe (firstn (length exe - 3) exe)). auto.
    + assert (N : forall b, exe <> b ++ lit ".py") by (intros b E; specialize (A b E); congruence).
      destruct (contains (lit "/") exe) eqn:K; [apply cmd_path|apply cmd_here]; auto. now apply C. intros I. apply C in I. congruence.
Qed.

(** *** evaluation *)
Section Eval.
  Context (prog : str -> files -> option (files * Z)) (writable : str -> bool) (shown : R -> str).
  Definition text_of (x : list R) : str := number_lines (map shown x).
  Lemma text_of_eq x : concat (map (fun a => shown a ++ newline) x) = text_of x.
  Proof. unfold text_of, number_lines. now rewrite map_map. Qed.

  (** everything before the output is read *)
  Definition ran (dim : nat) (d : odef) (x : vec R) : SM files unit :=
    run sthrow_if (negb (Nat.eqb (length x) dim)) InvalidArgument; run writeDesign writable shown dim (od_dv d) x; runProgram prog (od_exe d).
  Lemma ran_ok dim d x fs fs' : ran dim d x fs = (fs', Ok tt) <->
    length x = dim /\ od_dv d <> [] /\ writable (od_dv d) = true /\
    ((od_exe d = [] /\ fs' = put (od_dv d) (text_of x) fs) \/
     (od_exe d <> [] /\ prog (executionCommand (od_exe d)) (put (od_dv d) (text_of x) fs) = Some (fs', 0%Z))).
  Proof.
    unfold ran, writeDesign, runProgram, sbind, sthrow_if, sassert, sthrow, sret, smod. rewrite text_of_eq.
    destruct (Nat.eqb_spec (length x) dim) as [L|L]; cbn [negb]; [|split; [intros [=]|tauto]].
    destruct (od_dv d) as [|c dv] eqn:E1; cbn [is_empty negb]; [split; [intros [=]|intros (_ & H & _); congruence]|].
    destruct (writable (c :: dv)) eqn:W; [|split; [intros [=]|intros (_ & _ & H & _); congruence]].
    destruct (od_exe d) as [|q exe] eqn:E2; cbn [is_empty].
    - split; [intros [= <-]|intros (_ & _ & _ & [[_ ->]|[H _]]); [reflexivity|congruence]]. repeat split; auto; discriminate.
    - destruct (prog _ _) as [[f c0]|].
      + destruct (Z.eqb_spec c0 0) as [->|N]; split.
        * intros [= <-]. repeat split; auto. discriminate. right. split; [discriminate|reflexivity].
        * intros (_ & _ & _ & [[H _]|[_ [= ->]]]); [discriminate|reflexivity].
        * intros [=].
        * intros (_ & _ & _ & [[H _]|[_ [= -> ->]]]); [discriminate|congruence].
      + split; [intros [=]|intros (_ & _ & _ & [[H _]|[_ H]]); discriminate].
  Qed.
  Lemma ran_fails dim d x fs fs' r : ran dim d x fs = (fs', r) -> r <> Ok tt ->
    (length x <> dim /\ r = Throw InvalidArgument /\ fs' = fs) \/ (r = Throw AssertFail /\ fs' = fs /\ (od_dv d = [] \/ writable (od_dv d) = false)) \/
    (r = Throw RuntimeError /\ od_exe d <> [] /\ match prog (executionCommand (od_exe d)) (put (od_dv d) (text_of x) fs) with None => fs' = put (od_dv d) (text_of x) fs | Some (f, c) => fs' = f /\ c <> 0%Z end).
  Proof.
    unfold ran, writeDesign, runProgram, sbind, sthrow_if, sassert, sthrow, sret, smod. rewrite text_of_eq.
    destruct (Nat.eqb_spec (length x) dim) as [L|L]; cbn [negb]; [|intros [= <- <-] _; auto].
    destruct (od_dv d) as [|c dv] eqn:E1; cbn [is_empty negb]; [intros [= <- <-] _; right; left; auto|].
    destruct (writable (c :: dv)) eqn:W; [|intros [= <- <-] _; right; left; auto].
    destruct (od_exe d) as [|q exe] eqn:E2; cbn [is_empty]; [intros [= <- <-] N; congruence|].
    destruct (prog _ _) as [[f c0]|].
    - destruct (Z.eqb_spec c0 0) as [->|N]; intros [= <- <-] H; [congruence|]. right. right. repeat split; auto. discriminate.
    - intros [= <- <-] _. right. right. repeat split; auto. discriminate.
  Qed.
  Lemma eval_split dim d x fs : evaluateExternally prog writable shown dim d x fs =
    match ran dim d x fs with
    | (f, Ok _) => match readOutput (od_out d) 1 f with (f', Ok (v :: _)) => (f', Ok v) | (f', Ok []) => (f', Throw RuntimeError) | (f', Throw e) => (f', Throw e) | (f', UB) => (f', UB) end
    | (f, Throw e) => (f, Throw e)
    | (f, UB) => (f, UB)
    end.
  Proof.
    unfold evaluateExternally, ran, sbind. destruct (sthrow_if _ _ fs) as [f [a|e|]]; auto. destruct (writeDesign _ _ _ _ _ f) as [f1 [a1|e1|]]; auto.
    destruct (runProgram _ _ f1) as [f2 [a2|e2|]]; auto. destruct (readOutput _ _ f2) as [f3 [[|v l]|e3|]]; reflexivity.
  Qed.
  Lemma con_split dim d id x vals fs : evaluateConstraintExternally prog writable shown dim d id x vals fs =
    rethrow (fun _ => match ran dim d x fs with
    | (f, Ok _) => match readOutput (od_out d) 1 f with
                   | (f', Ok (v :: _)) => if Nat.leb (length vals) id then (f', Throw OutOfRange) else (f', Ok (firstn id vals ++ v :: skipn (S id) vals))
                   | (f', Ok []) => if Nat.leb (length vals) id then (f', Throw OutOfRange) else (f', Throw RuntimeError) | (f', Throw e) => (f', Throw e) | (f', UB) => (f', UB) end
    | (f, Throw e) => (f, Throw e)
    | (f, UB) => (f, UB)
    end) fs.
  Proof.
    unfold evaluateConstraintExternally, rethrow, ran, sbind. destruct (sthrow_if (negb _) _ fs) as [f [a|e|]]; auto. destruct (writeDesign _ _ _ _ _ f) as [f1 [a1|e1|]]; auto.
    destruct (runProgram _ _ f1) as [f2 [a2|e2|]]; auto. destruct (readOutput _ _ f2) as [f3 [[|v l]|e3|]]; try reflexivity; unfold sthrow_if; destruct (Nat.leb (length vals) id); reflexivity.
  Qed.
  Lemma read_output_one name fs fs' (l : vec R) : readOutput name 1 fs = (fs', Ok l) <-> name <> [] /\ fs' = fs /\ exists t v, fs name = Some t /\ first_number t v /\ l = [v].
  Proof.
    unfold readOutput, sbind, sthrow_if, sget, sthrow, sret, slift. destruct name as [|c name]; cbn [is_empty]. { split; [intros [=]|intros (H & _); congruence]. }
    destruct (fs (c :: name)) as [t|] eqn:E.
    - split.
      + intros [= <- H]. apply read_one in H. destruct H as (v & -> & F). repeat split; [discriminate|]. eauto.
      + intros (_ & -> & t' & v & [= <-] & F & ->). f_equal. apply read_one. eauto.
    - split; [intros [=]|]. intros (_ & _ & t & v & [=] & _).
  Qed.
  Lemma read_output_fails name n fs fs' (r : Res (vec R)) : readOutput name n fs = (fs', r) -> (exists l, r = Ok l) \/ (fs' = fs /\ name <> [] /\ r = Throw RuntimeError) \/ (fs' = fs /\ name = [] /\ r = Throw InvalidArgument).
  Proof.
    unfold readOutput, sbind, sthrow_if, sget, sthrow, sret, slift. destruct name as [|c name]; cbn [is_empty]. { intros [= <- <-]. auto. }
    destruct (fs (c :: name)) as [t|].
    - intros [= <- <-]. destruct (read_none n t) as [[l ->]| ->]; [eauto|]. right. left. repeat split. discriminate.
    - intros [= <- <-]. right. left. repeat split. discriminate.
  Qed.
  Lemma first_unique t v w : first_number t v -> first_number t w -> v = w.
  Proof. intros (m & e & r & S & -> & _) (m' & e' & r' & S' & -> & _). destruct (stream_unique _ _ _ _ _ _ _ S S') as (-> & -> & _). reflexivity. Qed.
End Eval.

(** *** six digits *)
Lemma six_digits_close x v : six_digits_of x v -> (Rabs (x - v) <= 5 / 1000000 * Rabs v)%R.
Proof.
  intros [[-> ->]|(M & E & B & -> & H)]. { rewrite Rminus_0_r, Rabs_R0. lra. }
  eapply Rle_trans; [exact H|]. rewrite Rabs_mult. assert (P : (0 < powerRZ 10 E)%R) by (apply powerRZ_lt; lra). rewrite (Rabs_right (powerRZ 10 E)) by lra.
  rewrite <- abs_IZR. assert (L : (100000 <= IZR (Z.abs M))%R) by (apply IZR_le; lia). nra.
Qed.
Lemma Rabs_le_between a b : (Rabs a <= b -> - b <= a <= b)%R.
Proof. unfold Rabs. destruct (Rcase_abs a); lra. Qed.
Lemma powerRZ_le_mono E F : (E <= F)%Z -> (powerRZ 10 E <= powerRZ 10 F)%R.
Proof.
  intros L. replace F with (E + Z.of_nat (Z.to_nat (F - E)))%Z by lia. rewrite powerRZ_add by lra. rewrite <- pow_powerRZ.
  pose proof (powerRZ_lt 10 E ltac:(lra)) as P. pose proof (pow_R1_Rle 10 (Z.to_nat (F - E)) ltac:(lra)) as Q. nra.
Qed.
Lemma six_digits_two_thirds v : six_digits_of (2 / 3) v -> v = (666667 / 1000000)%R.
Proof.
  intros [[H _]|(M & E & B & -> & H)]; [lra|].
  assert (P : (0 < powerRZ 10 E)%R) by (apply powerRZ_lt; lra).
  assert (BR : (100000 <= Rabs (IZR M) <= 999999)%R). { rewrite <- abs_IZR. split; apply IZR_le; lia. }
  assert (E6 : E = (-6)%Z).
  { destruct (Z_lt_ge_dec E (-6)) as [L|G].
    - exfalso. assert (powerRZ 10 E <= powerRZ 10 (-7))%R. { apply powerRZ_le_mono; lia. }
      assert (powerRZ 10 (-7) = / 10000000)%R as E7 by (unfold powerRZ; change (Pos.to_nat 7) with 7%nat; cbn; lra). rewrite E7 in H0.
      assert (Rabs (IZR M * powerRZ 10 E) <= 999999 * powerRZ 10 E)%R. { rewrite Rabs_mult, (Rabs_right (powerRZ 10 E)) by lra. nra. }
      apply Rabs_le_between in H. apply Rabs_le_between in H1. lra.
    - destruct (Z.eq_dec E (-6)) as [|N]; [auto|]. exfalso. assert (powerRZ 10 (-5) <= powerRZ 10 E)%R. { apply powerRZ_le_mono; lia. }
      assert (powerRZ 10 (-5) = / 100000)%R as E5 by (unfold powerRZ; change (Pos.to_nat 5) with 5%nat; cbn; lra). rewrite E5 in H0.
      assert (100000 * powerRZ 10 E <= Rabs (IZR M * powerRZ 10 E))%R. { rewrite Rabs_mult, (Rabs_right (powerRZ 10 E)) by lra. nra. }
      apply Rabs_le_between in H. destruct (Rcase_abs (IZR M * powerRZ 10 E)) as [C|C]; [rewrite Rabs_left in H1 by lra|rewrite Rabs_right in H1 by lra]; nra. }
  subst E. assert (powerRZ 10 (-6) = / 1000000)%R as E6 by (unfold powerRZ; change (Pos.to_nat 6) with 6%nat; cbn; lra). rewrite E6 in *.
  apply Rabs_le_between in H. assert (M = 666667)%Z as ->; [|lra].
  assert (IZR M < 666668)%R by lra. assert (666666 < IZR M)%R by lra. apply lt_IZR in H0, H1. lia.
Qed.
