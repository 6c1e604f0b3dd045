(** Proofs about the text of CSV files. *)
From Coq Require Import Ascii String ZArith Bool Arith Reals Lra List Lia.
From Verif Require Import Base StM Num RealNum VecModel MatModel MatSpec StrModel StrSpec StrProofs StrNum StrReal DriverSpec DriverText ExtModel ExtSpec ExtProofs CsvModel CsvSpec.
Import ListNotations.

(** *** cutting a text *)
Lemma pieces_nonempty c x t : pieces c (x :: t) <> [].
Proof. cbn. destruct (Ascii.eqb x c); [discriminate|]. destruct (pieces c t); discriminate. Qed.
Lemma pieces_app c a r : ~ In c a -> pieces c (a ++ c :: r) = a :: pieces c r.
Proof.
  induction a as [|x a IH]; intros N; cbn [app pieces].
  - now rewrite Ascii.eqb_refl.
  - destruct (Ascii.eqb_spec x c) as [->|NE]; [destruct N; now left|]. rewrite IH by (intros H; apply N; now right). reflexivity.
Qed.
Lemma pieces_last c a : a <> [] -> ~ In c a -> pieces c a = [a].
Proof.
  induction a as [|x a IH]; intros NE N; [congruence|]. cbn [pieces]. destruct (Ascii.eqb_spec x c) as [->|_]; [destruct N; now left|].
  destruct a as [|y a]; [reflexivity|]. rewrite IH; [reflexivity|discriminate|]. intros H; apply N; now right.
Qed.
Lemma cut_pieces c s l : cut c s l <-> pieces c s = l.
Proof.
  split.
  - induction 1 as [|a NE N|a r l N _ IH]; [reflexivity|now apply pieces_last|]. rewrite pieces_app by exact N. congruence.
  - revert l. remember (length s) as n eqn:L. revert s L. induction n as [n IH] using lt_wf_ind. intros s L l E.
    destruct (in_dec ascii_dec c s) as [I|N].
    + apply in_split in I. destruct I as (a0 & r0 & ->).
      assert (X : exists a r, a0 ++ c :: r0 = a ++ c :: r /\ ~ In c a).
      { clear. induction a0 as [|x a IH]; [exists [], r0; auto|]. destruct (ascii_dec x c) as [->|NE]; [exists [], (a ++ c :: r0); auto|].
        destruct IH as (a' & r' & E & N). exists (x :: a'), r'. cbn [app]. rewrite E. split; auto. intros [H|H]; [congruence|auto]. }
      destruct X as (a & r & X & N). rewrite X in *. rewrite pieces_app in E by exact N. subst l. constructor; [exact N|].
      apply (IH (length r)); [|reflexivity|reflexivity]. rewrite L, app_length. cbn. lia.
    + destruct s as [|x s]; [subst l; constructor|]. rewrite pieces_last in E by (auto; discriminate). subst l. constructor; [discriminate|exact N].
Qed.
Lemma cut_fun c s l l' : cut c s l -> cut c s l' -> l = l'.
Proof. rewrite !cut_pieces. congruence. Qed.
Lemma pieces_joined c l : (forall a, In a l -> ~ In c a /\ a <> []) -> pieces c (joined [c] l) = l.
Proof.
  induction l as [|a l IH]; intros H; [reflexivity|]. cbn [joined]. destruct (H a (or_introl eq_refl)) as [N NE].
  destruct l as [|b l]; [now apply pieces_last|]. cbn [app]. rewrite pieces_app by exact N. f_equal. apply IH. intros x I. apply H. now right.
Qed.
Lemma pieces_concat c l t : (forall a, In a l -> ~ In c a) -> pieces c (concat (map (fun a => a ++ [c]) l) ++ t) = l ++ pieces c t.
Proof.
  induction l as [|a l IH]; intros H; [reflexivity|]. cbn [map concat]. rewrite <- !app_assoc. cbn [app]. rewrite pieces_app by (apply H; now left). f_equal.
  apply IH. intros x I. apply H. now right.
Qed.
Lemma in_joined c sep l : In c (joined sep l) -> In c sep \/ exists a, In a l /\ In c a.
Proof.
  induction l as [|a l IH]; cbn [joined]; [intros []|]. destruct l as [|b l].
  - intros H. right. exists a. split; [now left|exact H].
  - intros H. apply in_app_or in H. destruct H as [H|H]; [right; exists a; split; [now left|exact H]|]. apply in_app_or in H. destruct H as [H|H]; [now left|].
    destruct (IH H) as [H1|(x & I & J)]; [now left|]. right. exists x. split; [now right|exact J].
Qed.
(** a text that ends with a newline, or is empty, can be continued *)
Definition ends_line (t : str) : Prop := t = [] \/ exists u, t = u ++ [nl].
Lemma pieces_ends c t u : t = [] \/ (exists v, t = v ++ [c]) -> pieces c (t ++ u) = pieces c t ++ pieces c u.
Proof.
  intros [->|(v & ->)]; [reflexivity|]. revert u. remember (length v) as n eqn:L. revert v L. induction n as [n IH] using lt_wf_ind. intros v L u.
  destruct (in_dec ascii_dec c v) as [I|N].
  - apply in_split in I. destruct I as (a0 & r0 & ->).
    assert (X : exists a r, a0 ++ c :: r0 = a ++ c :: r /\ ~ In c a).
    { clear. induction a0 as [|x a IH]; [exists [], r0; auto|]. destruct (ascii_dec x c) as [->|NE]; [exists [], (a ++ c :: r0); auto|].
      destruct IH as (a' & r' & E & N). exists (x :: a'), r'. cbn [app]. rewrite E. split; auto. intros [H|H]; [congruence|auto]. }
    destruct X as (a & r & X & N). rewrite X in *. replace (((a ++ c :: r) ++ [c]) ++ u) with (a ++ c :: ((r ++ [c]) ++ u)) by (rewrite <- !app_assoc; reflexivity).
    replace ((a ++ c :: r) ++ [c]) with (a ++ c :: (r ++ [c])) by (rewrite <- app_assoc; reflexivity). rewrite !pieces_app by exact N. cbn [app]. f_equal.
    apply (IH (length r)); [|reflexivity]. rewrite L, app_length. cbn. lia.
  - replace ((v ++ [c]) ++ u) with (v ++ c :: u) by (rewrite <- app_assoc; reflexivity). rewrite !pieces_app by exact N. reflexivity.
Qed.

(** *** reading the cells *)
Section Read.
  Context {T : Type} {NT : Num T}.
  Lemma readRow_iff cells (r : vec T) : readRow cells = Ok r <-> Forall2 (fun c v => stod c = Ok v) cells r.
  Proof.
    revert r. induction cells as [|c l IH]; intros r; cbn [readRow]. { split; [intros [= <-]; constructor|]. intros H; inversion H. reflexivity. }
    split.
    - destruct (stod c) as [v|e|] eqn:E; cbn [bind]; try discriminate. destruct (readRow l) as [w|e|] eqn:F; cbn [bind]; try discriminate. intros [= <-]. constructor; [exact E|]. now apply IH.
    - intros H. inversion H as [|? v ? w E F]; subst. rewrite E. apply IH in F. cbn [bind]. now rewrite F.
  Qed.
  Lemma readRows_iff lines (rs : list (vec T)) : readRows lines = Ok rs <-> Forall2 (fun l r => readRow (pieces ","%char l) = Ok r) lines rs.
  Proof.
    revert rs. induction lines as [|c l IH]; intros r; cbn [readRows]. { split; [intros [= <-]; constructor|]. intros H; inversion H. reflexivity. }
    split.
    - destruct (readRow _) as [v|e|] eqn:E; cbn [bind]; try discriminate. destruct (readRows l) as [w|e|] eqn:F; cbn [bind]; try discriminate. intros [= <-]. constructor; [exact E|]. now apply IH.
    - intros H. inversion H as [|? v ? w E F]; subst. rewrite E. apply IH in F. cbn [bind]. now rewrite F.
  Qed.
  Lemma stod_outcomes c : (exists v : T, stod c = Ok v) \/ stod (T := T) c = Throw InvalidArgument \/ stod (T := T) c = Throw OutOfRange.
  Proof. unfold stod. destruct (strtod c) as [[[m e] r]|]; [|auto]. cbv zeta. destruct (nltb _ _); [auto|]. destruct (negb _ && _)%bool; [auto|left; eauto]. Qed.
  Lemma readRow_outcomes cells : (exists v : vec T, readRow cells = Ok v) \/ readRow (T := T) cells = Throw InvalidArgument \/ readRow (T := T) cells = Throw OutOfRange.
  Proof.
    induction cells as [|c l IH]; cbn [readRow]; [eauto|]. destruct (stod_outcomes c) as [(v & ->)|[-> | ->]]; cbn [bind]; auto.
    destruct IH as [(w & ->)|[-> | ->]]; cbn [bind]; eauto.
  Qed.
  Lemma readRows_outcomes lines : (exists v : list (vec T), readRows lines = Ok v) \/ readRows (T := T) lines = Throw InvalidArgument \/ readRows (T := T) lines = Throw OutOfRange.
  Proof.
    induction lines as [|c l IH]; cbn [readRows]; [eauto|]. destruct (readRow_outcomes (pieces ","%char c)) as [(v & ->)|[-> | ->]]; cbn [bind]; auto.
    destruct IH as [(w & ->)|[-> | ->]]; cbn [bind]; eauto.
  Qed.
End Read.

Lemma row_numbers_iff l r : row_numbers l r <-> readRow (pieces ","%char l) = Ok r.
Proof.
  unfold row_numbers. rewrite readRow_iff. split.
  - intros (cells & C & F). apply cut_pieces in C. subst cells. induction F; constructor; auto. now apply stod_number_of.
  - intros F. exists (pieces ","%char l). split; [now apply cut_pieces|]. induction F; constructor; auto. now apply stod_number_of.
Qed.
Lemma text_numbers_iff ls rs : text_numbers ls rs <-> readRows ls = Ok rs.
Proof. unfold text_numbers. rewrite readRows_iff. split; intros F; induction F; constructor; auto; now apply row_numbers_iff. Qed.

(** *** matrices made of rows *)
Lemma nth_flat_map {A} (f : nat -> nat -> A) (r : nat) d : forall n c0 j i, j < n -> i < r ->
  nth (j * r + i) (flat_map (fun j => map (fun i => f i j) (seq 0 r)) (seq c0 n)) d = f i (c0 + j).
Proof.
  induction n as [|n IH]; intros c0 j i Hj Hi; [lia|]. cbn [seq flat_map]. destruct j as [|j].
  - rewrite app_nth1 by (rewrite map_length, seq_length; cbn; lia). cbn [Nat.mul Nat.add]. rewrite (nth_indep _ d (f 0 c0)) by (rewrite map_length, seq_length; lia).
    rewrite (map_nth (fun i => f i c0)), seq_nth by lia. now rewrite Nat.add_0_r.
  - rewrite app_nth2 by (rewrite map_length, seq_length; cbn; lia). rewrite map_length, seq_length. replace (S j * r + i - r) with (j * r + i) by (cbn; lia).
    rewrite IH by lia. f_equal. lia.
Qed.
Lemma flat_map_size {A} (f : nat -> nat -> A) r : forall n c0, length (flat_map (fun j => map (fun i => f i j) (seq 0 r)) (seq c0 n)) = n * r.
Proof. induction n as [|n IH]; intros c0; [reflexivity|]. cbn [seq flat_map]. rewrite app_length, map_length, seq_length, IH. reflexivity. Qed.
Lemma fillMatrix_iff (rs : list (list R)) m : fillMatrix rs = Ok m <-> rs <> [] /\ has_rows m rs.
Proof.
  unfold fillMatrix. destruct rs as [|r0 rs]; [split; [discriminate|intros [H _]; congruence]|]. set (l := r0 :: rs).
  destruct (forallb (fun r => Nat.eqb (length r) (length r0)) l) eqn:B.
  - rewrite forallb_forall in B.
    assert (HR : has_rows (mbuild (length l) (length r0) (fun i j => vget (nth i l []) j)) l).
    { split; [reflexivity|]. split. { intros r I. apply B, Nat.eqb_eq in I. exact I. } split. { cbn [mbuild mdata nrows ncols]. rewrite flat_map_size. apply Nat.mul_comm. }
      intros i j Hi Hj. cbn [nrows ncols mbuild] in Hi, Hj. unfold mget. cbn [mbuild nrows mdata].
      rewrite nth_flat_map by assumption. reflexivity. }
    split; [intros [= <-]; split; [discriminate|exact HR]|]. intros [_ H]. f_equal. destruct HR as (A1 & A2 & A3 & A4). destruct H as (B1 & B2 & B3 & B4).
    set (a := mbuild _ _ _) in *. destruct a as [an ac ad], m as [bn bc bd]. cbn [nrows ncols mdata] in *.
    assert (bc = ac) by (rewrite <- (A2 r0), <- (B2 r0); cbn; auto). subst bc. assert (bn = an) as -> by congruence. clear B1. assert (ad = bd); [|congruence].
    apply (nth_ext _ _ 0%R 0%R); [congruence|]. intros k Hk. rewrite A3 in Hk. assert (an <> 0) by lia. assert (Hm : k mod an < an) by (apply Nat.mod_upper_bound; lia).
    assert (Hd : k / an < ac) by (apply Nat.div_lt_upper_bound; lia). pose proof (A4 (k mod an) (k / an) Hm Hd) as E1. pose proof (B4 (k mod an) (k / an) Hm Hd) as E2. unfold mget in E1, E2. cbn [nrows mdata] in E1, E2.
    replace (k / an * an + k mod an) with k in E1, E2 by (rewrite (Nat.div_mod k an) at 1 by lia; lia). cbn [n0 RNum] in *. congruence.
  - split; [discriminate|]. intros [_ (_ & H & _)]. exfalso. assert (forallb (fun r => Nat.eqb (length r) (length r0)) l = true); [|congruence]. apply forallb_forall. intros r I. apply Nat.eqb_eq.
    rewrite (H r I), (H r0); [reflexivity|now left].
Qed.
Lemma has_rows_rows (m : mat R) : length (mdata m) = nrows m * ncols m -> has_rows m (rows m).
Proof.
  intros W. unfold rows. split; [now rewrite map_length, seq_length|]. split. { intros r I. apply in_map_iff in I. destruct I as (i & <- & _). now rewrite map_length, seq_length. } split; [exact W|].
  intros i j Hi Hj. rewrite (nth_indep _ [] (map (fun j => mget m 0 j) (seq 0 (ncols m)))) by (rewrite map_length, seq_length; exact Hi).
  rewrite (map_nth (fun i => map (fun j => mget m i j) (seq 0 (ncols m)))), seq_nth by exact Hi. rewrite (nth_indep _ 0%R (mget m (0 + i) 0)) by (rewrite map_length, seq_length; exact Hj).
  rewrite (map_nth (fun j => mget m (0 + i) j)), seq_nth by exact Hj. reflexivity.
Qed.
Lemma has_rows_eq m rs rs' : has_rows m rs -> has_rows m rs' -> rs = rs'.
Proof.
  intros (A1 & A2 & _ & A4) (B1 & B2 & _ & B4). apply (nth_ext _ _ [] []); [congruence|]. intros i Hi. assert (i < length rs') by congruence.
  assert (LA : length (nth i rs []) = ncols m) by (apply A2, nth_In; exact Hi). assert (LB : length (nth i rs' []) = ncols m) by (apply B2, nth_In; assumption).
  apply (nth_ext _ _ 0%R 0%R); [congruence|]. intros j Hj. rewrite <- A4, <- B4; auto; lia.
Qed.

(** *** numbers in fixed notation *)
Lemma decimal_bound ds n : decimal ds n -> (0 <= n < 10 ^ Z.of_nat (length ds))%Z.
Proof.
  induction 1 as [|ds n d _ IH L]; [cbn; lia|]. rewrite app_length. cbn [length]. rewrite Nat2Z.inj_add, Z.pow_add_r by lia. change (10 ^ Z.of_nat 1)%Z with 10%Z. nia.
Qed.
Lemma pow10_pos p : (0 < 10 ^ p)%R.
Proof. apply pow_lt. lra. Qed.
Lemma IZR_pow10 p : IZR (10 ^ Z.of_nat p) = (10 ^ p)%R.
Proof. rewrite <- pow_IZR. reflexivity. Qed.
Lemma ndblmin_small p : (p <= 300)%nat -> (ndblmin <= / 10 ^ p)%R.
Proof.
  intros Hp. apply Rle_trans with (/ 10 ^ 300)%R.
  - cbn [ndblmin RNum]. change (-1022)%Z with (Z.opp 1022). rewrite powerRZ_neg'. apply Rinv_le_contravar; [apply pow10_pos|].
    change 1022%Z with (Z.of_nat 1022). rewrite <- pow_powerRZ. rewrite <- IZR_pow10, pow_IZR. apply IZR_le. vm_compute. discriminate.
  - apply Rinv_le_contravar; [apply pow10_pos|]. apply Rle_pow; [lra|exact Hp].
Qed.
(** the text holds no separator, is not empty, and reads as the rounded number *)
Lemma fixed_chars_of p x t : fixed_text_of p x t -> t <> [] /\ forall c, In c t -> is_digit c = true \/ c = "."%char \/ c = "-"%char.
Proof.
  intros (ip & n & fp & f & D & NE & DF & L & -> & _). apply decimal_digits in D, DF. unfold all_digits in *. rewrite Forall_forall in D, DF. split.
  - intros H. apply app_eq_nil in H. destruct H as [_ H]. apply app_eq_nil in H. tauto.
  - intros c I. apply in_app_or in I. destruct I as [I|I]. { destruct (Rltb x 0); [destruct I as [<-|[]]; auto|destruct I]. }
    apply in_app_or in I. destruct I as [I|I]; [auto|]. destruct p; [destruct I|]. destruct I as [<-|I]; auto.
Qed.
Lemma fixed_separators p x t : fixed_text_of p x t -> t <> [] /\ ~ In ","%char t /\ ~ In nl t.
Proof.
  intros H. apply fixed_chars_of in H. destruct H as [NE H]. split; [exact NE|]. split; intros I; apply H in I; destruct I as [I|[I|I]]; discriminate I.
Qed.
Lemma fixed_reads p x t : (p <= 300)%nat -> fixed_text_of p x t -> in_range x -> exists y, stod t = Ok y /\ rounds p x y.
Proof.
  intros Hp (ip & n & fp & f & D & NE & DF & L & -> & E) B. set (neg := Rltb x 0). set (M := (n * 10 ^ Z.of_nat p + f)%Z).
  pose proof (decimal_nonneg _ _ D) as N0. pose proof (decimal_nonneg _ _ DF) as F0.
  assert (PM : (0 <= M)%Z) by (unfold M; assert (0 <= 10 ^ Z.of_nat p)%Z by (apply Z.pow_nonneg; lia); nia).
  set (sg := if neg then lit "-" else ([] : str)). assert (G : sign_text neg sg) by (unfold sg; destruct neg; constructor).
  assert (P : exists r, strtod (sg ++ ip ++ (match p with 0 => [] | _ => lit "." ++ fp end)) = Some (with_sign neg M, (0 - Z.of_nat p)%Z, r)).
  { destruct p as [|p].
    - destruct fp; [|discriminate]. inversion DF as [Hf|? ? ? ? ? Hf]; [|destruct ds; discriminate]. subst f.
      assert (Q : number_text ([] ++ sg ++ ip ++ [] ++ [] ++ []) (with_sign neg (n * 10 ^ Z.of_nat 0 + 0)) (0 - Z.of_nat 0)).
      { apply number_is; auto; constructor. }
      destruct (strtod_reads _ _ _ Q) as (r & Hr). exists r. cbn [app] in Hr. rewrite Hr. unfold M. reflexivity.
    - exists []. pose proof (strtod_point [] neg sg ip _ fp _ (Forall_nil _) G D DF NE) as Q. cbn [app] in Q. rewrite Q, L. reflexivity. }
  destruct P as (r & P). exists (IZR (with_sign neg M) / 10 ^ p)%R.
  assert (E' : (- / 2 <= IZR M - Rabs x * 10 ^ p <= / 2)%R) by (apply Rabs_le_between; exact E). pose proof (pow10_pos p) as T.
  assert (M0 : (0 <= IZR M)%R) by (apply IZR_le; exact PM).
  assert (LV : @nlit R _ (with_sign neg M) (0 - Z.of_nat p) = (IZR (with_sign neg M) / 10 ^ p)%R).
  { cbn [nlit RNum]. unfold Rlit, Rdiv. f_equal. rewrite Z.sub_0_l, powerRZ_neg'. f_equal. now rewrite <- pow_powerRZ. }
  assert (AV : (Rabs (IZR (with_sign neg M) / 10 ^ p) = IZR M / 10 ^ p)%R).
  { unfold Rdiv. rewrite Rabs_mult, (Rabs_pos_eq (/ 10 ^ p)) by (left; now apply Rinv_0_lt_compat). f_equal. unfold with_sign. destruct neg; [rewrite opp_IZR, Rabs_Ropp|]; apply Rabs_pos_eq; exact M0. }
  assert (OneT : (1 <= 10 ^ p)%R) by (apply pow_R1_Rle; lra).
  split.
  - unfold stod. match goal with |- match strtod ?t with _ => _ end = _ => replace (strtod t) with (Some (with_sign neg M, (0 - Z.of_nat p)%Z, r)) by (symmetry; exact P) end. cbv zeta. rewrite LV. change (nabs (IZR (with_sign neg M) / 10 ^ p)%R) with (Rabs (IZR (with_sign neg M) / 10 ^ p)). rewrite AV.
    change (@nltb R _) with Rltb. unfold in_range in B.
    assert (U : (IZR M / 10 ^ p <= Rabs x + 1)%R). { apply (Rmult_le_reg_r (10 ^ p)); [exact T|]. unfold Rdiv. rewrite Rmult_assoc, Rinv_l, Rmult_1_r by lra. nra. }
    destruct (Rltb_spec ndblmax (IZR M / 10 ^ p)) as [X|_]; [lra|].
    destruct (Z.eqb_spec (with_sign neg M) 0) as [Z0|Z0]; cbn [negb andb]; [reflexivity|].
    destruct (Rltb_spec (IZR M / 10 ^ p) ndblmin) as [X|_]; [|reflexivity]. exfalso.
    assert (1 <= IZR M)%R. { apply IZR_le. unfold with_sign in Z0. destruct neg; lia. }
    pose proof (ndblmin_small p Hp) as S. assert (/ 10 ^ p <= IZR M / 10 ^ p)%R; [|lra]. unfold Rdiv. rewrite <- (Rmult_1_l (/ 10 ^ p)) at 1. apply Rmult_le_compat_r; [|exact H]. left. now apply Rinv_0_lt_compat.
  - split; [exists (with_sign neg M); reflexivity|].
    assert (Q : (IZR (with_sign neg M) / 10 ^ p - x = (IZR (with_sign neg M) - x * 10 ^ p) / 10 ^ p)%R) by (field; lra). rewrite Q.
    unfold Rdiv. rewrite Rabs_mult, (Rabs_pos_eq (/ 10 ^ p)) by (left; now apply Rinv_0_lt_compat). apply Rmult_le_compat_r; [left; now apply Rinv_0_lt_compat|].
    unfold with_sign. unfold neg. destruct (Rltb_spec x 0) as [X|X].
    + rewrite Rabs_left in E' by exact X. rewrite opp_IZR. apply Rabs_le. lra.
    + rewrite Rabs_pos_eq in E' by lra. apply Rabs_le. lra.
Qed.
(** a multiple of 10^-p is its own rounding *)
Lemma rounds_decimals p x y : decimals p x -> rounds p x y -> y = x.
Proof.
  intros (k & ->) ((j & ->) & E). pose proof (pow10_pos p) as T.
  assert (Q : (IZR j / 10 ^ p - IZR k / 10 ^ p = IZR (j - k) / 10 ^ p)%R) by (rewrite minus_IZR; field; lra). rewrite Q in E. unfold Rdiv in E at 1.
  rewrite Rabs_mult, (Rabs_pos_eq (/ 10 ^ p)) in E by (left; now apply Rinv_0_lt_compat). unfold Rdiv in E. apply Rmult_le_reg_r in E; [|now apply Rinv_0_lt_compat].
  rewrite <- abs_IZR in E. assert (Z.abs (j - k) < 1)%Z by (apply lt_IZR; lra). assert (j = k) by lia. now subst.
Qed.
(** every number has a text *)
Fixpoint digits (p : nat) (n : Z) : str := match p with O => [] | S q => digits q (n / 10) ++ [digit (Z.to_nat (n mod 10))] end.
Lemma digits_ok p : forall n, (0 <= n < 10 ^ Z.of_nat p)%Z -> decimal (digits p n) n /\ length (digits p n) = p.
Proof.
  induction p as [|p IH]; intros n B. { cbn in *. assert (n = 0)%Z by lia. subst. split; [constructor|reflexivity]. }
  rewrite Nat2Z.inj_succ, Z.pow_succ_r in B by lia. assert (Q : (0 <= n / 10 < 10 ^ Z.of_nat p)%Z) by (split; [apply Z.div_pos; lia|apply Z.div_lt_upper_bound; lia]).
  destruct (IH _ Q) as [D L]. pose proof (Z.mod_pos_bound n 10 ltac:(lia)) as MB. cbn [digits]. rewrite app_length, L. split; [|cbn; lia].
  rewrite (Z.div_mod n 10) at 3 by lia. rewrite <- (Z2Nat.id (n mod 10)) at 2 by lia. apply dec_snoc; [exact D|lia].
Qed.
Definition show_fixed (p : nat) (x : R) : str :=
  let M := Int_part (Rabs x * 10 ^ p + / 2) in
  (if Rltb x 0 then lit "-" else []) ++ int_text (M / 10 ^ Z.of_nat p) ++ (match p with 0 => [] | _ => lit "." ++ digits p (M mod 10 ^ Z.of_nat p) end).
Lemma int_text_nat n : (0 <= n)%Z -> decimal (int_text n) n /\ int_text n <> [].
Proof. intros H. unfold int_text. destruct (Z.ltb_spec n 0); [lia|]. cbn [app]. destruct (abs_text n) as [D NE]. cbv zeta in D, NE. rewrite (Z.abs_eq n H) in *. auto. Qed.
Lemma show_fixed_ok p x : fixed_text_of p x (show_fixed p x).
Proof.
  unfold show_fixed. set (y := (Rabs x * 10 ^ p + / 2)%R). set (M := Int_part y). pose proof (base_Int_part y) as [B1 B2]. fold M in B1, B2.
  assert (Y : (0 < y)%R) by (unfold y; pose proof (Rabs_pos x); pose proof (pow10_pos p); nra). assert (M0 : (0 <= M)%Z) by (apply Z.lt_succ_r, lt_IZR; rewrite succ_IZR; lra).
  assert (T0 : (0 < 10 ^ Z.of_nat p)%Z) by (apply Z.pow_pos_nonneg; lia). destruct (int_text_nat (M / 10 ^ Z.of_nat p)) as [D NE]; [apply Z.div_pos; lia|].
  destruct (digits_ok p (M mod 10 ^ Z.of_nat p)) as [DF L]; [apply Z.mod_pos_bound; lia|].
  exists (int_text (M / 10 ^ Z.of_nat p)), (M / 10 ^ Z.of_nat p)%Z, (digits p (M mod 10 ^ Z.of_nat p)), (M mod 10 ^ Z.of_nat p)%Z. repeat split; auto.
  replace (M / 10 ^ Z.of_nat p * 10 ^ Z.of_nat p + M mod 10 ^ Z.of_nat p)%Z with M by (rewrite (Z.div_mod M (10 ^ Z.of_nat p)) at 1 by lia; ring).
  apply Rabs_le. unfold y in *. lra.
Qed.
