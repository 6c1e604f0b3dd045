(** The design of experiments performed by the API. *)
From Coq Require Import Ascii String ZArith Bool Arith List Lia.
From Verif Require Import Base StM Num VecModel MatModel MatSpec MatLemmas MatProofs MatProofs2 BoundsModel StrModel StrSpec StrReal KrigModel ApiModel ApiSpec ApiText ApiProofs.
Import ListNotations.

Section ApiDoE.
  Context {T : Type} {NT : Num T}.
  Implicit Types s : api T.

  (** *** files *)
  Lemma str_eqb_refl a : str_eqb a a = true.
  Proof. apply str_eqb_eq. reflexivity. Qed.
  Lemma str_eqb_neq a b : a <> b -> str_eqb a b = false.
  Proof. intros H. destruct (str_eqb a b) eqn:E; auto. apply str_eqb_eq in E. congruence. Qed.
  Lemma put_put n (m m' : mat T) l : file_put n m' (file_put n m l) = file_put n m' l.
  Proof.
    induction l as [|[k v] t IH]; cbn [file_put].
    - now rewrite str_eqb_refl.
    - destruct (str_eqb k n) eqn:E; cbn [file_put]; rewrite E; [reflexivity|]. now rewrite IH.
  Qed.
  Lemma get_put n (m : mat T) l : file_get n (file_put n m l) = Some m.
  Proof.
    unfold file_get. induction l as [|[k v] t IH]; cbn [file_put List.find fst].
    - now rewrite str_eqb_refl.
    - destruct (str_eqb k n) eqn:E; cbn [List.find fst]; rewrite E; auto.
  Qed.
  Lemma get_put_other n k (m : mat T) l : k <> n -> file_get k (file_put n m l) = file_get k l.
  Proof.
    intros H. unfold file_get. induction l as [|[a v] t IH]; cbn [file_put List.find fst].
    - now rewrite str_eqb_neq by congruence.
    - destruct (str_eqb a n) eqn:E; cbn [List.find fst].
      + apply str_eqb_eq in E. subst a. now rewrite str_eqb_neq by congruence.
      + destruct (str_eqb a k); auto.
  Qed.
  Definition puts (l : list (str * mat T)) (fs : list (str * mat T)) : list (str * mat T) := fold_left (fun fs p => file_put (fst p) (snd p) fs) l fs.
  Lemma get_puts_other n l fs : ~ In n (map fst l) -> file_get n (puts l fs) = file_get n fs.
  Proof.
    revert fs. induction l as [|[k m] t IH]; intros fs H; cbn [puts fold_left fst snd]; auto. fold (puts t (file_put k m fs)).
    rewrite IH. { apply get_put_other. intros ->. apply H. left. reflexivity. } intros X. apply H. right. exact X.
  Qed.
  Lemma get_puts n m l fs : NoDup (map fst l) -> In (n, m) l -> file_get n (puts l fs) = Some m.
  Proof.
    revert fs. induction l as [|[k v] t IH]; intros fs N H; [destruct H|]. cbn [puts fold_left fst snd]. fold (puts t (file_put k v fs)).
    cbn in N. inversion N as [|? ? N1 N2]; subst. destruct H as [H|H].
    - injection H as -> ->. rewrite get_puts_other by exact N1. apply get_put.
    - apply IH; auto.
  Qed.

  (** *** one row more *)
  Lemma add_sample_ok td x y d : table td -> (0 < nrows td -> ncols td = S d) -> length x = d ->
    exists td', add_sample td x y = Ok td' /\ table td' /\ rows td' = rows td ++ [x ++ [y]] /\ ncols td' = S d.
  Proof.
    intros Ht Hc Hx. pose proof (addRow_step td (x ++ [y]) (-1) Ht ltac:(lia)) as H.
    assert (length (x ++ [y]) = S d) as L by (rewrite app_length; cbn; lia).
    specialize (H ltac:(intros E; rewrite E in L; discriminate)). cbn [spec_rowop] in H. change ((-1 =? -1)%Z) with true in H. cbn [andb] in H.
    rewrite fits_rows, rows_length, L in H by exact Ht.
    assert ((Nat.eqb (nrows td) 0 || Nat.eqb (S d) (ncols td))%bool = true) as F. { destruct (Nat.eqb_spec (nrows td) 0); auto. rewrite Hc by lia. rewrite Nat.eqb_refl. reflexivity. }
    rewrite F, Z.leb_refl in H. cbn [andb] in H. destruct H as (m' & E & H1 & H2 & H3).
    exists m'. unfold add_sample. rewrite E. cbn [rmap bind]. split; [reflexivity|]. split; auto. split; auto.
    rewrite H2, Nat2Z.id. unfold insert_at. rewrite <- rows_length, firstn_all, skipn_all. reflexivity.
  Qed.
  Lemma tab_snoc (f : ufun T) xs td td' x y : tabulates f xs td -> f x = Ok y -> table td' -> rows td' = rows td ++ [x ++ [y]] -> tabulates f (xs ++ [x]) td'.
  Proof. intros [H1 H2] E Ht R. split; auto. rewrite R. apply Forall2_app; auto. constructor; [|constructor]. eauto. Qed.
  Lemma firstn_S_nth {A} (l : list A) i d : i < length l -> firstn (S i) l = firstn i l ++ [nth i l d].
  Proof. revert l. induction i as [|i IH]; intros [|a l] H; cbn in *; try lia; auto. now rewrite IH by lia. Qed.
  Lemma tab_empty (f : ufun T) : tabulates f [] mat_empty.
  Proof. split. { unfold table, wf, mat_empty. cbn. split; [reflexivity|lia]. } constructor. Qed.

  (** the samples are a table of n rows with d entries *)
  Definition samples_ok (d n : nat) (m : mat T) : Prop := nrows m = n /\ ncols m = d.
  Lemma row_len d n m i : samples_ok d n m -> i < n -> length (nth i (rows m) []) = d.
  Proof. intros [<- <-] Hi. rewrite nth_rows by exact Hi. apply mrow_length. Qed.

  Lemma objective_rows W (f : ufun T) d N n : forall i td s, samples_ok d N (a_samples s) -> i + n <= N ->
    tabulates f (firstn i (rows (a_samples s))) td -> (0 < nrows td -> ncols td = S d) ->
    exists k s' r td', doe_objective W f (seq i n) td s = (s', r) /\ k <= n /\ tabulates f (firstn (i + k) (rows (a_samples s))) td' /\
      s' = (if Nat.eqb k 0 then s else w_a_files (file_put (a_file s) td' (a_files s)) s) /\
      ((r = Ok tt /\ k = n /\ (W (a_file s) = true \/ n = 0)) \/
       (k < n /\ isOk (f (nth (i + k) (rows (a_samples s)) [])) = false /\ r = rmap (fun _ => tt) (as_runtime (f (nth (i + k) (rows (a_samples s)) [])))) \/
       (k = 0 /\ 0 < n /\ W (a_file s) = false /\ r = Throw RuntimeError)).
  Proof.
    induction n as [|n IH]; intros i td s Hs Hi Ht Hc; cbn [seq doe_objective].
    - exists 0, s, (Ok tt), td. rewrite Nat.add_0_r. split; [reflexivity|]. split; auto. split; auto. split; [reflexivity|]. left. auto.
    - pose proof Hs as [Hn Hd].
      set (x := nth i (rows (a_samples s)) []) in *.
      unfold sbind at 1. cbn [sget]. unfold sbind at 1. cbn [slift]. rewrite (getRow_ok (a_samples s) i) by (auto; lia). fold x.
      destruct (f x) as [y|e|] eqn:F.
      2:{ exists 0, s, (match e with AssertFail => Throw AssertFail | _ => Throw RuntimeError end), td. rewrite Nat.add_0_r. fold x. unfold sbind, slift. rewrite F. split. { destruct e; reflexivity. }
          split; [lia|]. split; auto. split; [reflexivity|]. right. left. split; [lia|]. split; [reflexivity|]. destruct e; reflexivity. }
      2:{ exists 0, s, UB, td. rewrite Nat.add_0_r. fold x. unfold sbind, slift. rewrite F. split; [reflexivity|]. split; [lia|]. split; auto. split; [reflexivity|]. right. left. split; [lia|]. split; reflexivity. }
      destruct (add_sample_ok td x y d (proj1 Ht) Hc (row_len d N _ i Hs ltac:(lia))) as (td1 & E1 & T1 & R1 & C1).
      assert (tabulates f (firstn (S i) (rows (a_samples s))) td1) as Ht1. { rewrite (firstn_S_nth _ i []) by (rewrite rows_length; lia). fold x. eapply tab_snoc; eauto. }
      cbn [as_runtime]. unfold sbind at 1. cbn [slift]. unfold sbind at 1. rewrite E1. cbn [slift]. unfold sbind at 1. unfold save at 1. unfold sbind at 1, sthrow_if at 1.
      destruct (W (a_file s)) eqn:HW; cbn [negb sthrow sret].
      2:{ exists 0, s, (Throw RuntimeError), td. rewrite Nat.add_0_r. split; [reflexivity|]. split; [lia|]. split; auto. split; [reflexivity|]. right. right. split; auto. split; [lia|]. auto. }
      cbn [smod]. set (s1 := w_a_files (file_put (a_file s) td1 (a_files s)) s).
      destruct (IH (S i) td1 s1 Hs ltac:(lia) Ht1 (fun _ => C1)) as (k & s' & r & td' & E & Hk & Htd & Hs' & Hr).
      replace (S i + k) with (i + S k) in * by lia. change (a_samples s1) with (a_samples s) in *. change (a_file s1) with (a_file s) in *.
      exists (S k), s', r, (if Nat.eqb k 0 then td1 else td'). split; [exact E|]. split; [lia|].
      split. { destruct (Nat.eqb_spec k 0) as [->|]; auto. rewrite Nat.add_1_r. exact Ht1. }
      split. { cbn [Nat.eqb]. subst s'. destruct (Nat.eqb_spec k 0) as [->|]; [reflexivity|]. unfold s1. cbn [a_files w_a_files]. rewrite put_put. reflexivity. }
      destruct Hr as [(-> & -> & _)|[(K & F' & ->)|(-> & K & HW' & ->)]].
      + left. auto.
      + right. left. split; [lia|]. auto.
      + congruence.
  Qed.
  Lemma constraint_rows (f : ufun T) d N m n : forall i td, samples_ok d N m -> i + n <= N ->
    tabulates f (firstn i (rows m)) td -> (0 < nrows td -> ncols td = S d) ->
    (exists td', doe_rows m f (seq i n) td = Ok td' /\ tabulates f (firstn (i + n) (rows m)) td') \/
    (exists k, i <= k < i + n /\ isOk (f (nth k (rows m) [])) = false /\ doe_rows m f (seq i n) td = rmap (fun _ => td) (f (nth k (rows m) []))).
  Proof.
    induction n as [|n IH]; intros i td Hs Hi Ht Hc; cbn [seq doe_rows].
    - left. exists td. rewrite Nat.add_0_r. auto.
    - pose proof Hs as [Hn Hd]. rewrite (getRow_ok m i) by (auto; lia). cbn [bind]. set (x := nth i (rows m) []) in *.
      destruct (f x) as [y|e|] eqn:F; cbn [bind].
      2,3: right; exists i; fold x; rewrite F; split; [lia|]; split; reflexivity.
      destruct (add_sample_ok td x y d (proj1 Ht) Hc (row_len d N _ i Hs ltac:(lia))) as (td1 & E1 & T1 & R1 & C1). rewrite E1. cbn [bind].
      assert (tabulates f (firstn (S i) (rows m)) td1) as Ht1. { rewrite (firstn_S_nth _ i []) by (rewrite rows_length; lia). fold x. eapply tab_snoc; eauto. }
      destruct (IH (S i) td1 Hs ltac:(lia) Ht1 (fun _ => C1)) as [(td' & E & H)|(k & K & F' & E)].
      + left. exists td'. rewrite <- Nat.add_succ_comm. auto.
      + right. exists k. split; [lia|]. split; auto. rewrite E. destruct (f (nth k (rows m) [])); [discriminate F'|reflexivity|reflexivity].
  Qed.
  Definition writes (xs : list (list T)) (p : ufun T * str) (w : str * mat T) : Prop := fst w = snd p /\ tabulates (fst p) xs (snd w).
  (** the constraints in turn; [cs] are the pairs (function, file) *)
  Lemma constraints_files W d N : forall cs0 cs1 s s0, a_cptrs s0 = map fst (cs0 ++ cs1) -> a_cfiles s0 = map snd (cs0 ++ cs1) -> samples_ok d N (a_samples s0) -> a_ns s0 = N ->
    exists k ws r, sfor (seq (length cs0) (length cs1)) (fun k =>
      match nth_error (a_cptrs s0) k, nth_error (a_cfiles s0) k with
      | Some f, Some file =>
          get td <-- slift (doe_rows (a_samples s0) f (seq 0 (a_ns s0)) mat_empty);
          save W file td
      | _, _ => slift UB
      end) s = (w_a_files (puts ws (a_files s)) s, r) /\ Forall2 (writes (rows (a_samples s0))) (firstn k cs1) ws /\ k <= length cs1 /\
      ((r = Ok tt /\ k = length cs1 /\ forall p, In p cs1 -> W (snd p) = true) \/
       (exists f file, nth_error cs1 k = Some (f, file) /\ ((exists i, i < N /\ isOk (f (nth i (rows (a_samples s0)) [])) = false /\ r = rmap (fun _ => tt) (f (nth i (rows (a_samples s0)) []))) \/ (W file = false /\ r = Throw RuntimeError)))).
  Proof.
    intros cs0 cs1. revert cs0. induction cs1 as [|[f file] cs1 IH]; intros cs0 s s0 Hp Hf Hs HN; cbn [length seq sfor].
    - exists 0, [], (Ok tt). split. { unfold sret, puts. cbn. destruct s; reflexivity. } split; [constructor|]. split; auto.
    - assert (nth_error (a_cptrs s0) (length cs0) = Some f) as E1. { rewrite Hp, map_app, nth_error_app2 by (rewrite map_length; lia). rewrite map_length, Nat.sub_diag. reflexivity. }
      assert (nth_error (a_cfiles s0) (length cs0) = Some file) as E2. { rewrite Hf, map_app, nth_error_app2 by (rewrite map_length; lia). rewrite map_length, Nat.sub_diag. reflexivity. }
      unfold sbind at 1. rewrite E1, E2. unfold sbind at 1. cbn [slift].
      destruct (constraint_rows f d N (a_samples s0) N 0 mat_empty Hs ltac:(lia) (tab_empty f)) as [(td & E & Ht)|(i & Hi & F & E)]. { cbn. lia. }
      + rewrite HN, E. unfold save at 1. unfold sbind at 1, sthrow_if at 1. destruct (W file) eqn:HW; cbn [negb sthrow sret].
        * cbn [smod]. destruct (IH (cs0 ++ [(f, file)]) (w_a_files (file_put file td (a_files s)) s) s0) as (k & ws & r & Q & Q1 & Q2 & Q3). { rewrite <- app_assoc. exact Hp. } { rewrite <- app_assoc. exact Hf. } { exact Hs. } { exact HN. }
          rewrite app_length, Nat.add_1_r in Q. rewrite HN in Q. exists (S k), ((file, td) :: ws), r. split. { exact Q. } split.
          { cbn [firstn]. constructor; auto. split; auto. cbn [fst snd]. destruct Hs as [Hn _]. rewrite firstn_all2 in Ht by (rewrite rows_length; lia). exact Ht. } split; [cbn; lia|]. cbn [nth_error]. destruct Q3 as [(-> & -> & Q3)|Q3].
          { left. split; auto. split; auto. intros p [<-|P]; auto. } right. exact Q3.
        * exists 0, [], (Throw RuntimeError). split. { cbn. destruct s; reflexivity. } split; [constructor|]. split; [lia|]. right. exists f, file. split; auto.
      + rewrite HN, E. exists 0, [], (rmap (fun _ => tt) (f (nth i (rows (a_samples s0)) []))). split.
        { destruct (f (nth i (rows (a_samples s0)) [])); [discriminate F| |]; cbn; destruct s; reflexivity. } split; [constructor|]. split; [lia|].
        right. exists f, file. split; auto. left. exists i. split; [lia|]. auto.
  Qed.
  Lemma doe_constraints_ok W d N cs s : a_cptrs s = map fst cs -> a_cfiles s = map snd cs -> a_nc s = length cs -> cs <> [] -> samples_ok d N (a_samples s) -> a_ns s = N ->
    exists k ws r, doe_constraints W s = (w_a_files (puts ws (a_files s)) s, r) /\ Forall2 (writes (rows (a_samples s))) (firstn k cs) ws /\ k <= length cs /\
      ((r = Ok tt /\ k = length cs /\ forall p, In p cs -> W (snd p) = true) \/
       (exists f file, nth_error cs k = Some (f, file) /\ ((exists i, i < N /\ isOk (f (nth i (rows (a_samples s)) [])) = false /\ r = rmap (fun _ => tt) (f (nth i (rows (a_samples s)) []))) \/ (W file = false /\ r = Throw RuntimeError)))).
  Proof.
    intros H1 H2 H3 H4 H5 H6. unfold doe_constraints. unfold sbind at 1. cbn [sget]. unfold sbind at 1, sthrow_if at 1.
    assert (is_empty (a_cptrs s) = false) as ->. { rewrite H1. destruct cs; [congruence|reflexivity]. } cbn [sret]. rewrite H3.
    exact (constraints_files W d N [] cs s s H1 H2 H5 H6).
  Qed.
End ApiDoE.
