(** Outcomes, loops and array updates shared by all model files.
    Nothing here models a particular line of /repo; it fixes how C++ control flow is rendered. *)
From Coq Require Import List Arith Lia ZArith Bool.
Import ListNotations.

(** Exception classes thrown by /repo (std::invalid_argument, std::out_of_range, std::runtime_error,
    std::logic_error); [AssertFail] is a failed assert(). *)
Inductive exn := InvalidArgument | OutOfRange | RuntimeError | LogicError | AssertFail.

(** Outcome of a C++ call: a value, an exception, or undefined behaviour. *)
Inductive Res (A : Type) : Type :=
| Ok (a : A)
| Throw (e : exn)
| UB.
Arguments Ok {A} a.
Arguments Throw {A} e.
Arguments UB {A}.

Definition bind {A B} (r : Res A) (f : A -> Res B) : Res B :=
  match r with Ok a => f a | Throw e => Throw e | UB => UB end.
Notation "x <- r ;; k" := (bind r (fun x => k)) (at level 61, r at next level, right associativity).

Definition rmap {A B} (f : A -> B) (r : Res A) : Res B := bind r (fun a => Ok (f a)).
Definition isOk {A} (r : Res A) : bool := match r with Ok _ => true | _ => false end.

(** [for (k = 0; k < n; k++) body] as a state transformer. *)
Fixpoint loop {S : Type} (n : nat) (f : nat -> S -> S) (s : S) : S :=
  match n with
  | O => s
  | Datatypes.S k => f k (loop k f s)
  end.

(** [for (k = lo; k < hi; k++) body]. *)
Definition loop_from {S : Type} (lo hi : nat) (f : nat -> S -> S) (s : S) : S :=
  loop (hi - lo) (fun k => f (lo + k)) s.

(** [for (k = n-1; k >= 0; k--) body]. *)
Definition loop_down {S : Type} (n : nat) (f : nat -> S -> S) (s : S) : S :=
  loop n (fun k => f (n - 1 - k)) s.

(** Loop whose body may throw. *)
Fixpoint loopR {S : Type} (n : nat) (f : nat -> S -> Res S) (s : S) : Res S :=
  match n with
  | O => Ok s
  | Datatypes.S k => bind (loopR k f s) (f k)
  end.

(** Array element assignment [l[i] = v] (no effect outside the array; callers guard). *)
Fixpoint upd {A} (l : list A) (i : nat) (v : A) : list A :=
  match l, i with
  | [], _ => []
  | _ :: t, O => v :: t
  | h :: t, S k => h :: upd t k v
  end.

Lemma loop_inv {S : Type} (P : nat -> S -> Prop) n f s :
  P 0 s -> (forall k t, k < n -> P k t -> P (Datatypes.S k) (f k t)) -> P n (loop n f s).
Proof.
  intros H0 HS. assert (forall m, m <= n -> P m (loop m f s)) as H.
  { induction m; simpl; intros; auto. apply HS; try lia. apply IHm; lia. }
  apply H; lia.
Qed.

Lemma loop_from_inv {S : Type} (P : nat -> S -> Prop) lo hi f s :
  lo <= hi -> P lo s -> (forall k t, lo <= k < hi -> P k t -> P (Datatypes.S k) (f k t)) ->
  P hi (loop_from lo hi f s).
Proof.
  intros Hle H0 HS. unfold loop_from.
  assert (P (lo + (hi - lo)) (loop (hi - lo) (fun k => f (lo + k)) s)) as H.
  { apply (loop_inv (fun k t => P (lo + k) t)).
    - rewrite Nat.add_0_r; auto.
    - intros k t Hk Hp. replace (lo + Datatypes.S k) with (Datatypes.S (lo + k)) by lia. apply HS; [lia|auto]. }
  replace (lo + (hi - lo)) with hi in H by lia. exact H.
Qed.

Lemma loop_down_inv {S : Type} (P : nat -> S -> Prop) n f s :
  P n s -> (forall k t, k < n -> P (Datatypes.S k) t -> P k (f k t)) -> P 0 (loop_down n f s).
Proof.
  intros H0 HS. unfold loop_down.
  assert (P (n - n) (loop n (fun k => f (n - 1 - k)) s)) as H.
  { apply (loop_inv (fun k t => P (n - k) t)).
    - rewrite Nat.sub_0_r; auto.
    - intros k t Hk Hp. replace (n - Datatypes.S k) with (n - 1 - k) by lia.
      apply HS; [lia|]. replace (Datatypes.S (n - 1 - k)) with (n - k) by lia. auto. }
  replace (n - n) with 0 in H by lia. exact H.
Qed.

Lemma loop_ext {S : Type} n (f g : nat -> S -> S) s :
  (forall k t, k < n -> f k t = g k t) -> loop n f s = loop n g s.
Proof.
  intros H. induction n; simpl; auto. rewrite IHn, H; auto.
Qed.

Lemma loopR_inv {S : Type} (P : nat -> S -> Prop) n f s s' :
  P 0 s -> (forall k t t', k < n -> P k t -> f k t = Ok t' -> P (Datatypes.S k) t') ->
  loopR n f s = Ok s' -> P n s'.
Proof.
  revert s'. induction n; simpl; intros s' H0 HS H.
  - inversion H; subst; auto.
  - destruct (loopR n f s) eqn:E; simpl in H; try discriminate.
    eapply HS; eauto.
Qed.

Lemma upd_length {A} (l : list A) i v : length (upd l i v) = length l.
Proof. revert i; induction l; destruct i; simpl; auto. Qed.

Lemma nth_upd_same {A} (l : list A) i v d : i < length l -> nth i (upd l i v) d = v.
Proof. revert i; induction l; destruct i; simpl; intros; auto; try lia. apply IHl; lia. Qed.

Lemma nth_upd_other {A} (l : list A) i j v d : i <> j -> nth j (upd l i v) d = nth j l d.
Proof. revert i j; induction l; destruct i, j; simpl; intros; auto; try lia. Qed.

Lemma nth_upd {A} (l : list A) i j v d :
  i < length l -> nth j (upd l i v) d = if Nat.eqb i j then v else nth j l d.
Proof.
  intros H. destruct (Nat.eqb_spec i j).
  - subst; apply nth_upd_same; auto.
  - apply nth_upd_other; auto.
Qed.

Lemma nth_map_seq {A} (f : nat -> A) n lo i d : i < n -> nth i (map f (seq lo n)) d = f (lo + i).
Proof.
  intros H. rewrite (nth_indep _ d (f 0)) by (rewrite map_length, seq_length; auto).
  rewrite map_nth, seq_nth; auto.
Qed.

Lemma list_ext {A} (l1 l2 : list A) d :
  length l1 = length l2 -> (forall i, i < length l1 -> nth i l1 d = nth i l2 d) -> l1 = l2.
Proof. intros; eapply nth_ext; eauto. Qed.

Lemma forallb_seq (n : nat) (p : nat -> bool) :
  forallb p (seq 0 n) = true <-> (forall i, i < n -> p i = true).
Proof.
  rewrite forallb_forall. split; intros H i Hi.
  - apply H, in_seq; lia.
  - apply in_seq in Hi; apply H; lia.
Qed.

Lemma existsb_seq (n : nat) (p : nat -> bool) :
  existsb p (seq 0 n) = true <-> (exists i, i < n /\ p i = true).
Proof.
  rewrite existsb_exists. split.
  - intros [i [Hi Hp]]; apply in_seq in Hi; exists i; split; auto; lia.
  - intros [i [Hi Hp]]; exists i; split; auto. apply in_seq; lia.
Qed.
