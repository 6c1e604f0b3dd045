(** Specification vocabulary for the API, written without the model's parsing functions. *)
From Coq Require Import Ascii String ZArith Bool Arith List.
From Verif Require Import Base Num MatModel MatSpec StrModel StrSpec ApiModel.
Import ListNotations.

(** [s] starts, after white space, with a decimal number that is not continued by the text after it; the number is m * 10^e.
    Digits may stand before the point, after it, or on both sides. *)
Inductive leading_number : str -> Z -> Z -> Prop :=
| leading_is sp neg sg ip n ft k f et e r :
    Forall (fun c => In c spaces) sp -> sign_text neg sg -> decimal ip n -> fraction_text ft k f -> (ip <> [] \/ k <> 0) -> exponent_text et e ->
    not_digit_next r -> (et = [] -> hd_error r <> Some "e"%char /\ hd_error r <> Some "E"%char) -> (ft = [] -> et = [] -> hd_error r <> Some "."%char) ->
    leading_number (sp ++ sg ++ ip ++ ft ++ et ++ r) (with_sign neg (n * 10 ^ Z.of_nat k + f)) (e - Z.of_nat k).

(** the expression of a constraint: a name, an inequality sign between blanks, a number; anything may follow the number *)
Inductive expression_text : str -> str -> bool -> Z -> Z -> Prop :=
| expression_is sp0 name sp1 (g : bool) rest m e :
    Forall (fun c => In c spaces) sp0 -> name <> [] -> Forall (fun c => ~ In c spaces) name ->
    Forall (fun c => In c spaces) sp1 -> sp1 <> [] ->
    (exists b, In b spaces /\ hd_error rest = Some b) -> leading_number rest m e ->
    expression_text (sp0 ++ name ++ sp1 ++ [if g then ">"%char else "<"%char] ++ rest) name g m e.

(** *** histories of calls *)
Section Hist.
  Context {T : Type} {NT : Num T}.
  Definition history := list (acall T * Res unit).
  (** a call to addConstraint that names a file, a function and a well-formed expression *)
  Definition constraint_of (c : acall T) : list (ufun T * pexpr T * str) :=
    match c with
    | CConstraint (Some f) expression file =>
        match file, parseExpression expression with
        | _ :: _, Ok p => [(f, p, file)]
        | _, _ => []
        end
    | _ => []
    end.
  Definition constraints_in (l : history) : list (ufun T * pexpr T * str) := flat_map (fun h => constraint_of (fst h)) l.
  (** a successful call of each kind *)
  Definition box_accepted (l : history) : Prop := exists lb ub, In (CBox lb ub, Ok tt) l.
  Definition dimension_accepted (l : history) : Prop := exists d, In (CDimension d, Ok tt) l.
  Definition objective_accepted (l : history) : Prop := exists f n file, In (CObjective f n file, Ok tt) l.
  (** the last value given *)
  Fixpoint last_of {A} (f : acall T -> option A) (l : history) (x : A) : A :=
    match l with [] => x | (c, r) :: t => last_of f t (match f c with Some y => y | None => x end) end.
  Definition budget_of (c : acall T) : option nat := match c with CMax n => Some n | _ => None end.
  Definition name_of (c : acall T) : option str := match c with CName (x :: n) => Some (x :: n) | _ => None end.
  Definition dim_of (c : acall T) : option nat := match c with CDimension d => Some d | _ => None end.
  Definition samples_of (c : acall T) : option nat := match c with CDoE n => Some n | _ => None end.
  (** the file that receives the samples of the design of experiments: the one given with the objective function, unless
      setNameOfTrainingDataFile was called later, which replaces it by the name of the study at that time *)
  Fixpoint doe_file (l : history) (name file : str) : str :=
    match l with
    | [] => file
    | (CName (x :: n), _) :: t => doe_file t (x :: n) file
    | (CTrainingFile (_ :: _), _) :: t => doe_file t name name
    | (CObjective _ _ f, Ok _) :: t => doe_file t name f
    | _ :: t => doe_file t name file
    end.
  (** the working directory: the last one accepted *)
  Fixpoint last_cwd (l : history) (x : str) : str :=
    match l with [] => x | (CCwd _ d, Ok _) :: t => last_cwd t d | _ :: t => last_cwd t x end.
  (** the sampling strategy: the last one accepted *)
  Fixpoint last_strategy (l : history) (x : str) : str :=
    match l with [] => x | (CStrategy t, Ok _) :: r => last_strategy r (map lower t) | _ :: r => last_strategy r x end.
  (** calls other than setDimension and setBoxConstraints *)
  Definition plain (c : acall T) : Prop := match c with CDimension _ | CBox _ _ => False | _ => True end.
  (** the usual order: the dimension first and once, then objective and constraints, then the bounds, once; the other calls anywhere,
      also repeated or failing *)
  Definition bounds_after (d : nat) (lb ub : list T) (l1 l2 l : history) : Prop :=
    l = (CDimension d, Ok tt) :: l1 ++ (CBox lb ub, Ok tt) :: l2 /\ Forall (fun h => plain (fst h)) l1 /\ Forall (fun h => plain (fst h)) l2.
  Definition usual_order (d : nat) (lb ub : list T) (l : history) : Prop := exists l1 l2, bounds_after d lb ub l1 l2 l /\ constraints_in l2 = [].
  (** a constraint was added after the bounds *)
  Definition late_constraint (d : nat) (lb ub : list T) (l : history) : Prop := exists l1 l2, bounds_after d lb ub l1 l2 l /\ constraints_in l2 <> [].
End Hist.
Arguments history : clear implicits.

(** *** data files *)
Section Files.
  Context {T : Type} {NT : Num T}.
  (** the table with one row (x, f x) for every sample *)
  Definition tabulates (f : ufun T) (xs : list (list T)) (m : mat T) : Prop :=
    table m /\ Forall2 (fun x row => exists y, f x = Ok y /\ row = x ++ [y]) xs (rows m).
End Files.
