(** Specification vocabulary for texts, written without the model's search functions. *)
From Coq Require Import Ascii String ZArith Reals List.
From Verif Require Import StrModel.
Import ListNotations.

(** [p] does not occur in [s] *)
Definition absent (p s : str) : Prop := forall a r, s <> a ++ p ++ r.
(** the first occurrence of [p] in [s] has [a] before it and [r] after it *)
Definition first_at (p s a r : str) : Prop := s = a ++ p ++ r /\ forall a' r', s = a' ++ p ++ r' -> length a <= length a'.

(** the tags of a keyword *)
Definition opening (k : str) : str := lit "<" ++ k ++ lit ">".
Definition closing (k : str) : str := lit "</" ++ k ++ lit ">".

(** the complete blocks of a text, in order: scanning from the left, every block is closed by the next closing tag *)
Inductive blocks (k : str) : str -> list str -> Prop :=
| blocks_none s : absent (opening k) s -> blocks k s []
| blocks_open s a rest : first_at (opening k) s a rest -> absent (closing k) rest -> blocks k s []
| blocks_more s a rest c r cs : first_at (opening k) s a rest -> first_at (closing k) rest c r -> blocks k r cs -> blocks k s (c :: cs).

(** what the lookup of a single keyword finds *)
Inductive lookup : Type := Missing | Unclosed | Repeated | Content (c : str).
Inductive looks_up (k s : str) : lookup -> Prop :=
| lk_missing : absent (opening k) s -> looks_up k s Missing
| lk_unclosed a rest : first_at (opening k) s a rest -> absent (closing k) rest -> looks_up k s Unclosed
| lk_repeated a rest c r : first_at (opening k) s a rest -> first_at (closing k) rest c r -> ~ absent (opening k) r -> looks_up k s Repeated
| lk_content a rest c r : first_at (opening k) s a rest -> first_at (closing k) rest c r -> absent (opening k) r -> looks_up k s (Content c).

(** white space of the "C" locale: blank, tab, newline, vertical tab, form feed, carriage return *)
Definition spaces : list ascii := map ascii_of_nat [32; 9; 10; 11; 12; 13].
(** [t] is [s] without its white space *)
Inductive despaced : str -> str -> Prop :=
| ds_nil : despaced [] []
| ds_drop c s t : In c spaces -> despaced s t -> despaced (c :: s) t
| ds_keep c s t : ~ In c spaces -> despaced s t -> despaced (c :: s) (c :: t).
(** plain (7-bit) text *)
Definition plain (s : str) : Prop := forall c, In c s -> nat_of_ascii c < 128.

(** equality of letters up to case *)
Definition same_letter (a b : ascii) : Prop :=
  a = b \/ (exists i, i < 26 /\ ((nat_of_ascii a = 65 + i /\ nat_of_ascii b = 97 + i) \/ (nat_of_ascii a = 97 + i /\ nat_of_ascii b = 65 + i))).
Definition same_word (a b : str) : Prop := Forall2 same_letter a b.

(** decimal digits and their value *)
Definition digit (d : nat) : ascii := ascii_of_nat (48 + d).
Inductive decimal : str -> Z -> Prop :=
| dec_nil : decimal [] 0
| dec_snoc ds n d : decimal ds n -> d < 10 -> decimal (ds ++ [digit d]) (10 * n + Z.of_nat d).
(** the next character, if any, is not a digit *)
Definition not_digit_next (r : str) : Prop := match r with [] => True | c :: _ => forall d, d < 10 -> c <> digit d end.
(** a sign as text *)
Inductive sign_text : bool -> str -> Prop := sg_minus : sign_text true (lit "-") | sg_plus : sign_text false (lit "+") | sg_none : sign_text false [].
Definition with_sign (neg : bool) (n : Z) : Z := if neg then (- n)%Z else n.

(** decimal floating-point syntax: [sign] digits [. digits] [e [sign] digits] followed by other text; the number is m * 10^e *)
Inductive fraction_text : str -> nat -> Z -> Prop :=
| fr_none : fraction_text [] 0 0
| fr_some fp m : decimal fp m -> fraction_text (lit "." ++ fp) (length fp) m.
Inductive exponent_text : str -> Z -> Prop :=
| ex_none : exponent_text [] 0
| ex_some E neg sg es n : (E = "e"%char \/ E = "E"%char) -> sign_text neg sg -> decimal es n -> es <> [] -> exponent_text (E :: sg ++ es) (with_sign neg n).
(** what follows the number cannot be read as part of it *)
Definition ends_number (r : str) : Prop :=
  match r with [] => True | c :: _ => (forall d, d < 10 -> c <> digit d) /\ c <> "."%char /\ c <> "e"%char /\ c <> "E"%char end.
Inductive number_text : str -> Z -> Z -> Prop :=
| number_is sp neg sg ip n ft k f et e r :
    Forall (fun c => In c spaces) sp -> sign_text neg sg -> decimal ip n -> ip <> [] -> fraction_text ft k f -> exponent_text et e -> ends_number r ->
    number_text (sp ++ sg ++ ip ++ ft ++ et ++ r) (with_sign neg (n * 10 ^ Z.of_nat k + f)) (e - Z.of_nat k).
