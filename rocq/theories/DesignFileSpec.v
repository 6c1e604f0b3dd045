(** What the files and texts of a design mean, without the functions of the model. *)
From Coq Require Import Ascii String ZArith Bool Arith Reals List.
From Verif Require Import Base Num RealNum StrModel StrSpec ExtSpec CsvSpec EaFileSpec.
Import ListNotations.

(** a text that is a decimal number and nothing else: digits before the point, possibly a fraction and an exponent *)
Definition number_alone (t : str) (v : R) : Prop :=
  exists neg sg ip n ft k f et e, sign_text neg sg /\ decimal ip n /\ ip <> [] /\ fraction_text ft k f /\ exponent_text et e /\
    t = sg ++ ip ++ ft ++ et /\ v = (IZR (with_sign neg (n * 10 ^ Z.of_nat k + f)) * powerRZ 10 (e - Z.of_nat k))%R.
(** the text shows the number [x] with ten significant digits *)
Definition shows_ten (x : R) (t : str) : Prop := exists v, number_alone t v /\ ten_digits_of x v.
(** a heading: the text, with a blank before and after, between two borders of the same character and the same length; [pad] is the
    blank that makes its length even *)
Definition heading (c : ascii) (width : nat) (msg line : str) : Prop :=
  exists n pad, (pad = [] \/ pad = lit " ") /\ Nat.Even (length (msg ++ pad)) /\ (Nat.Even (length msg) -> pad = []) /\
    line = repeat c n ++ lit " " ++ msg ++ pad ++ lit " " ++ repeat c n /\ (length line = width \/ S (length line) = width).
