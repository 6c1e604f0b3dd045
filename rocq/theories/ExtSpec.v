(** What the evaluation of a function by an external program means. *)
From Coq Require Import Ascii String ZArith Bool Arith Reals List.
From Verif Require Import Base Num RealNum StrModel StrSpec ExtModel.
Import ListNotations.

(** the command for an executable: Python scripts are given to python, names without a directory are looked up in the current one *)
Inductive command_of (exe : str) : str -> Prop :=
| cmd_python b : exe = b ++ lit ".py" -> command_of exe (lit "python " ++ exe)
| cmd_path : (forall b, exe <> b ++ lit ".py") -> In "/"%char exe -> command_of exe exe
| cmd_here : (forall b, exe <> b ++ lit ".py") -> ~ In "/"%char exe -> command_of exe (lit "./" ++ exe).

(** a decimal number [m * 10^e] at the start of a text and what follows it; a letter e or E after the digits belongs to the number *)
Inductive stream_text : str -> Z -> Z -> str -> Prop :=
| stream_is sp neg sg ip n ft k f et e r :
    Forall (fun c => In c spaces) sp -> sign_text neg sg -> decimal ip n -> fraction_text ft k f -> (ip <> [] \/ k <> 0) -> exponent_text et e ->
    not_digit_next r -> (et = [] -> hd_error r <> Some "e"%char /\ hd_error r <> Some "E"%char) -> (ft = [] -> et = [] -> hd_error r <> Some "."%char) ->
    stream_text (sp ++ sg ++ ip ++ ft ++ et ++ r) (with_sign neg (n * 10 ^ Z.of_nat k + f)) (e - Z.of_nat k) r.
(** the first number of a text is [x], and it is within the range of double *)
Definition first_number (t : str) (x : R) : Prop :=
  exists m e r, stream_text t m e r /\ x = (IZR m * powerRZ 10 e)%R /\ (Rabs x <= ndblmax)%R.
(** the text is a number and nothing else, [x] *)
Definition denotes (t : str) (x : R) : Prop := exists m e, stream_text t m e [] /\ x = (IZR m * powerRZ 10 e)%R.
(** the default format of the output streams: the nearest number with six significant digits *)
Definition six_digits_of (x v : R) : Prop :=
  (x = 0 /\ v = 0)%R \/
  exists M E : Z, (100000 <= Z.abs M < 1000000)%Z /\ v = (IZR M * powerRZ 10 E)%R /\ (Rabs (x - v) <= powerRZ 10 E / 2)%R.
Definition prints (x : R) (t : str) : Prop := exists v, denotes t v /\ six_digits_of x v.
(** one number per line *)
Definition number_lines (ts : list str) : str := concat (map (fun t => t ++ [ascii_of_nat 10]) ts).
(** started by [cmd] the program reads the numbers in the file [dv], ends without an error and leaves a text starting with the number
    [g] of them in the file [out] *)
Definition computes (prog : str -> files -> option (files * Z)) (cmd dv out : str) (g : list R -> R) : Prop :=
  forall fs ts vs, fs dv = Some (number_lines ts) -> Forall2 denotes ts vs ->
    exists fs' t, prog cmd fs = Some (fs', 0%Z) /\ fs' out = Some t /\ first_number t (g vs).
