(** Model of the string and XML helpers (src/Driver/string_functions.cpp, src/Driver/xml_functions.cpp).
    A std::string is a list of bytes; positions and lengths are natural numbers (simplification: no size_t overflow). *)
From Coq Require Import Ascii String ZArith Bool Arith List.
From Verif Require Import Base Num.
Import ListNotations.

Definition str := list ascii.
Definition lit (s : string) : str := list_ascii_of_string s.

(** ** std::string *)
Fixpoint prefixb (p s : str) : bool :=
  match p, s with
  | [], _ => true
  | a :: p', b :: s' => Ascii.eqb a b && prefixb p' s'
  | _ :: _, [] => false
  end.
(** s.find(p): the first position at which p occurs *)
Fixpoint find (p s : str) : option nat :=
  if prefixb p s then Some 0 else match s with [] => None | _ :: t => option_map S (find p t) end.
(** s.find(p, pos) *)
Definition find_from (p s : str) (pos : nat) : option nat :=
  if Nat.ltb (length s) pos then None else option_map (Nat.add pos) (find p (skipn pos s)).
(** a - b in size_t: when it would be negative the huge result reaches past every string ([None]) *)
Definition usub (a b : nat) : option nat := if Nat.leb b a then Some (a - b) else None.
(** s.substr(pos, len): out_of_range beyond the end, clipped length *)
Definition substr (s : str) (pos : nat) (len : option nat) : Res str :=
  if Nat.ltb (length s) pos then Throw OutOfRange
  else Ok (match len with Some n => firstn n (skipn pos s) | None => skipn pos s end).
Fixpoint str_eqb (a b : str) : bool :=
  match a, b with
  | [], [] => true
  | x :: a', y :: b' => Ascii.eqb x y && str_eqb a' b'
  | _, _ => false
  end.

(** ** character classes in the "C" locale *)
Definition code (c : ascii) : nat := nat_of_ascii c.
(** std::tolower on a value in the range of unsigned char *)
Definition lower (c : ascii) : ascii := if (Nat.leb 65 (code c) && Nat.leb (code c) 90)%bool then ascii_of_nat (code c + 32) else c.
Definition is_space (c : ascii) : bool := (Nat.eqb (code c) 32 || (Nat.leb 9 (code c) && Nat.leb (code c) 13))%bool.
(** a char of 128 or more is negative as a (signed) char: passing it to ::tolower or ::isspace is undefined *)
Definition negative (c : ascii) : bool := Nat.leb 128 (code c).

(** isEqual: string_functions.cpp:10-24.  std::equal stops at the first difference. *)
Fixpoint equal_nocase (a b : str) : Res bool :=
  match a, b with
  | x :: a', y :: b' => if (negative x || negative y)%bool then UB else if Ascii.eqb (lower x) (lower y) then equal_nocase a' b' else Ok false
  | _, _ => Ok true
  end.
Definition is_empty {A} (s : list A) : bool := match s with [] => true | _ => false end.
Definition isEqual (a b : str) : Res bool :=
  if (is_empty a || is_empty b)%bool then Ok false
  else if negb (Nat.eqb (length a) (length b)) then Ok false else equal_nocase a b.

(** checkIfOn, checkIfOff: string_functions.cpp:55-79; these convert unsigned chars *)
Definition on_words : list str := map lit ["yes"; "y"; "on"; "true"; "enable"; "enabled"]%string.
Definition off_words : list str := map lit ["no"; "n"; "off"; "false"; "disable"; "disabled"]%string.
Definition checkIfOn (m : str) : bool := existsb (str_eqb (map lower m)) on_words.
Definition checkIfOff (m : str) : bool := existsb (str_eqb (map lower m)) off_words.

(** removeSpacesFromString: string_functions.cpp:81-85; toLower: 145-149 *)
Definition removeSpaces (s : str) : Res str := if existsb negative s then UB else Ok (filter (fun c => negb (is_space c)) s).
Definition toLower (s : str) : Res str := if existsb negative s then UB else Ok (map lower s).

Definition start_tag (key : str) : str := lit "<" ++ key ++ lit ">".
Definition end_tag (key : str) : str := lit "</" ++ key ++ lit ">".

(** extractContentBetweenKeys: string_functions.cpp:91-120 *)
Definition extractContentBetweenKeys (input key : str) : Res str :=
  let st := start_tag key in let et := end_tag key in
  match find st input with
  | None => Throw RuntimeError
  | Some a =>
      match find_from et input (a + length st) with
      | None => Throw RuntimeError
      | Some e =>
          match find_from st input (a + length st) with
          | Some _ => Throw RuntimeError
          | None => substr input (a + length st) (usub e (a + length st))
          end
      end
  end.

(** extractContents: string_functions.cpp:122-143.  Every round moves the position forward, so length(input)+1 rounds are enough
    (proved: the result does not depend on the number of rounds beyond that). *)
Fixpoint extract_loop (fuel : nat) (input st et : str) (startPos : option nat) (acc : list str) : Res (list str) :=
  match fuel with
  | O => Ok acc
  | S k =>
      match startPos with
      | None => Ok acc
      | Some a =>
          match find_from et input (a + length st) with
          | None => Ok acc
          | Some e =>
              c <- substr input (a + length st) (usub e (a + length st)) ;;
              extract_loop k input st et (find_from st input (e + length et)) (acc ++ [c])
          end
      end
  end.
Definition extractContents (input key : str) : Res (list str) :=
  extract_loop (S (length input)) input (start_tag key) (end_tag key) (find (start_tag key) input) [].

(** ** numbers as text *)
Definition is_digit (c : ascii) : bool := (Nat.leb 48 (code c) && Nat.leb (code c) 57)%bool.
Definition digit_val (c : ascii) : Z := Z.of_nat (code c) - 48.
Fixpoint span (f : ascii -> bool) (s : str) : str * str :=
  match s with
  | [] => ([], [])
  | c :: t => if f c then let (a, b) := span f t in (c :: a, b) else ([], s)
  end.
Definition digits_val (s : str) : Z := fold_left (fun a c => 10 * a + digit_val c)%Z s 0%Z.
Definition skip_spaces (s : str) : str := snd (span is_space s).
(** an optional sign *)
Definition take_sign (s : str) : bool * str :=
  match s with
  | c :: t => if Ascii.eqb c "-"%char then (true, t) else if Ascii.eqb c "+"%char then (false, t) else (false, s)
  | [] => (false, s)
  end.
Definition signed (neg : bool) (z : Z) : Z := if neg then (- z)%Z else z.
Definition int_max : Z := 2147483647.
Definition int_min : Z := -2147483648.
(** std::stoi in base 10: leading white space, sign, digits; the rest of the text is ignored *)
Definition stoi (s : str) : Res Z :=
  let (neg, s1) := take_sign (skip_spaces s) in
  let (ds, _) := span is_digit s1 in
  if is_empty ds then Throw InvalidArgument
  else let z := signed neg (digits_val ds) in
       if ((z <? int_min) || (int_max <? z))%Z then Throw OutOfRange else Ok z.
(** the decimal syntax of strtod: mantissa digits with an optional point, optional exponent; the result is m * 10^e.
    Simplification: hexadecimal numbers, "inf" and "nan" are not recognised. *)
Definition take_exponent (s : str) : Z * str :=
  match s with
  | c :: t =>
      if (Ascii.eqb c "e"%char || Ascii.eqb c "E"%char)%bool then
        let (neg, t1) := take_sign t in let (ds, r) := span is_digit t1 in
        if is_empty ds then (0%Z, s) else (signed neg (digits_val ds), r)
      else (0%Z, s)
  | [] => (0%Z, s)
  end.
Definition strtod (s : str) : option (Z * Z * str) :=
  let (neg, s1) := take_sign (skip_spaces s) in
  let (ip, s2) := span is_digit s1 in
  let (fp, s3) := match s2 with
                  | c :: t => if Ascii.eqb c "."%char then span is_digit t else ([], s2)
                  | [] => ([], s2)
                  end in
  if is_empty (ip ++ fp) then None
  else let (e, s4) := take_exponent s3 in
       Some (signed neg (digits_val (ip ++ fp)), (e - Z.of_nat (length fp))%Z, s4).

Section Stod.
  Context {T : Type} {NT : Num T}.
  (** std::stod: out_of_range on overflow and underflow.  Simplification: the boundaries are DBL_MAX and DBL_MIN exactly. *)
  Definition stod (s : str) : Res T :=
    match strtod s with
    | None => Throw InvalidArgument
    | Some (m, e, _) =>
        let v := nlit m e in
        if (ndblmax <! nabs v)%bool then Throw OutOfRange
        else if (negb (Z.eqb m 0) && (nabs v <! ndblmin))%bool then Throw OutOfRange else Ok v
    end.

  (** getDoubleValueFromXML: xml_functions.cpp:109-145.  Every exception of stod becomes invalid_argument; 10E-14 = 1e-13. *)
  Definition any_to_invalid {A} (r : Res A) : Res A := match r with Throw _ => Throw InvalidArgument | _ => r end.
  Definition getDouble (xml key : str) : Res T :=
    let st := start_tag key in let et := end_tag key in
    match find st xml with
    | None => Ok (nlit 1 (-13))
    | Some a =>
        match find_from et xml a with
        | None => Throw InvalidArgument
        | Some e =>
            match find_from st xml e with
            | Some _ => Throw InvalidArgument
            | None =>
                v <- substr xml (a + length key + 2) (match usub e a with Some n => usub n (length key + 2) | None => None end) ;;
                v <- removeSpaces v ;;
                any_to_invalid (stod v)
            end
        end
    end.
  (** getDoubleVectorValuesFromXML: xml_functions.cpp:225-265; getline at '<', items without '>' and items that are not numbers are skipped *)
  Fixpoint split_on (c : ascii) (s : str) : list str :=
    match s with
    | [] => [[]]
    | x :: t => if Ascii.eqb x c then [] :: split_on c t
                else match split_on c t with [] => [[x]] | h :: r => (x :: h) :: r end
    end.
  Definition item_number (item : str) : list T :=
    match find (lit ">") item with
    | None => []
    | Some p => match stod (skipn (p + 1) item) with Ok v => [v] | _ => [] end
    end.
  Definition getDoubleVector (xml key : str) : Res (list T) :=
    if is_empty xml then Throw InvalidArgument else if is_empty key then Throw InvalidArgument
    else
      let st := start_tag key in let et := end_tag key in
      match find st xml, find et xml with
      | Some a, Some e =>
          if Nat.ltb a e then
            content <- substr xml (a + length st) (match usub e a with Some n => usub n (length st) | None => None end) ;;
            Ok (flat_map item_number (split_on "<"%char content))
          else Ok []
      | _, _ => Ok []
      end.
End Stod.

(** getStringValueFromXML: xml_functions.cpp:153-182 *)
Definition getString (xml key : str) : Res str :=
  let st := start_tag key in let et := end_tag key in
  match find st xml with
  | None => Ok []
  | Some a =>
      match find_from et xml a with
      | None => Throw InvalidArgument
      | Some e =>
          match find_from st xml e with
          | Some _ => Throw InvalidArgument
          | None => v <- substr xml (a + length key + 2) (usub e (a + length key + 2)) ;; removeSpaces v
          end
      end
  end.

(** getIntegerValueFromXML: xml_functions.cpp:186-222 *)
Definition getInt (xml key : str) : Res Z :=
  let st := start_tag key in let et := end_tag key in
  match find st xml with
  | None => Ok (-10000000)%Z
  | Some a =>
      match find_from et xml a with
      | None => Throw InvalidArgument
      | Some e =>
          match find_from st xml e with
          | Some _ => Throw InvalidArgument
          | None =>
              v <- substr xml (a + length key + 2) (match usub e a with Some n => usub n (length key + 2) | None => None end) ;;
              any_to_invalid (stoi v)
          end
      end
  end.

(** getStringVectorValuesFromXML: xml_functions.cpp:268-297 *)
Fixpoint items_loop (fuel : nat) (s : str) (pos : option nat) (acc : list str) : Res (list str) :=
  match fuel with
  | O => Ok acc
  | S k =>
      match pos with
      | None => Ok acc
      | Some p =>
          match find_from (lit "</item>") s p with
          | None => Ok acc
          | Some e =>
              c <- substr s (p + 6) (match usub e p with Some n => usub n 6 | None => None end) ;;
              c <- removeSpaces c ;;
              items_loop k s (find_from (lit "<item>") s (e + 7)) (acc ++ [c])
          end
      end
  end.
Definition getStringVector (xml key : str) : Res (list str) :=
  if is_empty xml then Throw InvalidArgument else if is_empty key then Throw InvalidArgument
  else
    let st := start_tag key in let et := end_tag key in
    match find st xml, find et xml with
    | Some a, Some e =>
        if Nat.ltb a e then
          sub <- substr xml (a + length st) (usub e (a + length st)) ;;
          items_loop (S (length sub)) sub (find (lit "<item>") sub) []
        else Ok []
    | _, _ => Ok []
    end.

(** ** writing *)
(** operator<< of an int *)
Fixpoint nat_text (fuel : nat) (n : Z) : str :=
  match fuel with
  | O => []
  | S k => (if (n <? 10)%Z then [] else nat_text k (n / 10)) ++ [ascii_of_nat (Z.to_nat (n mod 10) + 48)]
  end.
Definition int_text (z : Z) : str := (if (z <? 0)%Z then lit "-" else []) ++ nat_text (S (Z.to_nat (Z.log2 (Z.abs z)))) (Z.abs z).
(** operator<< of a double with std::fixed and the default precision: the value rounded to six decimals;
    [m] is that value times 10^6.  The sign is printed for every negative value. *)
Definition six_digits (n : Z) : str := map (fun k => ascii_of_nat (Z.to_nat (n / 10 ^ k mod 10) + 48)) [5; 4; 3; 2; 1; 0]%Z.
Definition fixed_text (neg : bool) (m : Z) : str := (if neg then lit "-" else []) ++ int_text (m / 1000000) ++ lit "." ++ six_digits (m mod 1000000).
(** generateXml: xml_functions.cpp:10-18 (the value already printed) *)
Definition generateXml (name value : str) : str := start_tag name ++ value ++ end_tag name.
(** generateXmlVector: xml_functions.cpp:38-54 *)
Definition newline : str := [ascii_of_nat 10].
Definition tab : str := [ascii_of_nat 9].
Definition generateXmlVector (name : str) (items : list str) : Res str :=
  match items with
  | [] => Throw InvalidArgument
  | _ => Ok (start_tag name ++ newline ++ flat_map (fun v => tab ++ lit "<item>" ++ v ++ lit "</item>" ++ newline) items ++ end_tag name)
  end.
