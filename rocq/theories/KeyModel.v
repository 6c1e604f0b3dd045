(** Model of a configuration keyword (src/Driver/configkey.cpp) and of a constraint definition
    (src/ObjectiveFunctions/constraint_functions.cpp).  Printing and logging are not modelled. *)
From Coq Require Import Ascii String ZArith Bool Arith List.
From Verif Require Import Base Num StM StrModel.
Import ListNotations.

(** the types accepted by Keyword::setType (configkey.cpp:109-120); [KNone] is the initial empty text *)
Inductive ktype := KNone | KString | KInt | KDouble | KIntVector | KDoubleVector | KStringVector.

Section Key.
  Context {T : Type} {NT : Num T}.
  (** Keyword: configkey.hpp:11-75 *)
  Record keyword := mkKey {
    kw_name : str; kw_type : ktype; kw_set : bool;
    kw_double : T; kw_string : str; kw_strings : list str; kw_doubles : list T; kw_int : Z }.
  (** the initial state: configkey.hpp:60-71; EPSILON is 10E-14 (globals.hpp:8) *)
  Definition kw_init : keyword := mkKey [] KNone false (nlit 1 (-13)) [] [] [] (-10000000)%Z.
  Definition kw_setName (n : str) (k : keyword) : Res keyword :=
    if is_empty n then Throw RuntimeError else Ok (mkKey n (kw_type k) (kw_set k) (kw_double k) (kw_string k) (kw_strings k) (kw_doubles k) (kw_int k)).
  Definition kw_setType (t : ktype) (k : keyword) : keyword :=
    mkKey (kw_name k) t (kw_set k) (kw_double k) (kw_string k) (kw_strings k) (kw_doubles k) (kw_int k).
  Definition kw_unset (k : keyword) : keyword :=
    mkKey (kw_name k) (kw_type k) false (kw_double k) (kw_string k) (kw_strings k) (kw_doubles k) (kw_int k).
  Definition kw_putString (v : str) (k : keyword) : keyword :=
    if is_empty v then k else mkKey (kw_name k) (kw_type k) true (kw_double k) v (kw_strings k) (kw_doubles k) (kw_int k).
  Definition kw_putStrings (v : list str) (k : keyword) : keyword :=
    if is_empty v then k else mkKey (kw_name k) (kw_type k) true (kw_double k) (kw_string k) v (kw_doubles k) (kw_int k).
  Definition kw_putDoubles (v : list T) (k : keyword) : keyword :=
    if is_empty v then k else mkKey (kw_name k) (kw_type k) true (kw_double k) (kw_string k) (kw_strings k) v (kw_int k).
  Definition kw_putDouble (v : T) (k : keyword) : keyword :=
    if ndbleps <! nabs v then mkKey (kw_name k) (kw_type k) true v (kw_string k) (kw_strings k) (kw_doubles k) (kw_int k) else k.
  Definition kw_putInt (v : Z) (k : keyword) : keyword :=
    if Z.eqb v (-10000000) then k else mkKey (kw_name k) (kw_type k) true (kw_double k) (kw_string k) (kw_strings k) (kw_doubles k) v.
  (** Keyword::getValueFromXMLString: configkey.cpp:122-165 *)
  Definition kw_read (input : str) : SM keyword unit :=
    get k <-- sget (fun k => k) ;
    run (sthrow_if (is_empty (kw_name k)) RuntimeError) ;
    run (smod kw_unset) ;
    match kw_type k with
    | KString => get v <-- slift (getString input (kw_name k)) ; smod (kw_putString v)
    | KStringVector => get v <-- slift (getStringVector input (kw_name k)) ; smod (kw_putStrings v)
    | KDouble => get v <-- slift (getDouble input (kw_name k)) ; smod (kw_putDouble v)
    | KDoubleVector => get v <-- slift (getDoubleVector input (kw_name k)) ; smod (kw_putDoubles v)
    | KInt => get v <-- slift (getInt input (kw_name k)) ; smod (kw_putInt v)
    | _ => sthrow InvalidArgument
    end.
  (** Keyword::getStringValue, getIntValue, getDoubleValue, getDoubleValueVector, returnErrorIfNotSet: configkey.cpp:12-107 *)
  Definition kw_getString (k : keyword) : Res str := match kw_type k with KString => Ok (kw_string k) | _ => Throw InvalidArgument end.
  Definition kw_getStrings (k : keyword) : Res (list str) := match kw_type k with KStringVector => Ok (kw_strings k) | _ => Throw InvalidArgument end.
  Definition kw_getInt (k : keyword) : Res Z := match kw_type k with KInt => Ok (kw_int k) | _ => Throw InvalidArgument end.
  Definition kw_getDouble (k : keyword) : Res T := match kw_type k with KDouble => Ok (kw_double k) | _ => Throw InvalidArgument end.
  Definition kw_getDoubles (k : keyword) : Res (list T) := match kw_type k with KDoubleVector => Ok (kw_doubles k) | _ => Throw InvalidArgument end.
  Definition kw_require (k : keyword) : Res unit := if kw_set k then Ok tt else Throw RuntimeError.

  (** ConstraintDefinition: constraint_functions.hpp:17-33 *)
  Record condef := mkCondef { cd_type : str; cd_name : str; cd_id : Z; cd_value : T }.
  Definition condef_init : condef := mkCondef [] [] (-1)%Z n0.
  (** ConstraintDefinition::setDefinition: constraint_functions.cpp:27-67.  The text assigned to the value starts after the symbol and is
      definition.length() - nameBuf.length() - 1 long, clipped at the end of the definition. *)
  Definition setDefinition (d : str) : SM condef unit :=
    run (sthrow_if (is_empty d) InvalidArgument) ;
    get place <-- slift (match find (lit ">") d, find (lit "<") d with
                         | Some p, _ => Ok p
                         | None, Some p => Ok p
                         | None, None => Throw InvalidArgument
                         end) ;
    get nm <-- slift (removeSpaces (firstn place d)) ;
    let ty := firstn 1 (skipn place d) in
    get vb <-- slift (match usub (length d) (length nm) with
                      | Some n => substr d (place + 1) (usub n (length ty))
                      | None => substr d (place + 1) None
                      end) ;
    get vb <-- slift (removeSpaces vb) ;
    get v <-- slift (stod vb) ;
    run (smod (fun c => mkCondef (cd_type c) (cd_name c) (cd_id c) v)) ;
    smod (fun c => mkCondef ty nm (cd_id c) (cd_value c)).
End Key.
Arguments keyword T : clear implicits.
Arguments condef T : clear implicits.
