(** Specification vocabulary for configuration files, written without the functions that read them. *)
From Coq Require Import Ascii String ZArith Bool Arith Reals List.
From Verif Require Import Base Num RealNum StrModel StrSpec DriverModel.
Import ListNotations.

(** *** values in a section *)
(** the text of an element without its white space; empty when the element is missing *)
Definition text_value (seg : str) (key : string) (v : str) : Prop :=
  (looks_up (lit key) seg Missing /\ v = []) \/ exists c, looks_up (lit key) seg (Content c) /\ plain c /\ despaced c v.
(** an integer: leading white space, a sign, digits; anything may follow *)
Inductive integer_text : str -> Z -> Prop :=
| integer_is sp neg sg ds n r : Forall (fun c => In c spaces) sp -> sign_text neg sg -> decimal ds n -> ds <> [] -> not_digit_next r ->
    (-2147483648 <= with_sign neg n <= 2147483647)%Z -> integer_text (sp ++ sg ++ ds ++ r) (with_sign neg n).
(** the integer of an element, [None] when the element is missing; -10000000 counts as missing *)
Definition int_value (seg : str) (key : string) (o : option Z) : Prop :=
  (looks_up (lit key) seg Missing /\ o = None) \/
  exists c z, looks_up (lit key) seg (Content c) /\ integer_text c z /\ o = (if Z.eqb z (-10000000) then None else Some z).
(** a decimal number at the start of a text; the number is m * 10^e.  Digits stand before the point, after it or on both sides; an
    exponent belongs to the number whenever it is complete *)
Inductive prefix_number : str -> Z -> Z -> Prop :=
| prefix_is sp neg sg ip n ft k f et e r :
    Forall (fun c => In c spaces) sp -> sign_text neg sg -> decimal ip n -> fraction_text ft k f -> (ip <> [] \/ k <> 0) -> exponent_text et e ->
    not_digit_next r -> (et = [] -> forall et' e' r', exponent_text et' e' -> et' <> [] -> r <> et' ++ r') -> (ft = [] -> et = [] -> hd_error r <> Some "."%char) ->
    prefix_number (sp ++ sg ++ ip ++ ft ++ et ++ r) (with_sign neg (n * 10 ^ Z.of_nat k + f)) (e - Z.of_nat k).
(** the number a text without white space starts with, if it is in the range of double *)
Definition number_of (t : str) (x : R) : Prop :=
  exists m e, prefix_number t m e /\ x = (IZR m * powerRZ 10 e)%R /\ (Rabs x <= ndblmax)%R /\ (m = 0%Z \/ ndblmin <= Rabs x)%R.
(** the number of an element; 1e-13 when the element is missing *)
Definition number_value (seg : str) (key : string) (x : R) : Prop :=
  (looks_up (lit key) seg Missing /\ x = (/ 10 ^ 13)%R) \/
  exists c t, looks_up (lit key) seg (Content c) /\ plain c /\ despaced c t /\ number_of t x.
(** one of some words, in any letter case *)
Definition one_of (t : str) (ws : list string) : Prop := exists w, In w ws /\ same_word t (lit w).
Definition switched_on (t : str) : Prop := one_of t ["yes"; "y"; "on"; "true"; "enable"; "enabled"]%string.

(** *** parts of a configuration *)
(** a section: the text between the only opening tag and the closing tag after it *)
Definition section (text : str) (key : string) (c : str) : Prop :=
  exists before rest after, first_at (opening (lit key)) text before rest /\ first_at (closing (lit key)) rest c after /\ absent (opening (lit key)) rest.

(** an optimisation parameter *)
Record pspec := mkPS { ps_name : str; ps_discrete : bool; ps_lb : R; ps_ub : R; ps_inc : R }.
Definition parameter_words (discrete : bool) : list string := if discrete then ["discrete"; "int"]%string else ["continuous"; "real"]%string.
(** a continuous parameter may carry any increment, which is not used *)
Definition describes_parameter (text : str) (p : pspec) : Prop :=
  text_value text "name" (ps_name p) /\ ps_name p <> [] /\
  (exists t, text_value text "type" t /\ one_of t (parameter_words (ps_discrete p))) /\
  number_value text "lower_bound" (ps_lb p) /\ number_value text "upper_bound" (ps_ub p) /\ (ps_lb p <= ps_ub p)%R /\
  exists i, number_value text "increment" i /\ if ps_discrete p then ps_inc p = i /\ (0 < i <= ps_ub p - ps_lb p)%R else ps_inc p = 0%R.

(** the words for the kinds of surrogate models *)
Definition model_words (m : smodel) : list string :=
  match m with
  | MOrdinary => ["default"; "kriging"; "ordinary_kriging"]
  | MUniversal => ["universal_kriging"]
  | MTangent => ["tangent_enhanced"]
  | MGradient => ["gradient_enhanced"]
  end%string.
Definition model_of (t : str) (m : smodel) : Prop := (t = [] /\ m = MOrdinary) \/ one_of t (model_words m).
Definition required (seg : str) (key : string) (v : str) : Prop := text_value seg key v /\ v <> [].
Definition readable (seg : str) (keys : list string) : Prop := forall k, In k keys -> exists v, text_value seg k v.

(** the objective function; the last argument is the number of training iterations *)
Definition describes_objective (seg : str) (d : odef) (it : option Z) : Prop :=
  readable seg ["multi_fidelity"; "warm_start"; "output_filename_gradient"; "executable_filename_gradient"; "executable_filename_tangent"]%string /\
  int_value seg "number_of_training_iterations" it /\
  required seg "name" (od_name d) /\ required seg "design_vector_filename" (od_dv d) /\ required seg "executable_filename" (od_exe d) /\
  required seg "training_data_filename" (od_train d) /\ required seg "output_filename" (od_out d) /\
  (exists t, text_value seg "surrogate_model_type" t /\ model_of t (od_model d)) /\
  od_multi d = false /\
  match od_model d with
  | MGradient => required seg "executable_filename_gradient" (od_exeg d) /\ required seg "output_filename_gradient" (od_outg d) /\ ~ same_word (od_outg d) (od_out d)
  | _ => od_exeg d = [] /\ od_outg d = []
  end.

(** a constraint *)
Record cspec := mkCS { cs_def : odef; cs_gt : bool; cs_value : R; cs_user : bool }.
Definition constraint_words (greater : bool) : list string := if greater then ["gt"; "tt"]%string else ["lt"]%string.
Definition describes_constraint (seg : str) (c : cspec) : Prop :=
  let d := cs_def c in
  seg <> [] /\
  readable seg ["design_vector_filename"; "warm_start"; "output_filename"; "output_filename_gradient"; "executable_filename"; "executable_filename_gradient";
                "executable_filename_tangent"; "surrogate_model_type"; "training_data_filename"]%string /\
  (exists o, int_value seg "number_of_training_iterations" o) /\
  (exists t, text_value seg "multi_fidelity" t /\ (od_multi d = true <-> switched_on t)) /\
  required seg "name" (od_name d) /\
  (exists t, text_value seg "constraint_type" t /\ one_of t (constraint_words (cs_gt c))) /\
  (exists t, required seg "constraint_value" t /\ number_of t (cs_value c)) /\
  (exists t, text_value seg "user_defined_function" t /\ (cs_user c = true <-> switched_on t)) /\
  od_exeg d = [] /\ od_outg d = [] /\
  if cs_user c then od_dv d = [] /\ od_exe d = [] /\ od_out d = [] /\ od_train d = [] /\ od_model d = MOrdinary
  else text_value seg "executable_filename" (od_exe d) /\ required seg "design_vector_filename" (od_dv d) /\ required seg "output_filename" (od_out d) /\
       required seg "training_data_filename" (od_train d) /\ exists t, text_value seg "surrogate_model_type" t /\ model_of t (od_model d).

(** *** lines and constraint blocks *)
Inductive text_lines : str -> list str -> Prop :=
| tl_none : text_lines [] []
| tl_last l : l <> [] -> ~ In (ascii_of_nat 10) l -> text_lines l [l]
| tl_more l t ls : ~ In (ascii_of_nat 10) l -> text_lines t ls -> text_lines (l ++ ascii_of_nat 10 :: t) (l :: ls).
Definition blank_or_tab (c : ascii) : Prop := c = ascii_of_nat 32 \/ c = ascii_of_nat 9.
(** [t] is [l] without blanks and tabs at both ends *)
Definition trimmed (l t : str) : Prop :=
  exists a b, l = a ++ t ++ b /\ Forall blank_or_tab a /\ Forall blank_or_tab b /\
    (forall c, hd_error t = Some c -> ~ blank_or_tab c) /\ (forall c, hd_error (rev t) = Some c -> ~ blank_or_tab c).
Definition has (p l : str) : Prop := ~ absent p l.
Definition block_text (ls : list str) : str := flat_map (fun l => l ++ [ascii_of_nat 10]) ls.
(** a constraint block starts with a line with the opening tag and ends before the next line with the closing tag *)
Definition con_open : str := opening (lit "constraint_function").
Definition con_close : str := closing (lit "constraint_function").
Definition neither (l : str) : Prop := absent con_open l /\ absent con_close l.
Inductive con_blocks : list str -> list str -> Prop :=
| cb_none : con_blocks [] []
| cb_skip l ls bs : neither l -> con_blocks ls bs -> con_blocks (l :: ls) bs
| cb_block o body e ls bs : has con_open o -> absent con_close o -> Forall neither body -> has con_close e -> absent con_open e -> con_blocks ls bs ->
    con_blocks (o :: body ++ e :: ls) (block_text (o :: body) :: bs).
Definition laid_out (text : str) (bs : list str) : Prop := exists ls ts, text_lines text ls /\ Forall2 trimmed ls ts /\ con_blocks ts bs.

(** *** a whole configuration *)
Record config := mkCF { cf_name : str; cf_dim : nat; cf_N : nat; cf_inner : option Z; cf_threads : option Z;
  cf_params : list pspec; cf_obj : odef; cf_iters : option Z; cf_cons : list cspec }.
Definition describes (text : str) (blks : list str) (c : config) : Prop :=
  exists gs ps os pts,
    section text "general_settings" gs /\ section text "optimization_parameters" ps /\ section text "objective_function" os /\
    readable gs ["display"]%string /\ (exists t, text_value gs "type" t /\ same_word t (lit "optimization")) /\
    text_value gs "name" (cf_name c) /\
    int_value gs "dimension" (Some (Z.of_nat (cf_dim c))) /\ int_value gs "number_of_function_evaluations" (Some (Z.of_nat (cf_N c))) /\
    int_value gs "max_number_of_inner_iterations" (cf_inner c) /\ int_value gs "number_of_threads" (cf_threads c) /\
    blocks (lit "parameter") ps pts /\ Forall2 describes_parameter pts (cf_params c) /\
    describes_objective os (cf_obj c) (cf_iters c) /\
    Forall2 describes_constraint blks (cf_cons c).
(** what is asked of a configuration beyond its syntax *)
Definition acceptable (c : config) : Prop :=
  cf_dim c <> 0 /\ cf_N c <> 0 /\ cf_dim c = length (cf_params c) /\ Forall (fun p => (ps_lb p < ps_ub p)%R) (cf_params c) /\
  NoDup (map ps_name (cf_params c)) /\ cf_threads c <> Some 0%Z /\
  (forall i k, nth_error (cf_cons c) i = Some k -> cs_user k = true -> i < 4).
