(** Model of class vec, /repo/src/LinearAlgebra/vector.cpp.
    A vec (size, data pointer) is the list of its entries.  Sizes are [nat] (32-bit wrap-around not modelled).
    Where a C++ loop writes result[i] for i = 0..n-1 independently it is written [vbuild n (fun i => ...)];
    accumulation loops are [nsum].  The code's plain loops ("Naive"/"NoLib" variants) are modelled, the
    OPENBLAS variants are not. *)
From Coq Require Import List Arith Lia ZArith Bool.
From Verif Require Import Base Num.
Import ListNotations.

Inductive NormType := L2 | L1 | LINF.  (* vector.hpp:38 *)

Section VecModel.
  Context {T : Type} `{NT : Num T}.

  Definition vec := list T.

  (** data[i], vector.cpp raw access *)
  Definition vget (v : vec) (i : nat) : T := nth i v n0.
  (** fresh vec(n) filled by [for (i<n) result.data[i] = f(i)] *)
  Definition vbuild (n : nat) (f : nat -> T) : vec := map f (seq 0 n).

  (** operator()(index), get: vector.cpp:119-131, 356-361 *)
  Definition vec_at (v : vec) (i : nat) : Res T :=
    if Nat.leb (length v) i then Throw OutOfRange else Ok (vget v i).
  (** set: vector.cpp:363-368 *)
  Definition vec_set (v : vec) (i : nat) (x : T) : Res vec :=
    if Nat.leb (length v) i then Throw OutOfRange else Ok (upd v i x).
  (** vec(size,value): vector.cpp:57-59; fill: 370-372 *)
  Definition vec_const (n : nat) (x : T) : vec := repeat x n.
  Definition vec_fill (v : vec) (x : T) : vec := repeat x (length v).

  (** resize: vector.cpp:96-116 *)
  Definition vec_resize (v : vec) (n : nat) (d : T) : vec :=
    firstn (Nat.min (length v) n) v ++ (if Nat.ltb (length v) n then repeat d (n - length v) else []).

  (** operator+ / operator- (vec,vec): vector.cpp:133-155 *)
  Definition vec_add (v w : vec) : Res vec :=
    if Nat.eqb (length v) (length w) then Ok (vbuild (length v) (fun i => vget v i +! vget w i))
    else Throw InvalidArgument.
  Definition vec_sub (v w : vec) : Res vec :=
    if Nat.eqb (length v) (length w) then Ok (vbuild (length v) (fun i => vget v i -! vget w i))
    else Throw InvalidArgument.
  (** operator< and operator>: vector.cpp:157-183 *)
  Definition vec_lt (v w : vec) : Res bool :=
    if Nat.eqb (length v) (length w) then Ok (forallb (fun i => negb (vget v i >=! vget w i)) (seq 0 (length v)))
    else Throw InvalidArgument.
  Definition vec_gt (v w : vec) : Res bool :=
    if Nat.eqb (length v) (length w) then Ok (forallb (fun i => negb (vget v i <=! vget w i)) (seq 0 (length v)))
    else Throw InvalidArgument.
  (** operator*(double), +(double), -(double): vector.cpp:200-226 *)
  Definition vec_scale (v : vec) (a : T) : vec := vbuild (length v) (fun i => vget v i *! a).
  Definition vec_adds (v : vec) (a : T) : vec := vbuild (length v) (fun i => vget v i +! a).
  Definition vec_subs (v : vec) (a : T) : vec := vbuild (length v) (fun i => vget v i -! a).
  (** sum, product: vector.cpp:229-247 *)
  Definition vec_sum (v : vec) : T := nsum (length v) (vget v).
  Definition vec_product (v : vec) : T := loop (length v) (fun i acc => acc *! vget v i) n1.
  (** scaleAndAdd: vector.cpp:250-259 and 262-293 *)
  Definition vec_scaleAndAdd (v : vec) (a b : T) : vec := vbuild (length v) (fun i => a *! vget v i +! b).
  Definition vec_scaleAndAddV (x : vec) (a : T) (b : vec) : Res vec :=
    if Nat.eqb (length x) (length b) then vec_add (vec_scale x a) b else Throw InvalidArgument.

  (** appendVector: vector.cpp:449-471 *)
  Definition vec_append (v other : vec) (position : Z) : Res vec :=
    if ((position <? -1) || (Z.of_nat (length v) <? position))%Z%bool then Throw OutOfRange
    else
      let p := if (position =? -1)%Z then length v else Z.to_nat position in
      Ok (firstn p v ++ other ++ skipn p v).
  (** copyVector: vector.cpp:473-482 *)
  Definition vec_copy (v source : vec) (position : Z) : Res vec :=
    if ((position <? 0) || (Z.of_nat (length v) <=? position))%Z%bool then Throw OutOfRange
    else
      let p := Z.to_nat position in
      let c := Nat.min (length v - p) (length source) in
      Ok (firstn p v ++ firstn c source ++ skipn (p + c) v).
  (** push_back: vector.cpp:484-502 *)
  Definition vec_push_back (v : vec) (x : T) : vec := v ++ [x].

  (** dot, dotProduct, dotNoLib: vector.cpp:510-556 *)
  Definition vec_dot (v w : vec) : Res T :=
    if Nat.eqb (length v) (length w) then Ok (nsum (length v) (fun i => vget v i *! vget w i))
    else Throw InvalidArgument.

  (** std::min_element / std::max_element: index of the first extreme element *)
  Definition min_element (v : vec) : nat :=
    loop_from 1 (length v) (fun k b => if vget v k <! vget v b then k else b) 0.
  Definition max_element (v : vec) : nat :=
    loop_from 1 (length v) (fun k b => if vget v b <! vget v k then k else b) 0.
  (** findMin, findMinIndex, findMax, findMaxIndex: vector.cpp:558-584 *)
  Definition vec_findMin (v : vec) : Res T :=
    match v with [] => Throw RuntimeError | _ => Ok (vget v (min_element v)) end.
  Definition vec_findMinIndex (v : vec) : Res nat :=
    match v with [] => Throw RuntimeError | _ => Ok (min_element v) end.
  Definition vec_findMax (v : vec) : Res T :=
    match v with [] => Throw RuntimeError | _ => Ok (vget v (max_element v)) end.
  Definition vec_findMaxIndex (v : vec) : Res nat :=
    match v with [] => Throw RuntimeError | _ => Ok (max_element v) end.

  (** head, tail: vector.cpp:586-602 *)
  Definition vec_head (v : vec) (n : nat) : Res vec :=
    if Nat.ltb (length v) n then Throw OutOfRange else Ok (firstn n v).
  Definition vec_tail (v : vec) (n : nat) : Res vec :=
    if Nat.ltb (length v) n then Throw OutOfRange else Ok (skipn (length v - n) v).

  (** std::max(a,b) = (a < b) ? b : a ; std::min(a,b) = (b < a) ? b : a *)
  Definition nmax (a b : T) : T := if a <! b then b else a.
  Definition nmin (a b : T) : T := if b <! a then b else a.

  (** norm: vector.cpp:604-632 *)
  Definition vec_norm (t : NormType) (v : vec) : T :=
    match t with
    | L2 => nsqrt (nsum (length v) (fun i => vget v i *! vget v i))
    | L1 => nsum (length v) (fun i => nabs (vget v i))
    | LINF => loop (length v) (fun i r => nmax r (nabs (vget v i))) n0
    end.
  (** unitVector: vector.cpp:634-646 *)
  Definition vec_unit (t : NormType) (v : vec) : Res vec :=
    let nv := vec_norm t v in
    if nv ==! n0 then Throw RuntimeError else Ok (vbuild (length v) (fun i => vget v i /! nv)).

  (** is_equal: vector.cpp:737-752 *)
  Definition vec_is_equal (v w : vec) (tol : T) : bool :=
    if Nat.eqb (length v) (length w)
    then forallb (fun i => negb (nabs (vget v i -! vget w i) >! tol)) (seq 0 (length v))
    else false.
  (** is_zero, has_zeros: vector.cpp:756-772 *)
  Definition vec_is_zero (v : vec) (tol : T) : bool :=
    forallb (fun i => negb (nabs (vget v i) >! tol)) (seq 0 (length v)).
  Definition vec_has_zeros (v : vec) (tol : T) : bool :=
    existsb (fun i => nabs (vget v i) <=! tol) (seq 0 (length v)).
  (** is_between: vector.cpp:775-787 *)
  Definition vec_is_between (v lb ub : vec) : Res bool :=
    if (Nat.eqb (length v) (length lb) && Nat.eqb (length v) (length ub))%bool
    then Ok (forallb (fun i => negb ((vget v i <! vget lb i) || (vget v i >! vget ub i))) (seq 0 (length v)))
    else Throw InvalidArgument.
  (** has_nan: vector.cpp:790-797 *)
  Definition vec_has_nan (v : vec) : bool := existsb nisnan v.

  (** normalizeVector(xmin,xmax): vector.cpp:813-824.  xmin(i), xmax(i) throw when too short. *)
  Definition vec_normalize (v xmin xmax : vec) : Res vec :=
    let n := length v in
    if (Nat.ltb (length xmin) n || Nat.ltb (length xmax) n)%bool then Throw OutOfRange
    else
      let fac := n1 /! nofnat n in
      Ok (vbuild n (fun i => fac *! (vget v i -! vget xmin i) /! (vget xmax i -! vget xmin i))).
  (** normalizeVectorFast(xmin,xdiff): vector.cpp:800-811 *)
  Definition vec_normalizeFast (v xmin xdiff : vec) : Res vec :=
    let n := length v in
    if (Nat.ltb (length xmin) n || Nat.ltb (length xdiff) n)%bool then Throw OutOfRange
    else
      let fac := n1 /! nofnat n in
      Ok (vbuild n (fun i => fac *! (vget v i -! vget xmin i) /! vget xdiff i)).
  (** normalizeVector(double,double): vector.cpp:826-838 *)
  Definition vec_normalizeS (v : vec) (xmin xmax : T) : vec :=
    let n := length v in
    let fac := n1 /! nofnat n in
    let dx := xmax -! xmin in
    vbuild n (fun i => fac *! (vget v i -! xmin) /! dx).
  (** denormalizeVector: vector.cpp:843-852 *)
  Definition vec_denormalize (v xmin xmax : vec) : Res vec :=
    let n := length v in
    if (Nat.ltb (length xmin) n || Nat.ltb (length xmax) n)%bool then Throw OutOfRange
    else Ok (vbuild n (fun i => vget v i *! nofnat n *! (vget xmax i -! vget xmin i) +! vget xmin i)).
  (** denormalizeVectorFast: vector.cpp:854-863 *)
  Definition vec_denormalizeFast (v xmin xdiff : vec) : Res vec :=
    let n := length v in
    if (Nat.ltb (length xmin) n || Nat.ltb (length xdiff) n)%bool then Throw OutOfRange
    else Ok (vbuild n (fun i => vget v i *! nofnat n *! vget xdiff i +! vget xmin i)).

  (** std::sort.  Simplification: the algorithm is not libstdc++'s introsort but insertion sort; std::sort's
      contract fixes the result up to the order of equivalent elements (+0 and -0).
      A NaN violates std::sort's strict-weak-order precondition: undefined behaviour. *)
  Fixpoint insert (lt : T -> T -> bool) (x : T) (l : list T) : list T :=
    match l with
    | [] => [x]
    | y :: t => if lt y x then y :: insert lt x t else x :: l
    end.
  Definition isort (lt : T -> T -> bool) (l : list T) : list T := fold_right (insert lt) [] l.
  (** sort: vector.cpp:873-882 *)
  Definition vec_sort (v : vec) (ascending : bool) : Res vec :=
    if Nat.leb (length v) 1 then Ok v
    else if vec_has_nan v then UB
    else Ok (if ascending then isort nltb v else isort (fun a b => nltb b a) v).
  (** is_sorted: vector.cpp:884-902 *)
  Definition vec_is_sorted (v : vec) (ascending : bool) : bool :=
    if Nat.leb (length v) 1 then true
    else forallb (fun i => negb (if ascending then vget v i >! vget v (S i) else vget v i <! vget v (S i)))
                 (seq 0 (length v - 1)).
  (** findInterval: vector.cpp:904-926 *)
  Definition vec_findInterval (v : vec) (value : T) : Res Z :=
    if Nat.eqb (length v) 0 then Ok (-1)%Z
    else if negb (vec_is_sorted v true) then Throw LogicError
    else match find (fun i => (value >=! vget v i) && (value <! vget v (S i)))%bool (seq 0 (length v - 1)) with
         | Some i => Ok (Z.of_nat i)
         | None => if value >! vget v (length v - 1) then Ok (Z.of_nat (length v - 1)) else Ok (-1)%Z
         end.

  (** fillRandom(a,b): vector.cpp:394-407.  [u] are the draws of the generator in [0,1);
      uniform_real_distribution(a,b) maps a draw u to u*(b-a)+a (libstdc++). *)
  Definition unif (a b u : T) : T := u *! (b -! a) +! a.
  Definition vec_fillRandom (v : vec) (a b : T) (u : nat -> T) : Res vec :=
    if a >! b then Throw InvalidArgument else Ok (vbuild (length v) (fun i => unif a b (u i))).
  (** fillRandom(a,b) with vectors: vector.cpp:410-427.  Returns the object state and the outcome:
      entries before the first inverted interval are already overwritten when it throws. *)
  Definition vec_fillRandomV (v a b : vec) (u : nat -> T) : vec * Res unit :=
    if negb (Nat.eqb (length a) (length v) && Nat.eqb (length b) (length v)) then (v, Throw InvalidArgument)
    else loop (length v)
           (fun i st => match st with
                        | (w, Ok _) => if vget a i >! vget b i then (w, Throw InvalidArgument)
                                       else (upd w i (unif (vget a i) (vget b i) (u i)), Ok tt)
                        | _ => st
                        end) (v, Ok tt).
  (** generateRandomVectorBetween: vector.cpp:430-445.  Simplification: uniform_real_distribution with
      lower > upper violates its precondition (undefined behaviour). *)
  Definition vec_randomBetween (lo up : vec) (u : nat -> T) : Res vec :=
    if negb (Nat.eqb (length lo) (length up)) then Throw InvalidArgument
    else if existsb (fun i => vget lo i >! vget up i) (seq 0 (length lo)) then UB
    else Ok (vbuild (length lo) (fun i => unif (vget lo i) (vget up i) (u i))).

  (** quantile: vector.cpp:1114-1139 *)
  Definition vec_quantile (v : vec) (p : T) : Res T :=
    if ((p <! n0) || (p >! n1))%bool then Throw InvalidArgument
    else if Nat.eqb (length v) 0 then Throw RuntimeError
    else if (Nat.ltb 1 (length v) && vec_has_nan v)%bool then UB
    else
      let s := isort nltb v in
      let idx := p *! nofZ (Z.of_nat (length v) - 1) in
      match nfloor idx, nceil idx with
      | Some lo, Some hi =>
          if (lo =? hi)%Z then Ok (vget s (Z.to_nat lo))
          else
            let weight := idx -! nofZ lo in
            Ok (vget s (Z.to_nat lo) *! (n1 -! weight) +! vget s (Z.to_nat hi) *! weight)
      | _, _ => UB
      end.

  (** mean, standardDeviation: vector.cpp:1141-1164 *)
  Definition vec_mean (v : vec) : Res T :=
    if Nat.eqb (length v) 0 then Throw RuntimeError else Ok (vec_sum v /! nofnat (length v)).
  Definition vec_std (v : vec) : Res T :=
    m <- vec_mean v ;;
    Ok (nsqrt (nsum (length v) (fun i => (vget v i -! m) *! (vget v i -! m)) /! nofnat (length v))).
End VecModel.
Arguments vec T : clear implicits.

Section Correlation.
  Context {T : Type} `{NT : Num T} `{NF : NumFun T}.

  (** computeGaussianCorrelationNaive: vector.cpp:943-951 (the other entry points delegate to it) *)
  Definition gauss_corr (v1 v2 theta : vec T) (n : nat) : T :=
    nexp (nopp (nsum n (fun i => let d := vget v1 i -! vget v2 i in vget theta i *! (d *! d)))).
  (** computeGaussianCorrelationDot: vector.cpp:954-974 *)
  Definition gauss_corr_dot (xi xj dir theta : vec T) (n : nat) : T :=
    let sumd := nsum n (fun k => nofZ (-2) *! vget theta k *! (vget xi k -! vget xj k) *! vget dir k) in
    let sum := nsum n (fun k => vget theta k *! (vget xi k -! vget xj k) *! (vget xi k -! vget xj k)) in
    let correlation := nexp (nopp sum) in
    nofZ (-1) *! sumd *! correlation.
  (** computeGaussianCorrelationDotDot: vector.cpp:977-1002 *)
  Definition gauss_corr_dotdot (xi xj d1 d2 theta : vec T) (n : nat) : T :=
    let tdd := nsum n (fun i => nofZ 2 *! vget theta i *! vget d1 i *! vget d2 i) in
    let td := loop n (fun i acc => acc -! nofZ 2 *! vget theta i *! vget d1 i *! (vget xi i -! vget xj i)) n0 in
    let td0 := loop n (fun i acc => acc -! vget theta i *! nofZ 2 *! (vget xi i -! vget xj i) *! vget d2 i) n0 in
    let t := nsum n (fun i => vget theta i *! (vget xi i -! vget xj i) *! (vget xi i -! vget xj i)) in
    nopp (nexp (nopp t) *! tdd -! td *! nexp (nopp t) *! td0).
  (** computeExponentialCorrelationNaive: vector.cpp:1077-1089 *)
  Definition exp_corr (v1 v2 theta gamma : vec T) (n : nat) : T :=
    nexp (nopp (nsum n (fun k => vget theta k *! npow (nabs (vget v1 k -! vget v2 k)) (vget gamma k)))).
  (** computeExponentialCorrelationDot: vector.cpp:1034-1072 *)
  Definition exp_corr_dot (xi xj dir theta gamma : vec T) (n : nat) : T :=
    let fabs0 k := if vget xi k -! vget xj k >=! n0 then vget xi k -! vget xj k else nopp (vget xi k -! vget xj k) in
    let fabs0d k := if vget xi k -! vget xj k >=! n0 then nopp (vget dir k) else vget dir k in
    let sumd := nsum n (fun k => vget theta k *! (vget gamma k *! npow (fabs0 k) (vget gamma k -! n1) *! fabs0d k)) in
    let sum := nsum n (fun k => vget theta k *! npow (fabs0 k) (vget gamma k)) in
    nopp (nexp (nopp sum) *! sumd).
End Correlation.
