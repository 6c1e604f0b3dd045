(** Class Design: src/Design/design.cpp, INCLUDE/design.hpp:61-166.
    Printing, logging and text output are not modelled. *)
From Coq Require Import List Arith Bool ZArith.
From Verif Require Import Base Num VecModel MatModel.
Import ListNotations.

Section DesignModel.
  Context {T : Type} `{NT : Num T}.

  (** members: design.hpp:65-120 (the fields never read by the modelled code are left out);
      ds_con = constraintTrueValues, ds_cg = constraintGradients, ds_cgm = constraintGradientsMatrix,
      ds_cdm = constraintDifferentiationDirectionsMatrix, ds_ct = constraintTangent; suffix L = low fidelity *)
  Record design := mkD {
    ds_dim : nat; ds_nc : nat; ds_x : vec T; ds_xn : vec T; ds_con : vec T; ds_conL : vec T;
    ds_grad : vec T; ds_gradL : vec T; ds_dir : vec T;
    ds_f : T; ds_fL : T; ds_t : T; ds_tL : T; ds_imp : T;
    ds_cg : list (vec T); ds_cgm : mat T; ds_cgmL : mat T; ds_cdm : mat T; ds_cdmL : mat T; ds_ct : vec T; ds_ctL : vec T;
    ds_ID : Z; ds_feas : bool }.
  Definition design_new : design :=
    mkD 0 0 [] [] [] [] [] [] [] n0 n0 n0 n0 n0 [] mat_empty mat_empty mat_empty mat_empty [] [] 0 true.
  (** setDimension: 44-54 *)
  Definition design_setDimension (d : nat) (s : design) : design * Res unit :=
    if Nat.eqb d 0 then (s, Throw InvalidArgument)
    else (mkD d (ds_nc s) (vec_resize (ds_x s) d n0) (ds_xn s) (ds_con s) (ds_conL s) (vec_resize (ds_grad s) d n0)
            (vec_resize (ds_gradL s) d n0) (ds_dir s) (ds_f s) (ds_fL s) (ds_t s) (ds_tL s) (ds_imp s)
            (ds_cg s) (ds_cgm s) (ds_cgmL s) (ds_cdm s) (ds_cdmL s) (ds_ct s) (ds_ctL s) (ds_ID s) (ds_feas s), Ok tt).
  (** setNumberOfConstraints: 58-76 *)
  Definition design_setNumberOfConstraints (n : nat) (s : design) : design * Res unit :=
    if Nat.eqb (ds_dim s) 0 then (s, Throw InvalidArgument)
    else (mkD (ds_dim s) n (ds_x s) (ds_xn s) (vec_resize (ds_con s) n n0) (vec_resize (ds_conL s) n n0) (ds_grad s)
            (ds_gradL s) (ds_dir s) (ds_f s) (ds_fL s) (ds_t s) (ds_tL s) (ds_imp s)
            (ds_cg s) (mat_resize (ds_cgm s) n (ds_dim s)) (mat_resize (ds_cgmL s) n (ds_dim s))
            (mat_resize (ds_cdm s) n (ds_dim s)) (mat_resize (ds_cdmL s) n (ds_dim s))
            (vec_resize (ds_ct s) n n0) (vec_resize (ds_ctL s) n n0) (ds_ID s) (ds_feas s), Ok tt).
  Definition ds_set_point (x xn : vec T) (s : design) : design :=
    mkD (ds_dim s) (ds_nc s) x xn (ds_con s) (ds_conL s) (ds_grad s) (ds_gradL s) (ds_dir s) (ds_f s) (ds_fL s) (ds_t s) (ds_tL s) (ds_imp s)
        (ds_cg s) (ds_cgm s) (ds_cgmL s) (ds_cdm s) (ds_cdmL s) (ds_ct s) (ds_ctL s) (ds_ID s) (ds_feas s).
  Definition ds_set_f (f : T) (s : design) : design :=
    mkD (ds_dim s) (ds_nc s) (ds_x s) (ds_xn s) (ds_con s) (ds_conL s) (ds_grad s) (ds_gradL s) (ds_dir s) f (ds_fL s) (ds_t s) (ds_tL s) (ds_imp s)
        (ds_cg s) (ds_cgm s) (ds_cgmL s) (ds_cdm s) (ds_cdmL s) (ds_ct s) (ds_ctL s) (ds_ID s) (ds_feas s).
  Definition ds_set_con (c : vec T) (s : design) : design :=
    mkD (ds_dim s) (ds_nc s) (ds_x s) (ds_xn s) c (ds_conL s) (ds_grad s) (ds_gradL s) (ds_dir s) (ds_f s) (ds_fL s) (ds_t s) (ds_tL s) (ds_imp s)
        (ds_cg s) (ds_cgm s) (ds_cgmL s) (ds_cdm s) (ds_cdmL s) (ds_ct s) (ds_ctL s) (ds_ID s) (ds_feas s).
  Definition ds_set_imp (v : T) (s : design) : design :=
    mkD (ds_dim s) (ds_nc s) (ds_x s) (ds_xn s) (ds_con s) (ds_conL s) (ds_grad s) (ds_gradL s) (ds_dir s) (ds_f s) (ds_fL s) (ds_t s) (ds_tL s) v
        (ds_cg s) (ds_cgm s) (ds_cgmL s) (ds_cdm s) (ds_cdmL s) (ds_ct s) (ds_ctL s) (ds_ID s) (ds_feas s).
  Definition ds_set_feas (b : bool) (s : design) : design :=
    mkD (ds_dim s) (ds_nc s) (ds_x s) (ds_xn s) (ds_con s) (ds_conL s) (ds_grad s) (ds_gradL s) (ds_dir s) (ds_f s) (ds_fL s) (ds_t s) (ds_tL s) (ds_imp s)
        (ds_cg s) (ds_cgm s) (ds_cgmL s) (ds_cdm s) (ds_cdmL s) (ds_ct s) (ds_ctL s) (ds_ID s) b.
  Definition ds_set_ID (i : Z) (s : design) : design :=
    mkD (ds_dim s) (ds_nc s) (ds_x s) (ds_xn s) (ds_con s) (ds_conL s) (ds_grad s) (ds_gradL s) (ds_dir s) (ds_f s) (ds_fL s) (ds_t s) (ds_tL s) (ds_imp s)
        (ds_cg s) (ds_cgm s) (ds_cgmL s) (ds_cdm s) (ds_cdmL s) (ds_ct s) (ds_ctL s) i (ds_feas s).
  Definition ds_set_grad (g : vec T) (s : design) : design :=
    mkD (ds_dim s) (ds_nc s) (ds_x s) (ds_xn s) (ds_con s) (ds_conL s) g (ds_gradL s) (ds_dir s) (ds_f s) (ds_fL s) (ds_t s) (ds_tL s) (ds_imp s)
        (ds_cg s) (ds_cgm s) (ds_cgmL s) (ds_cdm s) (ds_cdmL s) (ds_ct s) (ds_ctL s) (ds_ID s) (ds_feas s).

  (** the common shape of the constructSample functions: a zero vector of the given length, copyVector of the
      parameters to the front, then assignments sample(i) = v in order *)
  Fixpoint sample_fill (v : vec T) (l : list (nat * T)) : Res (vec T) :=
    match l with [] => Ok v | (i, x) :: t => w <- vec_set v i x ;; sample_fill w t end.
  Definition sample_make (len : nat) (x : vec T) (l : list (nat * T)) : Res (vec T) :=
    v <- vec_copy (repeat n0 len) x 0 ;; sample_fill v l.
  (** reading a vector component by component, for (i<dimension) sample(off+i) = w(i) *)
  Fixpoint sample_vec (w : vec T) (off : nat) (idx : list nat) (v : vec T) : Res (vec T) :=
    match idx with
    | [] => Ok v
    | i :: t => y <- vec_at w i ;; v1 <- vec_set v (off + i) y ;; sample_vec w off t v1
    end.
  (** constructSampleObjectiveFunction: 95-101; LowFi: 104-112 *)
  Definition sample_obj (s : design) : Res (vec T) := sample_make (ds_dim s + 1) (ds_x s) [(ds_dim s, ds_f s)].
  Definition sample_objL (s : design) : Res (vec T) := sample_make (ds_dim s + 1) (ds_x s) [(ds_dim s, ds_fL s)].
  (** WithTangent: 116-133; WithTangentLowFi: 135-152 *)
  Definition sample_objT (s : design) : Res (vec T) :=
    if negb (Nat.eqb (length (ds_dir s)) (ds_dim s)) then Throw InvalidArgument
    else v <- sample_make (2 * ds_dim s + 2) (ds_x s) [(ds_dim s, ds_f s); (ds_dim s + 1, ds_t s)] ;;
         sample_vec (ds_dir s) (ds_dim s + 2) (seq 0 (ds_dim s)) v.
  Definition sample_objTL (s : design) : Res (vec T) :=
    if negb (Nat.eqb (length (ds_dir s)) (ds_dim s)) then Throw InvalidArgument
    else v <- sample_make (2 * ds_dim s + 2) (ds_x s) [(ds_dim s, ds_fL s); (ds_dim s + 1, ds_tL s)] ;;
         sample_vec (ds_dir s) (ds_dim s + 2) (seq 0 (ds_dim s)) v.
  (** WithGradient: 154-170; WithZeroGradient: 172-187; WithGradientLowFi: 191-207 *)
  Definition sample_objG (s : design) : Res (vec T) :=
    if negb (Nat.eqb (length (ds_grad s)) (ds_dim s)) then Throw InvalidArgument
    else v <- sample_make (2 * ds_dim s + 1) (ds_x s) [(ds_dim s, ds_f s)] ;;
         sample_vec (ds_grad s) (ds_dim s + 1) (seq 0 (ds_dim s)) v.
  Definition sample_objG0 (s : design) : Res (vec T) :=
    if negb (Nat.eqb (length (ds_grad s)) (ds_dim s)) then Throw InvalidArgument
    else v <- sample_make (2 * ds_dim s + 1) (ds_x s) [(ds_dim s, ds_f s)] ;;
         sample_vec (repeat n0 (ds_dim s)) (ds_dim s + 1) (seq 0 (ds_dim s)) v.
  Definition sample_objGL (s : design) : Res (vec T) :=
    if negb (Nat.eqb (length (ds_gradL s)) (ds_dim s)) then Throw InvalidArgument
    else v <- sample_make (2 * ds_dim s + 1) (ds_x s) [(ds_dim s, ds_fL s)] ;;
         sample_vec (ds_gradL s) (ds_dim s + 1) (seq 0 (ds_dim s)) v.
  (** constructSampleConstraint: 209-225; LowFi: 227-243 *)
  Definition sample_con (c : nat) (s : design) : Res (vec T) :=
    if Nat.leb (ds_nc s) c then Throw OutOfRange
    else if negb (Nat.eqb (length (ds_con s)) (ds_nc s)) then Throw InvalidArgument
    else sample_make (ds_dim s + 1) (ds_x s) [(ds_dim s, vget (ds_con s) c)].
  Definition sample_conL (c : nat) (s : design) : Res (vec T) :=
    if Nat.leb (ds_nc s) c then Throw OutOfRange
    else if negb (Nat.eqb (length (ds_conL s)) (ds_nc s)) then Throw InvalidArgument
    else sample_make (ds_dim s + 1) (ds_x s) [(ds_dim s, vget (ds_conL s) c)].
  (** constructSampleConstraintWithTangent: 246-276 -- the direction is row [ID], not row [c]; LowFi: 278-310 *)
  Definition sample_conT (c : nat) (s : design) : Res (vec T) :=
    if Nat.leb (ds_nc s) c then Throw OutOfRange
    else if negb (Nat.eqb (length (ds_con s)) (ds_nc s)) then Throw InvalidArgument
    else if negb (Nat.eqb (nrows (ds_cdm s)) (ds_nc s)) then Throw InvalidArgument
    else if negb (Nat.eqb (length (ds_ct s)) (ds_nc s)) then Throw InvalidArgument
    else v <- sample_make (2 * ds_dim s + 2) (ds_x s) [(ds_dim s, vget (ds_con s) c); (ds_dim s + 1, vget (ds_ct s) c)] ;;
         w <- mat_getRow (ds_cdm s) (ds_ID s) ;;
         sample_vec w (ds_dim s + 2) (seq 0 (ds_dim s)) v.
  Definition sample_conTL (c : nat) (s : design) : Res (vec T) :=
    if Nat.leb (ds_nc s) c then Throw OutOfRange
    else if negb (Nat.eqb (length (ds_conL s)) (ds_nc s)) then Throw InvalidArgument
    else if negb (Nat.eqb (nrows (ds_cdmL s)) (ds_nc s)) then Throw InvalidArgument
    else if negb (Nat.eqb (length (ds_ctL s)) (ds_nc s)) then Throw InvalidArgument
    else v <- sample_make (2 * ds_dim s + 2) (ds_x s) [(ds_dim s, vget (ds_conL s) c); (ds_dim s + 1, vget (ds_ctL s) c)] ;;
         w <- mat_getRow (ds_cdmL s) (Z.of_nat c) ;;
         sample_vec w (ds_dim s + 2) (seq 0 (ds_dim s)) v.
  (** constructSampleConstraintWithGradient: 312-332; LowFi: 334-352 *)
  Definition sample_conG (c : nat) (s : design) : Res (vec T) :=
    if Nat.leb (ds_nc s) c then Throw OutOfRange
    else if negb (Nat.eqb (length (ds_con s)) (ds_nc s)) then Throw InvalidArgument
    else v <- sample_make (2 * ds_dim s + 1) (ds_x s) [(ds_dim s, vget (ds_con s) c)] ;;
         w <- mat_getRow (ds_cgm s) (Z.of_nat c) ;;
         sample_vec w (ds_dim s + 1) (seq 0 (ds_dim s)) v.
  Definition sample_conGL (c : nat) (s : design) : Res (vec T) :=
    if Nat.leb (ds_nc s) c then Throw OutOfRange
    else if negb (Nat.eqb (length (ds_conL s)) (ds_nc s)) then Throw InvalidArgument
    else v <- sample_make (2 * ds_dim s + 1) (ds_x s) [(ds_dim s, vget (ds_conL s) c)] ;;
         w <- mat_getRow (ds_cgmL s) (Z.of_nat c) ;;
         sample_vec w (ds_dim s + 1) (seq 0 (ds_dim s)) v.
  (** checkIfHasNan: 354-382 *)
  Definition design_hasNan (s : design) : bool :=
    nisnan (ds_f s) || vec_has_nan (ds_grad s) || vec_has_nan (ds_con s) || existsb vec_has_nan (ds_cg s).
End DesignModel.
Arguments design : clear implicits.
