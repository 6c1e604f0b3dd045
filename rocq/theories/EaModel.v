(** Model of the evolutionary optimiser:
    /repo/src/InternalOptimizers/ea_individual.cpp, ea_population.cpp, ea_optimizer.cpp and general_purpose_optimizer.cpp.
    Random numbers are arguments.  Identifiers and counters are nat (the code uses unsigned int, wrap-around is not modelled).
    The operations return the new object or the exception; the half-updated object that an exception leaves behind is not modelled.
    Printing is not modelled. *)
From Coq Require Import List Arith ZArith Bool.
From Verif Require Import Base Num VecModel MatModel.
Import ListNotations.

Section EaModel.
  Context {T : Type} {NT : Num T}.

  (** ** EAIndividual: INCLUDE/ea_individual.hpp:18-24, ea_individual.cpp:15-113 *)
  Record ind := mkI { i_id : nat; i_dim : nat; i_genes : vec T; i_obj : T; i_fit : T; i_rep : T; i_death : T }.
  (** EAIndividual(dim): 18 *)
  Definition ind_new (dim : nat) : ind := mkI 0 dim (repeat n0 dim) n0 n0 n0 n0.
  Definition iset_id v i := mkI v (i_dim i) (i_genes i) (i_obj i) (i_fit i) (i_rep i) (i_death i).
  Definition iset_genes v i := mkI (i_id i) (i_dim i) v (i_obj i) (i_fit i) (i_rep i) (i_death i).
  Definition iset_obj v i := mkI (i_id i) (i_dim i) (i_genes i) v (i_fit i) (i_rep i) (i_death i).
  Definition iset_fit v i := mkI (i_id i) (i_dim i) (i_genes i) (i_obj i) v (i_rep i) (i_death i).
  (** setReproductionProbabilityValue: 70-83; setDeathProbabilityValue: 85-95 *)
  Definition ind_setRep (i : ind) (v : T) : Res ind :=
    if v <=! n0 then Throw OutOfRange else if v >=! n1 then Throw OutOfRange
    else Ok (mkI (i_id i) (i_dim i) (i_genes i) (i_obj i) (i_fit i) v (i_death i)).
  Definition ind_setDeath (i : ind) (v : T) : Res ind :=
    if v <! n0 then Throw OutOfRange else if v >! n1 then Throw OutOfRange
    else Ok (mkI (i_id i) (i_dim i) (i_genes i) (i_obj i) (i_fit i) (i_rep i) v).
  (** initializeGenes: 106-111 *)
  Definition ind_initGenes (i : ind) (v : vec T) : Res ind :=
    if negb (Nat.eqb (i_dim i) (length v)) then Throw InvalidArgument else Ok (iset_genes v i).

  (** ** EAPopulation: INCLUDE/ea_population.hpp:18-28 *)
  Record pop := mkP { p_inds : list ind; p_min : T; p_max : T; p_idmin : nat; p_idmax : nat; p_dim : nat }.
  (** the maximum starts at numeric_limits<double>::min(), the smallest positive normal number *)
  Definition pop_new (dim : nat) : pop := mkP [] ndblmax ndblmin 0 0 dim.
  Definition pset_inds v p := mkP v (p_min p) (p_max p) (p_idmin p) (p_idmax p) (p_dim p).
  (** updateMinAndMaxIfNecessary: 335-346 *)
  Definition pop_minmax (J : T) (id : nat) (p : pop) : pop :=
    let p := if J >! p_max p then mkP (p_inds p) (p_min p) J (p_idmin p) id (p_dim p) else p in
    if J <! p_min p then mkP (p_inds p) J (p_max p) id (p_idmax p) (p_dim p) else p.
  (** updatePopulationMinAndMax: 348-361 *)
  Definition pop_recompute (p : pop) : pop :=
    fold_left (fun q i => pop_minmax (i_obj i) (i_id i) q) (p_inds p) (mkP (p_inds p) ndblmax ndblmin (p_idmin p) (p_idmax p) (p_dim p)).
  (** addIndividual: 30-43; addAGroupOfIndividuals: 46-54 *)
  Definition pop_add (p : pop) (i : ind) : Res pop :=
    if negb (Nat.eqb (i_dim i) (p_dim p)) then Throw InvalidArgument
    else Ok (pop_minmax (i_obj i) (i_id i) (pset_inds (p_inds p ++ [i]) p)).
  Fixpoint pop_addGroup (p : pop) (l : list ind) : Res pop :=
    match l with [] => Ok p | i :: l => p <- pop_add p i ;; pop_addGroup p l end.
  (** getIndividualOrderInPopulationById: 110-126; [None] is -1 *)
  Fixpoint find_id (l : list ind) (id : nat) (k : nat) : option nat :=
    match l with [] => None | i :: l => if Nat.eqb id (i_id i) then Some k else find_id l id (S k) end.
  Definition pop_order (p : pop) (id : nat) : option nat := find_id (p_inds p) id 0.
  (** removeIndividual: 65-81 *)
  Definition pop_remove (p : pop) (order : nat) : Res pop :=
    match nth_error (p_inds p) order with
    | None => Throw OutOfRange
    | Some i =>
        let q := pset_inds (firstn order (p_inds p) ++ skipn (S order) (p_inds p)) p in
        Ok (if (Nat.eqb (i_id i) (p_idmax p) || Nat.eqb (i_id i) (p_idmin p))%bool then pop_recompute q else q)
    end.
  (** removeIndividualById: 57-63; an unknown id gives the order (unsigned) -1, which removeIndividual rejects *)
  Definition pop_removeById (p : pop) (id : nat) : Res pop :=
    match pop_order p id with None => Throw OutOfRange | Some k => pop_remove p k end.
  (** getIndividual: 91-98; getTheBestIndividual, getTheWorstIndividual: 100-108 *)
  Definition pop_get (p : pop) (id : nat) : Res ind :=
    match pop_order p id with
    | None => Throw AssertFail
    | Some k => match nth_error (p_inds p) k with Some i => Ok i | None => Throw OutOfRange end
    end.
  Definition pop_best (p : pop) : Res ind := pop_get p (p_idmin p).
  Definition pop_worst (p : pop) : Res ind := pop_get p (p_idmax p).
  (** hasRepeatedIDs: 657-676 *)
  Fixpoint repeated_ids (seen : list nat) (l : list ind) : bool :=
    match l with [] => false | i :: l => if existsb (Nat.eqb (i_id i)) seen then true else repeated_ids (i_id i :: seen) l end.
  Definition pop_hasRepeated (p : pop) : bool := repeated_ids [] (p_inds p).

  (** findPolynomialCoefficientsForQuadraticFitnessDistribution: 458-510 *)
  Definition fit_matrix (mn mx : T) : mat T :=
    mkMat 3 3 [mn *! mn; mx *! mx; nofZ 2 *! mx;  mn; mx; n1;  n1; n1; n0].
  Definition pop_coefficients (p : pop) : Res (vec T) :=
    inv <- mat_invert (fit_matrix (p_min p) (p_max p)) ;; mat_vec inv [n1; nlit 1 (-2); n0].
  (** checkIfAllObjectiveFunctionValuesAreZero: 364-376 *)
  Definition all_zero (l : list ind) : bool := forallb (fun i => nabs (i_obj i) <! nlit 1 (-14)) l.
  Fixpoint mapR {A B} (f : A -> Res B) (l : list A) : Res (list B) :=
    match l with [] => Ok [] | a :: l => b <- f a ;; r <- mapR f l ;; Ok (b :: r) end.
  (** updateFitnessValuesQuadratic: 406-425, updateFitnessValues: 427-446.  polynomialForFitnessDistrubution is "quadratic" and
      has no setter, so the linear variant (394-404) is never used *)
  Definition fit_value (c : vec T) (x : T) : T := vget c 0 *! x *! x +! vget c 1 *! x +! vget c 2.
  Definition pop_fitness (p : pop) : Res pop :=
    if Nat.eqb (length (p_inds p)) 0 then Throw RuntimeError
    else if all_zero (p_inds p) then Throw RuntimeError
    else
      c <- pop_coefficients p ;;
      l <- mapR (fun i => let f := fit_value c (i_obj i) in if f <=! n0 then Throw RuntimeError else Ok (iset_fit f i)) (p_inds p) ;;
      Ok (pset_inds l p).
  (** the accumulations of updateReproductionProbabilities start from 0.0 and go through the population in order *)
  Definition sum_of (f : ind -> T) (l : list ind) : T := fold_left (fun s i => s +! f i) l n0.
  (** updateReproductionProbabilities: 514-531 *)
  Definition pop_reproduction (p : pop) : Res pop :=
    let s := sum_of i_fit (p_inds p) in
    l <- mapR (fun i => ind_setRep i (i_fit i /! s)) (p_inds p) ;; Ok (pset_inds l p).
  (** updateDeathProbabilities: 534-571 *)
  Definition death_weights (fits : vec T) (q : T) : vec T :=
    vbuild (length fits) (fun i => if vget fits i >! q then n0 else n1 /! vget fits i).
  Definition pop_death (p : pop) : Res pop :=
    let fits := map i_fit (p_inds p) in
    q <- vec_quantile fits (nlit 9 (-1)) ;;
    let w := death_weights fits q in
    let s := vec_sum w in
    l <- mapR (fun iw => ind_setDeath (fst iw) (snd iw /! s)) (combine (p_inds p) w) ;; Ok (pset_inds l p).
  (** updatePopulationProperties: 574-587 *)
  Definition pop_update (p : pop) : Res pop :=
    if Nat.eqb (length (p_inds p)) 0 then Throw RuntimeError
    else p <- pop_fitness p ;; p <- pop_reproduction p ;; pop_death p.
  (** the roulette wheel: pickUpARandomIndividualForReproduction: 589-606, pickUpAnIndividualThatWillDie: 625-646 *)
  Fixpoint roulette (f : ind -> T) (l : list ind) (r acc : T) : Res ind :=
    match l with
    | [] => Throw RuntimeError
    | i :: l => let acc := acc +! f i in if r <! acc then Ok i else roulette f l r acc
    end.
  Definition pop_pickRep (p : pop) (r : T) : Res ind := roulette i_rep (p_inds p) r n0.
  Definition pop_pickDeath (p : pop) (r : T) : Res ind := roulette i_death (p_inds p) r n0.
  (** the do-while loop of generateRandomParents: 608-622.  [rs] are the random numbers it draws; the loop ends with the first one
      that selects another identifier.  [Ok None]: the loop is still running after all of [rs] *)
  Fixpoint pop_father (p : pop) (mother : nat) (rs : list T) : Res (option ind) :=
    match rs with
    | [] => Ok None
    | r :: rs => f <- pop_pickRep p r ;; if Nat.eqb mother (i_id f) then pop_father p mother rs else Ok (Some f)
    end.
  Definition pop_parents (p : pop) (r : T) (rs : list T) : Res (option (ind * ind)) :=
    if Nat.ltb (length (p_inds p)) 2 then Throw RuntimeError
    else m <- pop_pickRep p r ;; f <- pop_father p (i_id m) rs ;; Ok (option_map (fun f => (m, f)) f).

  (** ** EAOptimizer: the settings (INCLUDE/ea_optimizer.hpp:27-53, general_purpose_optimizer.hpp:20-45).
      [c_f] is the objective function, a total function of the design vector that may throw *)
  Record econf := mkEC { c_dim : nat; c_lo : vec T; c_up : vec T; c_bset : bool; c_mutp : T; c_size : nat; c_new : nat; c_deaths : nat; c_gens : nat; c_max : nat;
    c_f : vec T -> Res T }.
  (** setBounds(vec,vec): general_purpose_optimizer.cpp:47-64; setBounds(double,double): 21-32 (no comparison of the two bounds) *)
  Definition ec_setBounds (c : econf) (lb ub : vec T) : Res econf :=
    if negb (Nat.eqb (length lb) (length ub)) then Throw InvalidArgument
    else if negb (Nat.eqb (length lb) (c_dim c)) then Throw InvalidArgument
    else g <- vec_gt ub lb ;;
         if negb g then Throw InvalidArgument
         else Ok (mkEC (c_dim c) lb ub true (c_mutp c) (c_size c) (c_new c) (c_deaths c) (c_gens c) (c_max c) (c_f c)).
  Definition ec_setBounds1 (c : econf) (lb ub : T) : Res econf :=
    if Nat.eqb (c_dim c) 0 then Throw InvalidArgument
    else Ok (mkEC (c_dim c) (repeat lb (c_dim c)) (repeat ub (c_dim c)) true (c_mutp c) (c_size c) (c_new c) (c_deaths c) (c_gens c) (c_max c) (c_f c)).
  (** setMutationProbability: ea_optimizer.cpp:31-38; setMaxNumberOfFunctionEvaluations: general_purpose_optimizer.cpp:75-80 *)
  Definition ec_setMutation (c : econf) (v : T) : Res econf :=
    if ((v <=! n0) || (v >=! n1))%bool then Throw InvalidArgument
    else Ok (mkEC (c_dim c) (c_lo c) (c_up c) (c_bset c) v (c_size c) (c_new c) (c_deaths c) (c_gens c) (c_max c) (c_f c)).
  Definition ec_setMax (c : econf) (n : nat) : Res econf :=
    if Nat.eqb n 0 then Throw InvalidArgument
    else Ok (mkEC (c_dim c) (c_lo c) (c_up c) (c_bset c) (c_mutp c) (c_size c) (c_new c) (c_deaths c) (c_gens c) n (c_f c)).
  (** checkIfSettingsAreOk: 391-429 (without warm start) *)
  Definition ec_check (c : econf) : Res unit :=
    if negb (c_bset c) then Throw RuntimeError
    else if Nat.eqb (c_new c) 0 then Throw InvalidArgument
    else if Nat.eqb (c_size c) 0 then Throw InvalidArgument
    else if Nat.eqb (c_dim c) 0 then Throw InvalidArgument
    else if Nat.eqb (c_gens c) 0 then Throw InvalidArgument
    else if Nat.eqb (c_max c) 0 then Throw InvalidArgument
    else if Nat.leb (c_size c + c_new c) (c_deaths c) then Throw InvalidArgument
    else Ok tt.

  (** the state of the optimiser: the four populations and totalNumberOfGeneratedIndividuals; the counters of crossovers and
      mutations are only printed *)
  Record ea := mkEA { e_pop : pop; e_gen : pop; e_rem : pop; e_hist : pop; e_total : nat; e_init : bool }.
  Definition ea_new (dim : nat) : ea := mkEA (pop_new dim) (pop_new dim) (pop_new dim) (pop_new dim) 0 false.

  (** callObjectiveFunction: 69-88 *)
  Definition ea_call (c : econf) (i : ind) : Res ind :=
    if Nat.eqb (c_dim c) 0 then Throw RuntimeError
    else if negb (Nat.eqb (length (i_genes i)) (c_dim c)) then Throw RuntimeError
    else v <- c_f c (i_genes i) ;; Ok (iset_obj v i).
  (** generateRandomIndividual: 91-118 *)
  Definition ea_random (c : econf) (total : nat) (u : nat -> T) : Res ind :=
    if negb (c_bset c) then Throw RuntimeError
    else g <- vec_randomBetween (c_lo c) (c_up c) u ;; i <- ind_initGenes (ind_new (c_dim c)) g ;;
         ea_call c (iset_id (S total) i).
  (** initializePopulation: 121-157; [us] the draws of the k-th individual *)
  Definition ea_initialize (c : econf) (us : nat -> nat -> T) (e : ea) : Res ea :=
    if Nat.eqb (c_size c) 0 then Throw RuntimeError
    else if negb (c_bset c) then Throw RuntimeError
    else
      tl <- loopR (c_size c) (fun k tl => i <- ea_random c (fst tl) (us k) ;; Ok (S (fst tl), snd tl ++ [i])) (e_total e, []) ;;
      p <- pop_addGroup (pset_inds [] (e_pop e)) (snd tl) ;;
      h <- pop_addGroup (e_hist e) (snd tl) ;;
      p <- pop_update p ;;
      if pop_hasRepeated p then Throw RuntimeError
      else Ok (mkEA p (e_gen e) (e_rem e) h (fst tl) true).

  (** applyMutation: 210-233; [u] draws the random vector, [m] the decision for each gene *)
  Definition ea_mutate (c : econf) (g : vec T) (u m : nat -> T) : Res (vec T) :=
    if ((c_mutp c <=! n0) || (c_mutp c >=! n1))%bool then Throw InvalidArgument
    else if negb (c_bset c) then Throw RuntimeError
    else r <- vec_randomBetween (c_lo c) (c_up c) u ;;
         if Nat.ltb (length r) (length g) && existsb (fun i => m i <! c_mutp c) (seq (length r) (length g - length r)) then Throw OutOfRange
         else Ok (vbuild (length g) (fun i => if m i <! c_mutp c then vget r i else vget g i)).
  (** generateRandomDoubleFromNormalDist: 236-247; [z] is the draw of the standard normal distribution,
      std::normal_distribution(mu, sigma) returns z*sigma + mu (libstdc++) *)
  Definition normal_between (xs xe z : T) : T :=
    let sigma := nabs (xe -! xs) /! nofZ 6 in
    let mu := (xe +! xs) /! nofZ 2 in
    let sigma := if sigma ==! n0 then n1 else sigma in
    z *! sigma +! mu.
  (** the clamping at the end of crossOver: 276-279 *)
  Definition clamp (lo up x : T) : T :=
    let x := if x <! lo then lo else x in if x >! up then up else x.
  (** crossOver: 250-282 *)
  Definition ea_crossOver (c : econf) (mo fa : ind) (z u m : nat -> T) : Res (vec T) :=
    if Nat.eqb (i_id mo) (i_id fa) then Throw InvalidArgument
    else if negb (Nat.eqb (length (i_genes mo)) (length (i_genes fa))) then Throw InvalidArgument
    else
      let g := vbuild (length (i_genes mo)) (fun i => normal_between (vget (i_genes mo) i) (vget (i_genes fa) i) (z i)) in
      g <- ea_mutate c g u m ;;
      if (Nat.ltb (length g) (c_dim c) || Nat.ltb (length (c_lo c)) (c_dim c) || Nat.ltb (length (c_up c)) (c_dim c))%bool then Throw OutOfRange
      else Ok (vbuild (length g) (fun i => if Nat.ltb i (c_dim c) then clamp (vget (c_lo c) i) (vget (c_up c) i) (vget g i) else vget g i)).
  (** the random numbers used for one child *)
  Record childDraw := mkCh { ch_mother : T; ch_father : list T; ch_z : nat -> T; ch_u : nat -> T; ch_m : nat -> T }.
  (** generateRandomParents: 201-207 and generateIndividualByReproduction: 285-299; the identifier is the counter before its
      increment.  [Ok None]: the search for a second parent is still running *)
  Definition ea_child (c : econf) (p : pop) (total : nat) (w : childDraw) : Res (option ind) :=
    mf <- pop_parents p (ch_mother w) (ch_father w) ;;
    match mf with
    | None => Ok None
    | Some (mo, fa) =>
        if negb (c_bset c) then Throw RuntimeError
        else g <- ea_crossOver c mo fa (ch_z w) (ch_u w) (ch_m w) ;;
             Ok (Some (iset_id total (iset_genes g (ind_new (c_dim c)))))
    end.
  (** generateAGroupOfIndividualsForReproduction: 310-317 *)
  Definition ea_children (c : econf) (p : pop) (total : nat) (ws : nat -> childDraw) : Res (option (list ind)) :=
    loopR (c_new c) (fun k l =>
      match l with
      | None => Ok None
      | Some l => i <- ea_child c p (total + k) (ws k) ;; Ok (option_map (fun i => l ++ [i]) i)
      end) (Some []).
  (** addNewIndividualsToPopulation: 319-343 *)
  Definition ea_births (c : econf) (ws : nat -> childDraw) (e : ea) : Res (option ea) :=
    if Nat.eqb (c_new c) 0 then Throw AssertFail
    else if negb (e_init e) then Throw RuntimeError
    else
    l <- ea_children c (e_pop e) (e_total e) ws ;;
    match l with
    | None => Ok None
    | Some l =>
        l <- mapR (ea_call c) l ;;
        p <- pop_addGroup (e_pop e) l ;; g <- pop_addGroup (e_gen e) l ;; h <- pop_addGroup (e_hist e) l ;;
        Ok (Some (mkEA p g (e_rem e) h (e_total e + c_new c) (e_init e)))
    end.
  (** one pass of removeIndividualsFromPopulation: 345-365 *)
  Definition ea_kill (r : T) (e : ea) : Res ea :=
    i <- pop_pickDeath (e_pop e) r ;;
    m <- pop_add (e_rem e) i ;;
    p <- pop_removeById (e_pop e) (i_id i) ;;
    p <- pop_update p ;;
    Ok (mkEA p (e_gen e) m (e_hist e) (e_total e) (e_init e)).
  Definition ea_deaths (c : econf) (rs : nat -> T) (e : ea) : Res ea := loopR (c_deaths c) (fun k e => ea_kill (rs k) e) e.
  (** generateANewGeneration: 368-388 *)
  Record genDraw := mkG { g_births : nat -> childDraw; g_deaths : nat -> T }.
  Definition ea_generation (c : econf) (w : genDraw) (e : ea) : Res (option ea) :=
    oe <- ea_births c (g_births w) e ;;
    match oe with
    | None => Ok None
    | Some e =>
        p <- pop_update (e_pop e) ;;
        e <- ea_deaths c (g_deaths w) (mkEA p (e_gen e) (e_rem e) (e_hist e) (e_total e) (e_init e)) ;;
        p <- pop_update (e_pop e) ;;
        Ok (Some (mkEA (pop_recompute p) (e_gen e) (e_rem e) (e_hist e) (e_total e) (e_init e)))
    end.
  (** the loop of optimize: 465-479 *)
  Fixpoint ea_loop (c : econf) (ws : nat -> genDraw) (k n : nat) (e : ea) : Res (option ea) :=
    match n with
    | O => Ok (Some e)
    | S n =>
        oe <- ea_generation c (ws k) e ;;
        match oe with
        | None => Ok None
        | Some e => if Nat.leb (c_max c) (e_total e) then Ok (Some e) else ea_loop c ws (S k) n e
        end
    end.
  (** getSolution: 183-187; optimize: 440-507 without warm start; [e0] the state left by previous runs of the same object *)
  Definition ea_solution (e : ea) : Res ind := pop_best (e_pop e).
  Definition ea_optimize (c : econf) (us : nat -> nat -> T) (ws : nat -> genDraw) (e0 : ea) : Res (option ea) :=
    _ <- ec_check c ;;
    e <- ea_initialize c us (mkEA (e_pop e0) (e_gen e0) (e_rem e0) (e_hist e0) 0 (e_init e0)) ;;
    oe <- ea_loop c ws 0 (c_gens c) e ;;
    match oe with
    | None => Ok None
    | Some e => _ <- ea_solution e ;; Ok (Some e)
    end.
End EaModel.
Arguments ind : clear implicits.
Arguments pop : clear implicits.
Arguments econf : clear implicits.
Arguments ea : clear implicits.
Arguments childDraw : clear implicits.
Arguments genDraw : clear implicits.
