(** Queries of a surrogate model about many samples at once: src/SurrogateModels/surrogate_model.cpp:136-158 and 174-189. *)
From Coq Require Import List Arith ZArith Bool.
From Verif Require Import Base Num VecModel MatModel DataModel.
Import ListNotations.

Section QueryModel.
  Context {T : Type} {NT : Num T}.
  (** countHowManySamplesAreWithinBounds: surrogate_model.cpp:136-158; [read] is ifDataIsRead of the model, [s] its data object.
      getRawData returns the table of the file as it was read (surrogate_model_data.cpp), getNumberOfSamples and getDimension the members *)
  Definition sm_countWithin (read : bool) (s : sdata T) (lb ub : vec T) : Res nat :=
    if negb read then Throw AssertFail else
    loopR (d_n s) (fun i c =>
      sample <- mat_getRow (d_raw s) (Z.of_nat i) ;;
      dv <- vec_head sample (d_dim s) ;;
      b <- vec_is_between dv lb ub ;;
      Ok (if b then S c else c)) 0.
  (** interpolateVector: surrogate_model.cpp:174-189; [f] is the virtual interpolate.  results(N) starts with zeros *)
  Definition sm_interpolateVector (f : vec T -> Res T) (X : mat T) : Res (vec T) :=
    loopR (nrows X) (fun i res =>
      xp <- mat_getRow X (Z.of_nat i) ;;
      y <- f xp ;;
      Ok (upd res i y)) (repeat n0 (nrows X)).
End QueryModel.
