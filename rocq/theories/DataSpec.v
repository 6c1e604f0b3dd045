(** What a user means by the columns of a training data file and by a training/validation split:
    everything is said about the list of the file's rows. *)
From Coq Require Import List Arith ZArith Bool.
From Verif Require Import Base Num MatModel MatSpec DataModel.
Import ListNotations.

Section DataSpec.
  Context {T : Type} {NT : Num T}.
  (** d inputs, then the output, then (with gradients) d partial derivatives,
      or (with directional derivatives) the derivative and the d components of the direction *)
  Definition inputs (d : nat) (rs : list (list T)) : list (list T) := map (firstn d) rs.
  Definition outputs (d : nat) (rs : list (list T)) : list T := map (fun r => nth d r n0) rs.
  Definition gradients (d : nat) (rs : list (list T)) : list (list T) := map (fun r => firstn d (skipn (d + 1) r)) rs.
  Definition derivatives (d : nat) (rs : list (list T)) : list T := map (fun r => nth (d + 1) r n0) rs.
  Definition directions (d : nat) (rs : list (list T)) : list (list T) := map (fun r => firstn d (skipn (d + 2) r)) rs.
  (** number of columns accepted for dimension d *)
  Definition columns_ok (grad dirs : bool) (d c : nat) : Prop :=
    if grad then c = 2 * d + 1 \/ c = 2 * d + 2
    else if dirs then c = 2 * d + 2 \/ c = 2 * d + 3 else c = d + 1.
  (** the rows picked for validation, in the order of the shuffle, and the remaining ones in file order *)
  Definition picked (ix : list nat) (rs : list (list T)) : list (list T) := map (fun i => nth i rs []) ix.
  Definition unpicked (ix : list nat) (rs : list (list T)) : list (list T) :=
    map snd (filter (fun p => negb (existsb (Nat.eqb (fst p)) ix)) (combine (seq 0 (length rs)) rs)).

  (** what the accessors of the data object show: getDimension, getNumberOfSamples, getInputMatrix, getRowXRaw,
      getOutputVector, getGradientMatrix, getDirectionalDerivativesVector, getRowDifferentiationDirection *)
  Definition shows_training (s : sdata T) (d : nat) (tr : list (list T)) : Prop :=
    d_dim s = d /\ d_n s = length tr /\ rows (d_X s) = inputs d tr /\ rows (d_Xraw s) = inputs d tr /\ d_y s = outputs d tr /\
    (f_grad s = true -> rows (d_grad s) = gradients d tr) /\
    (f_dd s = true -> d_dd s = derivatives d tr /\ rows (d_dirs s) = directions d tr).
  (** getNumberOfSamplesValidation, getInputMatrixValidation, getOutputVectorValidation *)
  Definition shows_validation (s : sdata T) (d : nat) (va : list (list T)) : Prop :=
    d_nv s = length va /\ (va <> [] -> rows (d_Xval s) = inputs d va /\ rows (d_Xrawval s) = inputs d va /\ d_yval s = outputs d va).
End DataSpec.
