(** Client programs used in the statements about the surrogate models, and the hypotheses on their inputs. *)
From Coq Require Import Reals List Arith ZArith Bool.
From Verif Require Import Base StM Num RealNum RSpec MatModel MatSpec BoundsModel DataModel DataSpec DataReal KrigModel KrigSpec.
Import ListNotations.
Local Open Scope R_scope.

(** the calls a user makes to fit a Kriging model: choose the linear part, set dimension, box and epsilon, read and normalise
    the training data, initialise; then any number of times set hyper-parameters and update.  [ratio] = 0: no validation samples *)
Definition krig_session (lin : bool) (d : nat) (b : bnds R) (eps ratio : R) (file : mat R) (perm : list nat) (hs : list (list R)) : SM (krig R) unit :=
  run krig_setLinear lin; run krig_setDimension d; run krig_setBox b; run krig_setEpsilon eps; run krig_setRatio ratio;
  run krig_readData file perm; run krig_normalizeData; run krig_initialize;
  sfor hs (fun h => run krig_setHyper h; krig_update).
(** the same for the linear model *)
Definition lin_session (d : nat) (b : bnds R) (file : mat R) : SM (lmodel R) unit :=
  run lin_setDimension d; run lin_setBox b; run lin_readData file; run lin_normalizeData; lin_initialize.

(** the training points in the coordinates of the model, and the outputs *)
Definition points (b : bnds R) (d : nat) (tr : list (list R)) : list (list R) := map (unit_row b d) (inputs d tr).
Definition output (d : nat) (tr : list (list R)) (i : nat) : R := nth i (outputs d tr) 0.

(** the linear trend of a model with coefficients c, 0 when the linear part is switched off *)
Definition trend (lin : bool) (d : nat) (c : nat -> R) (x : list R) : R := if lin then lpredict d c x else 0.
(** replacing the outputs of a sample file: the same inputs, the outputs given by a formula *)
Definition same_inputs (d : nat) (file file' : mat R) : Prop :=
  table file' /\ nrows file' = nrows file /\ ncols file' = ncols file /\ inputs d (rows file') = inputs d (rows file).

(** a usable setup: a table of n > 0 rows with d inputs and one output, proper box, 0 <= eps < 1 (for eps = 0
    the correlation matrix itself must be positive definite), hyper-parameter vectors of
    length 2d, the last of which (or the default 1,..,1,1.8,..,1.8 when there is none) is [th ++ ga] with theta >= 0 and 0 < gamma <= 2 *)
Record setup (lin : bool) (d : nat) (b : bnds R) (eps : R) (file : mat R) (hs : list (list R)) (th ga : list R) : Prop := {
  su_d : (0 < d)%nat; su_lin : lin = true -> (d < 100)%nat; su_box : box_ok (1 / 10 ^ 9) d b; su_eps : 0 <= eps < 1;
  su_file : table file; su_n : (0 < nrows file)%nat; su_cols : ncols file = S d;
  su_hs : Forall (fun h => length h = (2 * d)%nat) hs;
  su_last : last hs (repeat 1 d ++ repeat (9 / 5) d) = th ++ ga; su_par : kparams d th ga;
  su_reg : eps = 0 -> posdef (nrows file) (kmat d th ga 0 (points b d (rows file))) }.

(** the sample table after offering the samples [xs]: a sample is appended (as written to the file) unless a row agrees with it
    within 1e-4 in every component *)
Definition close_row (r x : list R) : Prop := forall j, (j < length x)%nat -> Rabs (nth j r 0 - nth j x 0) <= 1 / 10 ^ 4.
Inductive offered (fmt : R -> R) : list (list R) -> list (list R) -> list (list R) -> Prop :=
| offered_nil rs : offered fmt rs [] rs
| offered_dup rs x xs rs' : (exists r, In r rs /\ close_row r x) -> offered fmt rs xs rs' -> offered fmt rs (x :: xs) rs'
| offered_new rs x xs rs' : (forall r, In r rs -> ~ close_row r x) -> offered fmt (rs ++ [map fmt x]) xs rs' -> offered fmt rs (x :: xs) rs'.
