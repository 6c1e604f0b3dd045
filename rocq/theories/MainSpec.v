(** Specification of the program, written without the functions of the model of the program. *)
From Coq Require Import Ascii String ZArith Bool Arith Reals List.
From Verif Require Import Base Num RealNum MatModel MatSpec StrModel StrSpec DriverModel DriverSpec.
Import ListNotations.
Local Open Scope R_scope.

(** a file name that ends in .xml, in any letter case *)
Definition xml_name (f : str) : Prop := exists a w, f = a ++ w /\ same_word w (lit ".xml").
(** a table with training data: at least one row, a column for every parameter and one for the value *)
Definition training_table (d : nat) (data : str -> option (mat R)) (n : str) (rs : list (list R)) : Prop :=
  exists m, data n = Some m /\ wf m /\ (0 < nrows m)%nat /\ ncols m = S d /\ rs = rows m.
Definition kriging (m : smodel) : Prop := m = MOrdinary \/ m = MUniversal.
(** the functions with a surrogate model: number 0 is the objective function, number i + 1 the i-th constraint unless it is a linked function *)
Definition model_def (c : config) (k : nat) : option odef :=
  match k with O => Some (cf_obj c) | S i => match nth_error (cf_cons c) i with Some cs => if cs_user cs then None else Some (cs_def cs) | None => None end end.
(** what the program needs beyond a configuration that can be read: ranges wider than 1e-9, increments not too small, Kriging models (universal
    only below 100 parameters), tables with training data, no two functions with the same file of training data, no two constraints of the
    same name, linked functions that are defined at the first designs *)
Record runnable (udf : nat -> list R -> Res R) (data : str -> option (mat R)) (c : config) : Prop := {
  rn_range : forall p, In p (cf_params c) -> 1 / 10 ^ 9 < ps_ub p - ps_lb p /\ (ps_discrete p = true -> (ps_ub p - ps_lb p) / ps_inc p < 2 ^ 32 - 1);
  rn_models : forall k d, model_def c k = Some d -> kriging (od_model d) /\ (od_model d = MUniversal -> (cf_dim c < 100)%nat) /\ exists rs, training_table (cf_dim c) data (od_train d) rs;
  rn_files : forall j k d e, model_def c j = Some d -> model_def c k = Some e -> od_train d = od_train e -> j = k;
  rn_names : NoDup (map (fun k => od_name (cs_def k)) (cf_cons c));
  rn_linked : forall rs r i k, training_table (cf_dim c) data (od_train (cf_obj c)) rs -> In r rs -> nth_error (cf_cons c) i = Some k -> cs_user k = true -> isOk (udf i (firstn (cf_dim c) r)) = true }.
