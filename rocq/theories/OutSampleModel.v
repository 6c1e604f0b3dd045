(** The test data of a surrogate model and its error on them. *)
From Coq Require Import ZArith Bool Arith List.
From Verif Require Import Base StM Num VecModel MatModel StrModel BoundsModel DataModel KrigModel CsvModel RunFileModel TesterModel.
Import ListNotations.

Section OutSample.
  Context {T : Type} {NT : Num T}.
  (** the fields of a surrogate model that its test data need: ifHasTestData (surrogate_model.hpp:102), data, and testResults,
      generalizationError, ifNormalizedTestData; filenameDataInputTest is replaced by the table in the file, ifTestDataIsRead of the model
      is only written *)
  Record tmodel := mkTm { m_has : bool; m_data : sdata T; m_test : tested T }.
  Definition on_data {A} (m : SM (sdata T) A) : SM tmodel A := szoom m_data (fun d w => mkTm (m_has w) d (m_test w)) m.
  Definition on_test {A} (m : SM (tested T) A) : SM tmodel A := szoom m_test (fun g w => mkTm (m_has w) (m_data w) g) m.
  (** setNameOfInputFileTest: surrogate_model.cpp:312-318, with a name that is not empty *)
  Definition om_setFile : SM tmodel unit := smod (fun w => mkTm true (m_data w) (m_test w)).
  (** readDataTest: 127-134 (the name is set exactly when ifHasTestData is) *)
  Definition om_read (file : mat T) : SM tmodel unit :=
    get w <-- sget (fun w => w);
    run sassert (m_has w);
    on_data (data_readTest file).
  (** normalizeDataTest: 162-167 *)
  Definition om_norm (ztol : T) : SM tmodel unit :=
    run on_data (data_normTest ztol);
    on_test (smod (fun g => mkTd (g_header g) (g_results g) (g_error g) true)).
  (** calculateOutSampleError: 238-255; [pred] is interpolate, [dim] the dimension of the model *)
  Definition om_error (pred : vec T -> Res T) (dim : nat) : SM tmodel T :=
    get w <-- sget (fun w => w);
    run sthrow_if (negb (m_has w)) RuntimeError;
    run sthrow_if (negb (f_testf (m_data w))) RuntimeError;
    run on_test (try_test (fun x => f <- pred x ;; Ok (f, n0)) dim (m_data w) false);
    get w' <-- sget (fun w => w);
    slift (c <- mat_getCol (g_results (m_test w')) (Z.of_nat (d_dim (m_data w') + 2)) ;; vec_mean c).
End OutSample.
Arguments tmodel T : clear implicits.
