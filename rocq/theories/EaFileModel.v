(** Model of the population files and the warm start of the evolutionary optimiser:
    EAPopulation::writeToCSV and readFromCSV (/repo/src/InternalOptimizers/ea_population.cpp:200-331), writeWarmRestartFile,
    readWarmRestartFile and the warm start of optimize (/repo/src/InternalOptimizers/ea_optimizer.cpp:391-571).  The file system is the
    table of texts of ExtModel; [scientific] is the text the stream prints for a number with std::scientific and std::setprecision(9),
    [writable] the files that can be opened for writing.  A file that exists can be read; a write never fails half way. *)
From Coq Require Import Ascii String ZArith Bool Arith List.
From Verif Require Import Base StM Num VecModel StrModel ExtModel CsvModel EaModel.
Import ListNotations.

(** std::getline(stream, token, ','): the rest of the stream, [None] once its end has been reached, and the token.  A stream at its end
    leaves the token as it is; a comma at the very end of the line is followed by an empty token *)
Fixpoint until_comma (s : str) : str * option str :=
  match s with
  | [] => ([], None)
  | c :: t => if Ascii.eqb c ","%char then ([], Some t) else let (a, r) := until_comma t in (c :: a, r)
  end.
Definition cursor : Type := option str * str.
Definition next_cell (c : cursor) : cursor :=
  match fst c with None => c | Some s => let (a, r) := until_comma s in (r, a) end.

Section EaFile.
  Context {T : Type} {NT : Num T}.
  Context (writable : str -> bool) (scientific : T -> str).

  (** the header line: ea_population.cpp:216-220 *)
  Definition pop_header (dim : nat) : str :=
    lit "ID,ObjectiveFunctionValue,Fitness,ReproductionProbability,DeathProbability"
    ++ concat (map (fun i => lit ",Gene_" ++ int_text (Z.of_nat i)) (seq 0 dim)) ++ newline.
  (** the line of an individual: 223-236 *)
  Definition ind_line (i : ind T) : str :=
    int_text (Z.of_nat (i_id i)) ++ lit "," ++ scientific (i_obj i) ++ lit "," ++ scientific (i_fit i) ++ lit ","
    ++ scientific (i_rep i) ++ lit "," ++ scientific (i_death i) ++ concat (map (fun g => lit "," ++ scientific g) (i_genes i)) ++ newline.
  (** writeToCSV: 200-240 *)
  Definition pop_writeToCSV (name : str) (p : pop T) : SM files unit :=
    run sthrow_if (is_empty name) InvalidArgument;
    run sthrow_if (Nat.eqb (p_dim p) 0) InvalidArgument;
    run sthrow_if (negb (writable name)) RuntimeError;
    smod (put name (pop_header (p_dim p) ++ concat (map ind_line (p_inds p)))).

  (** the next token of a line and what [parse] makes of it: 264-301 *)
  Definition read_cell {A} (parse : str -> Res A) (c : cursor) : Res (A * cursor) :=
    let c := next_cell c in if is_empty (snd c) then Throw RuntimeError else v <- parse (snd c) ;; Ok (v, c).
  Fixpoint read_cells (n : nat) (c : cursor) : Res (list T) :=
    match n with O => Ok [] | S n => vc <- read_cell stod c ;; r <- read_cells n (snd vc) ;; Ok (fst vc :: r) end.
  (** the body of the loop of readFromCSV: 259-326.  The identifier is converted from int to unsigned int *)
  Definition read_ind (dim : nat) (line : str) : Res (ind T) :=
    idc <- read_cell stoi (Some line, []) ;;
    oc <- read_cell stod (snd idc) ;; fc <- read_cell stod (snd oc) ;; rc <- read_cell stod (snd fc) ;; dc <- read_cell stod (snd rc) ;;
    genes <- read_cells dim (snd dc) ;;
    i <- ind_initGenes (iset_id (Z.to_nat (fst idc mod 2 ^ 32)) (ind_new dim)) genes ;;
    i <- ind_setRep (iset_fit (fst fc) (iset_obj (fst oc) i)) (fst rc) ;;
    ind_setDeath i (fst dc).
  Fixpoint read_lines (ls : list str) : SM (pop T) unit :=
    match ls with
    | [] => sret tt
    | l :: ls =>
        get p <-- sget (fun p => p);
        get i <-- slift (read_ind (p_dim p) l);
        get q <-- slift (pop_add p i);
        run smod (fun _ => q);
        read_lines ls
    end.
  (** readFromCSV: 242-331; the tracked minimum and maximum of the population are kept *)
  Definition pop_readFromCSV (name : str) (fs : files) : SM (pop T) unit :=
    run sthrow_if (is_empty name) InvalidArgument;
    match fs name with
    | None => sthrow RuntimeError
    | Some t =>
        run smod (pset_inds []);
        match pieces nl t with [] => sthrow RuntimeError | _ :: ls => read_lines ls end
    end.

  (** writeWarmRestartFile: ea_optimizer.cpp:525-541; every exception becomes runtime_error (no assertion can fail in there) *)
  Definition any_to_runtime {S A} (m : SM S A) : SM S A := fun s => match m s with (s', Throw _) => (s', Throw RuntimeError) | r => r end.
  Definition ea_writeWarm (file : option str) (e : ea T) : SM files unit :=
    match file with None => sthrow RuntimeError | Some name => any_to_runtime (pop_writeToCSV name (e_pop e)) end.
  (** readWarmRestartFile: 543-560 *)
  Definition ea_readWarm (file : option str) (fs : files) : SM (ea T) unit :=
    match file with
    | None => sthrow RuntimeError
    | Some name => fun e =>
        match any_to_runtime (pop_readFromCSV name fs) (e_pop e) with
        | (p, Ok _) => (mkEA p (e_gen e) (e_rem e) (e_hist e) (e_total e) true, Ok tt)
        | (p, Throw x) => (mkEA p (e_gen e) (e_rem e) (e_hist e) (e_total e) (e_init e), Throw x)
        | (p, UB) => (mkEA p (e_gen e) (e_rem e) (e_hist e) (e_total e) (e_init e), UB)
        end
    end.
  (** optimize with warm start: 440-507, 421-427 *)
  Definition ea_optimizeWarm (c : econf T) (file : option str) (fs : files) (ws : nat -> genDraw T) (e0 : ea T) : Res (option (ea T)) :=
    _ <- ec_check c ;;
    match file with
    | None => Throw RuntimeError
    | Some _ =>
        match ea_readWarm file fs (mkEA (e_pop e0) (e_gen e0) (e_rem e0) (e_hist e0) 0 (e_init e0)) with
        | (e, Ok _) => oe <- ea_loop c ws 0 (c_gens c) e ;; match oe with None => Ok None | Some e => _ <- ea_solution e ;; Ok (Some e) end
        | (_, Throw x) => Throw x
        | (_, UB) => UB
        end
    end.
End EaFile.
