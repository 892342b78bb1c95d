(** Model of zigzag/hardware/architecture/get_cacti_cost.py:286-603 and of
    zigzag/hardware/architecture/imc_unit.py:131-162: the costs of a cell array from CACTI.

    Floats are exact rationals.  CACTI itself, the file system below its directory and the reading of
    a number from text are parameters. *)
From Coq Require Import QArith Ascii.
From Verif Require Import Base Model_MapFile Model_Decouple Model_SpatialInt Model_Mapping.
Local Open Scope string_scope.
Local Open Scope list_scope.
Local Open Scope Z_scope.
Local Open Scope result_scope.

(** A value of the configuration and the lines that it is written in; the constant part of the file
    (get_cacti_cost.py:10-284) is left out. *)
Inductive cvalue := CNum (q : Q) | CText (s : string).
Definition config := list (string * cvalue).

(** [config_options], get_cacti_cost.py:286-390: name, text, default *)
Definition config_options : list (string * (string * cvalue)) :=
  [("cache_size", ("-size (bytes) ", CNum 64)); ("line_size", ("-block size (bytes) ", CNum 64));
   ("IO_bus_width", ("-output/input bus width ", CNum 64)); ("associativity", ("-associativity ", CNum 1));
   ("rd_wr_port", ("-read-write port ", CNum 1)); ("ex_rd_port", ("-exclusive read port ", CNum 0));
   ("ex_wr_port", ("-exclusive write port ", CNum 0)); ("single_rd_port", ("-single ended read ports ", CNum 0));
   ("bank_count", ("-UCA bank count ", CNum 1)); ("technology", ("-technology (u) ", CNum (65 # 1000)));
   ("mem_type", ("-cache type ", CText """ram""")); ("temperature", ("-operating temperature (K) ", CNum 300))].
(** [cacti_auto] for ["single"], get_cacti_cost.py:431-439 *)
Definition single_config (user : dict string cvalue) : config :=
  map (fun o => (fst (snd o), match dget (fst o) user with Some v => v | None => snd (snd o) end)) config_options.

(** What a call ends with: a result, an exception, a directory that does not exist
    (FileNotFoundError), or [exit()]. *)
Inductive ending (A : Type) := Returned (a : A) | Raised (e : exn) | NoDirectory | Exited.
Arguments Returned {A}. Arguments Raised {A}. Arguments NoDirectory {A}. Arguments Exited {A}.

Section Cacti.
  (** [float(s)] *)
  Variable to_float : string -> option Q.

  (** get_cacti_cost.py:541-553: the output file is a table; the numbers of every column *)
  Definition read_row (attrs : list string) (acc : dict string (list Q)) (line : string) : result (dict string (list Q)) :=
    let ps := split ","%char line in
    rfold (fun acc jv =>
             match nth_error attrs (fst jv) with
             | None => Ok acc
             | Some a => old <- dgetr a acc ;; x <- of_option ValueError (to_float (snd jv)) ;; Ok (dset a (old ++ [x]) acc)
             end) acc (combine (seq 0 (length ps)) ps).
  Definition read_table (lines : list string) : result (dict string (list Q)) :=
    match lines with
    | [] => Ok []
    | hd :: rows =>
      let attrs := split ","%char hd in
      rfold (read_row attrs) (fold_left (fun d a => dset a [] d) attrs []) rows
    end.
  Definition last_of (d : dict string (list Q)) (name : string) : result Q :=
    l <- dgetr name d ;; of_option IndexError (nth_error (rev l) 0).

  (** The current directory, and the output files of CACTI by directory. *)
  Record world := mkWorld { wd_cwd : string; wd_out : dict string (list string) }.
  (** The directory that a path leads to *)
  Variable resolve : string -> string -> option string.
  (** CACTI: what running it with a configuration makes of the output file *)
  Variable tool : config -> option (list string) -> option (list string).

  (** get_cacti_cost.py:492-516: configuration and factors: the rows are only for messages but their
      division may fail. *)
  Definition settings (tech_node : Q) (mem_type : string) (size bw : Q) : result (config * Q) :=
    let tech := if Qeq_bool tech_node (28 # 1000) then (32 # 1000)%Q else tech_node in
    let scaling := if Qeq_bool tech_node (28 # 1000) then ((9 # 10) * (9 # 10))%Q else 1%Q in
    mem <- (if eqb mem_type "dram" then Ok """main memory""" else if eqb mem_type "sram" then Ok """ram""" else Err ValueError) ;;
    rows <- pdiv (size * 8) bw ;;
    let wide := negb (Qle_bool bw 32) in
    let line_size := if wide then 4 else py_int (bw / 8) in
    let io := if wide then 32%Q else bw in
    let adjusted := if wide then (rows * 32 / 8)%Q else size in
    Ok (single_config [("technology", CNum tech); ("cache_size", CNum adjusted); ("line_size", CNum (inject_Z line_size));
                       ("IO_bus_width", CNum io); ("mem_type", CText mem)], scaling).

  (** get_cacti_cost.py:555-574: time, area, read and write cost; [round(area, 7)] in decimal arithmetic *)
  Definition costs (scaling bw : Q) (d : dict string (list Q)) : result (Q * Q * Q * Q) :=
    t <- last_of d " Access time (ns)" ;;
    a <- last_of d " Area (mm2)" ;;
    r <- last_of d " Dynamic read energy (nJ)" ;;
    w <- last_of d " Dynamic write energy (nJ)" ;;
    let wide := negb (Qle_bool bw 32) in
    let area := if wide then (scaling * a * 2 * bw / 32)%Q else (scaling * a * 2)%Q in
    let rc := if wide then (scaling * r * bw / 32)%Q else (scaling * r)%Q in
    let wc := if wide then (scaling * w * bw / 32)%Q else (scaling * w)%Q in
    Ok ((scaling * t)%Q, (inject_Z (py_round (area * 10000000)) / 10000000)%Q, (rc * 1000)%Q, (wc * 1000)%Q).

  (** [get_cacti_cost], get_cacti_cost.py:460-574.  One file name ([hd_hash]) is used. *)
  Definition get_cacti_cost (cacti_path : string) (tech_node : Q) (mem_type : string) (size bw : Q) (w : world)
    : ending (Q * Q * Q * Q) * world :=
    match resolve (wd_cwd w) cacti_path with
    | None => (NoDirectory, w)
    | Some dir =>
      let w1 := mkWorld dir (wd_out w) in
      match settings tech_node mem_type size bw with
      | Err e => (Raised e, w1)
      | Ok (cfg, scaling) =>
        match tool cfg (dget dir (wd_out w)) with
        | None => (Exited, w1)
        | Some lines =>
          let w2 := mkWorld dir (dset dir lines (wd_out w)) in
          match (d <- read_table lines ;; costs scaling bw d) with
          | Err e => (Raised e, w2)
          | Ok c => (Returned c, mkWorld (wd_cwd w) (wd_out w2))
          end
        end
      end
    end.

  (** [get_single_cell_array_cost_from_cacti], imc_unit.py:147-162 *)
  Definition cell_array_cost (tech_node wordline bitline cells_size weight_precision : Q) (w : world) :=
    get_cacti_cost "zigzag/cacti/cacti_master" tech_node "sram" (wordline * bitline * cells_size / 8)%Q
      (wordline * weight_precision)%Q w.
  (** [get_w_cost_per_weight_from_cacti], get_cacti_cost.py:577-603, from the sizes *)
  Definition w_cost_per_weight (cacti_path : string) (tech_node wordline bitline group_depth w_pres : Q) (w : world) : ending Q * world :=
    let bw := (wordline * w_pres)%Q in
    match get_cacti_cost cacti_path tech_node "sram" (wordline * bitline * group_depth * w_pres / 8)%Q bw w with
    | (Returned (_, _, _, wc), w') =>
      (match pdiv (wc * w_pres) bw with Ok x => Returned (py_round3 x) | Err e => Raised e end, w')
    | (Raised e, w') => (Raised e, w') | (NoDirectory, w') => (NoDirectory, w') | (Exited, w') => (Exited, w')
    end.
End Cacti.
