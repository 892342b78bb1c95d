(** Model of reading a hardware description: parser/accelerator_validator.py,
    parser/accelerator_factory.py:39-246 and stages/parser/accelerator_parser.py:27-38.
    The YAML document is given with its structure: fields that must be there are there, with values
    of the type that the schema names (a document without them, or with other fields, is refused by
    cerberus; that part of the schema is not modelled).  A field that may be missing is an [option].
    Precisions and the resolution of ADCs, which may be floats, are integers here.  "$" also
    accepts a final line break: left out.  [math.log2] is exact. *)
From Coq Require Import QArith Ascii.
From Verif Require Import Base Model_Text Model_MapFile Model_DataMove Model_Hierarchy Model_Imc Model_Cacti.
Open Scope string_scope.
Open Scope list_scope.
Open Scope Z_scope.
Open Scope result_scope.

(** * The document, accelerator_validator.py:19-167 *)

Record raw_port := mkRawPort { rp_name : string; rp_type : string; rp_min : Z; rp_max : Z; rp_alloc : list string }.
(** costs and area may be missing or null, which is the same after normalisation (28-45) *)
Record raw_memory := mkRawMemory {
  rm_size : Z; rm_read : option Q; rm_write : option Q; rm_area : option Q; rm_type : option string; rm_auto : option bool;
  rm_operands : list string; rm_ports : list raw_port; rm_served : list string }.
(** [ra_adc]: [None] is missing, [Some None] null; the default of 126-131 is only used for the first *)
Record raw_array := mkRawArray {
  ra_dims : list string; ra_imc : option bool; ra_sizes : list Z; ra_precision : option (list Z);
  ra_energy : option Q; ra_area : option Q; ra_type : option string; ra_adc : option (option Z); ra_serial : option Z }.
Record raw_accel := mkRawAccel {
  rf_name : string; rf_memories : dict string raw_memory; rf_array : raw_array;
  rf_dataflows : option (option (dict string (list string))) }.

(** * Normalisation: the defaults of 47-52, 103, 126-131 *)
Definition mem_type (m : raw_memory) : string := default "sram" (rm_type m).
Definition auto_cost (m : raw_memory) : bool := default false (rm_auto m).
Definition is_imc (a : raw_array) : bool := default false (ra_imc a).
Definition adc_resolution (a : raw_array) : option Z := default (Some 0) (ra_adc a).

(** * Regular expressions, 14-17 *)
(** "^I[12]$|^O$" *)
Definition operand_regex (s : string) : bool := memb s ["I1"; "I2"; "O"].
(** "^D\d$" *)
Definition dimension_regex (s : string) : bool :=
  match s with String "D" (String c "") => is_digit c | _ => false end.
(** "^(I[12]|O), (fh|tl|fl|th)$" *)
Definition allocation_regex (s : string) : bool :=
  existsb (fun op => existsb (fun d => eqb s (op ++ ", " ++ d)%string) ["fh"; "tl"; "fl"; "th"]) ["I1"; "I2"; "O"].
(** "^[A-Z]+, [0-9]+$", 143-163 *)
Definition dataflow_regex (s : string) : bool :=
  let u := span is_upper s in
  negb (eqb (fst u) "") &&
  match snd u with
  | String "," (String " " w) => negb (eqb w "") && eqb (snd (span is_digit w)) ""
  | _ => false
  end.

(** * The schema, as far as it is not about types *)
Definition port_schema (p : raw_port) : bool :=
  port_regex (rp_name p) && memb (rp_type p) ["read"; "write"; "read_write"] && forallb allocation_regex (rp_alloc p).
Definition memory_schema (m : raw_memory) : bool :=
  forallb operand_regex (rm_operands m) && forallb port_schema (rm_ports m) && forallb dimension_regex (rm_served m).
Definition array_schema (a : raw_array) : bool :=
  forallb dimension_regex (ra_dims a) && forallb (fun s => 0 <=? s) (ra_sizes a) &&
  match ra_precision a with None => true | Some l => Nat.eqb (length l) 2 end &&
  match ra_type a with None => true | Some t => memb t ["analog"; "digital"] end.
(** 140-166: "D1" is required, null is refused *)
Definition dataflows_schema (d : option (option (dict string (list string)))) : bool :=
  match d with
  | None => true
  | Some None => false
  | Some (Some d) => memb "D1" (keys d) && forallb (fun kv => memb (fst kv) array_dims && forallb dataflow_regex (snd kv)) d
  end.
Definition schema (f : raw_accel) : bool :=
  forallb (fun x => memory_schema (snd x)) (rf_memories f) && array_schema (rf_array f) && dataflows_schema (rf_dataflows f).

(** * Validation outside of the schema *)

(** [x.split(", ")] of which two parts are expected: the [ValueError] of unpacking otherwise *)
Fixpoint split_blank (cur s : string) : list string :=
  match s with
  | EmptyString => [cur]
  | String c r =>
      match r with
      | String b r' => if Ascii.eqb c "," && Ascii.eqb b " " then cur :: split_blank "" r' else split_blank (cur ++ String c "")%string r
      | EmptyString => [(cur ++ String c "")%string]
      end
  end.
Definition split_allocation (s : string) : result (string * string) :=
  match split_blank "" s with [op; d] => Ok (op, d) | _ => Err ValueError end.

(** the tests of an allocation, 227-233 *)
Definition allocation_valid (type text : string) : result bool :=
  x <- split_allocation text ;;
  Ok (negb (memb (snd x) ["fh"; "fl"] && eqb type "read") && negb (memb (snd x) ["th"; "tl"] && eqb type "write")).
Definition port_valid_raw (p : raw_port) : result bool :=
  bs <- rmap (allocation_valid (rp_type p)) (rp_alloc p) ;;
  Ok (forallb (fun b => b) bs).
(** [validate_single_memory], 202-238.  What is found wrong is kept in [is_valid]; only exceptions
    stop the validation. *)
Definition validate_memory (dims : list string) (m : raw_memory) : result bool :=
  let costs :=
    if auto_cost m then rm_size m mod 8 =? 0
    else match rm_read m, rm_write m, rm_area m with Some _, Some _, Some _ => true | _, _, _ => false end in
  bs <- rmap port_valid_raw (rm_ports m) ;;
  Ok (costs && forallb (fun d => memb d dims) (rm_served m) && forallb (fun b => b) bs &&
      forallb (fun p => negb (rp_max p <? rp_min p)) (rm_ports m)).

(** [log2(x) % 1 == 0]; [log2] raises for what is not positive *)
Definition log2_is_whole (x : Z) : result bool := if x <=? 0 then Err ValueError else Ok (2 ^ Z.log2 x =? x).
(** [imc_data["input_precision"][i]] *)
Definition precision (a : raw_array) (i : nat) : result Z :=
  l <- of_option KeyError (ra_precision a) ;; of_option IndexError (nth_error l i).
(** [validate_operational_array_imc], 268-283; its last test (282) comes after the uses. *)
Definition validate_array_imc (a : raw_array) : result bool :=
  act <- precision a 0 ;;
  serial <- of_option TypeError (ra_serial a) ;;
  b1 <- log2_is_whole serial ;;
  b2 <- log2_is_whole act ;;
  weight <- precision a 1 ;;
  b3 <- log2_is_whole weight ;;
  Ok (negb (act <? serial) && b1 && b2 && b3 &&
      negb (match ra_type a with Some t => eqb t "digital" | None => false end &&
            negb (match adc_resolution a with Some r => r =? 0 | None => false end))).
(** [validate_operational_array_non_imc], 285-294 *)
Definition validate_array_regular (a : raw_array) : bool :=
  match ra_type a with None => true | Some _ => false end &&
  match adc_resolution a with Some r => r =? 0 | None => false end &&
  match ra_serial a with None => true | Some _ => false end.
(** [validate_operational_array], 255-266 *)
Definition validate_array (a : raw_array) : result bool :=
  b <- (if is_imc a then validate_array_imc a else Ok (validate_array_regular a)) ;;
  Ok (Nat.eqb (length (ra_dims a)) (length (ra_sizes a)) && b).
(** [validate_cells_imc], 240-253: without "cells", the look-up raises *)
Definition validate_cells (f : raw_accel) : result bool :=
  cells <- dgetr "cells" (rf_memories f) ;;
  weight <- precision (rf_array f) 1 ;;
  if weight =? 0 then Err ZeroDivisionError
  else Ok (match rm_operands cells with [op] => eqb op "I2" | _ => false end && match rm_served cells with [] => true | _ => false end && (rm_size cells mod weight =? 0)).
(** [validate], 180-200 *)
Definition validate (f : raw_accel) : result bool :=
  b1 <- validate_array (rf_array f) ;;
  bs <- rmap (fun x => validate_memory (ra_dims (rf_array f)) (snd x)) (rf_memories f) ;;
  b2 <- (if is_imc (rf_array f) then validate_cells f else Ok true) ;;
  Ok (schema f && b1 && forallb (fun b => b) bs && b2).

(** * Construction *)

(** the dictionary comprehension of accelerator_factory.py:83-85 and 97-99 *)
Fixpoint dimension_items (dims : list string) (sizes : list Z) : result (list (string * Z)) :=
  match dims with
  | [] => Ok []
  | d :: dims =>
      o <- oa_dimension d ;;
      match sizes with
      | [] => Err IndexError
      | s :: sizes => l <- dimension_items dims sizes ;; Ok ((o, s) :: l)
      end
  end.
Definition dimension_sizes (a : raw_array) : result (dict string Z) :=
  l <- dimension_items (ra_dims a) (ra_sizes a) ;; Ok (dict_of l).

(** An array: [MultiplierArray] (operational_array.py:22-33) with costs per unit, or [ImcArray] with
    its parameters, area, clock period and peak performance; [ar_units] is [total_unit_count]. *)
Inductive kind := Multipliers (energy area total_area : Q) | InMemory (a : imc) (figures : dict string Q * dict string Q * (Q * Q * Q)).
Record array := mkArray { ar_sizes : dict string Z; ar_units : Z; ar_kind : kind }.

(** [create_non_imc_array], 75-86 *)
Definition create_regular (a : raw_array) : result array :=
  e <- of_option KeyError (ra_energy a) ;;
  u <- of_option KeyError (ra_area a) ;;
  d <- dimension_sizes a ;;
  let n := zprod (map snd d) in
  Ok (mkArray d n (Multipliers e u (u * inject_Z n))).

(** [sorted(dimension_sizes.keys())]: names are compared as texts (datatypes.py:36) *)
Fixpoint insert_dim (x : string) (l : list string) : list string :=
  match l with
  | [] => [x]
  | y :: l' => if String.ltb y x then y :: insert_dim x l' else x :: l
  end.
Definition sort_dims (l : list string) : list string := fold_right insert_dim [] l.

(** [create_imc_array], 88-116, with [ImcUnit.__init__] (imc_unit.py:41-62) and the area of the
    cells (imc_array.py:108-123).  [bank_area] is CACTI's area of one bank (given wordlines,
    bitlines, size of cells and weight precision), [adc_area] the formula of imc_array.py:65-73,
    which cannot be evaluated for a null resolution. *)
Definition create_imc (bank_area : Z -> Z -> Z -> Z -> result Q) (adc_area : Z -> Q) (f : raw_accel) : result array :=
  let a := rf_array f in
  let analog := match ra_type a with Some t => eqb t "analog" | None => false end in
  act <- precision a 0 ;;
  weight <- precision a 1 ;;
  serial <- of_option TypeError (ra_serial a) ;;
  d <- dimension_sizes a ;;
  cells <- dgetr "cells" (rf_memories f) ;;
  let units := zprod (map snd d) in
  let sorted := sort_dims (keys d) in
  wl <- of_option IndexError (nth_error sorted 0) ;;
  word <- dgetr wl d ;;
  bl <- of_option IndexError (nth_error sorted 1) ;;
  bit <- dgetr bl d ;;
  others <- rmap (fun o => dgetr o d) (skipn 2 sorted) ;;
  let banks := zprod others in
  area <- (if auto_cost cells then
             x <- bank_area word bit (rm_size cells) weight ;;
             if word =? 0 then Err ZeroDivisionError else Ok (x * inject_Z banks)%Q
           else match rm_area cells with None => Err AssertionError | Some x => Ok (inject_Z units * x)%Q end) ;;
  adc <- (if analog then of_option TypeError (adc_resolution a) else Ok (default 0 (adc_resolution a))) ;;
  let i := mkImc analog serial act weight adc word bit banks (rm_size cells) area (adc_area adc) in
  figures <- construct i ;;
  Ok (mkArray d units (InMemory i figures)).

Definition create_array (bank_area : Z -> Z -> Z -> Z -> result Q) (adc_area : Z -> Q) (f : raw_accel) : result array :=
  if is_imc (rf_array f) then create_imc bank_area adc_area f else create_regular (rf_array f).

(** [create_dataflows], 118-143; reading of an unrolling is as in mapping files *)
Definition create_dataflows (f : raw_accel) : result (option (dict string (dict string Z))) :=
  match rf_dataflows f with
  | Some (Some user) =>
      l <- rmap (fun kv => oa <- oa_dimension (fst kv) ;; d <- mapping_single_oa_dim (snd kv) ;; Ok (oa, d)) user ;;
      Ok (Some (dict_of l))
  | _ => Ok None
  end.

(** [MemoryPortType(...)], memory_port.py:9-12, and the port as the hierarchy's model takes it *)
Definition port_type (s : string) : result ptype :=
  if eqb s "read" then Ok PRead else if eqb s "write" then Ok PWrite else if eqb s "read_write" then Ok PReadWrite else Err ValueError.
Definition create_port (p : raw_port) : result portspec :=
  t <- port_type (rp_type p) ;;
  al <- rmap split_allocation (rp_alloc p) ;;
  Ok (mkPortspec (rp_name p) t (rp_min p) (rp_max p) al).

(** What a memory costs: as written, or extracted (memory_instance.py:57-75); the pool of simulated memories
    is carried along.  [ModuleNotFoundError] and [ChildProcessError] are [RuntimeError] here. *)
Definition memory_costs (sim : simulator) (tech : Z) (m : raw_memory) (ports : list portspec) (p : pool)
  : result (option Q * option Q * option Q * pool) :=
  if auto_cost m then
    q <- instance_request tech (mem_type m) (rm_size m) ports ;;
    match get_item sim q p with
    | (Costs r w a, p, _) => Ok (Some r, Some w, Some a, p)
    | (MissingBank, _, _) => Err KeyError
    | _ => Err RuntimeError
    end
  else Ok (rm_read m, rm_write m, rm_area m, p).

(** [create_memory_instance] and [add_memory_to_graph], 167-200, over [add_memory].  A cost that is
    [None] makes no error here; it does not occur once the description is validated, and is
    an error in this model. *)
Definition create_memory (sim : simulator) (tech : Z) (st : hierarchy * list Q * pool) (m : raw_memory)
  : result (hierarchy * list Q * pool) :=
  let '(h, areas, p) := st in
  ports <- rmap create_port (rm_ports m) ;;
  x <- memory_costs sim tech m ports p ;;
  match x with
  | (Some r, Some w, Some a, p) =>
      served <- rmap oa_dimension (rm_served m) ;;
      h <- add_memory h (mkMemspec (rm_size m) r w (rm_operands m) ports served) ;;
      Ok (h, areas ++ [a], p)
  | _ => Err TypeError
  end.

(** The accelerator, accelerator.py:30-45, with the areas of its memories in order *)
Record accel := mkAccel {
  ac_name : string; ac_array : array; ac_hierarchy : hierarchy; ac_areas : list Q;
  ac_tables : dict string (list Model_Cost.memlvl) * list Model_Cost.memlvl * list (list (string * nat));
  ac_dataflows : option (dict string (dict string Z)) }.

(** [AcceleratorFactory.create], accelerator_factory.py:46-69 *)
Definition create (bank_area : Z -> Z -> Z -> Z -> result Q) (adc_area : Z -> Q) (sim : simulator) (tech : Z) (p : pool) (f : raw_accel)
  : result (accel * pool) :=
  a <- create_array bank_area adc_area f ;;
  d <- create_dataflows f ;;
  x <- rfold (create_memory sim tech) (no_hierarchy 0, [], p) (map snd (rf_memories f)) ;;
  let '(h, areas, p) := x in
  t <- accelerator h ;;
  Ok (mkAccel (rf_name f) a h areas t d, p).

(** [parse_accelerator], accelerator_parser.py:27-38 *)
Definition parse_accelerator (bank_area : Z -> Z -> Z -> Z -> result Q) (adc_area : Z -> Q) (sim : simulator) (tech : Z) (p : pool) (f : raw_accel)
  : result (accel * pool) :=
  ok <- validate f ;;
  if ok then create bank_area adc_area sim tech p f else Err ValueError.
