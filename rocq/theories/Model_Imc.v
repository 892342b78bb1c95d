(** Model of zigzag/hardware/architecture/imc_unit.py and imc_array.py: in-memory-computing arrays.

    Floats are exact rationals.  CACTI's cost of the cells and the ADC's area (a real power of ten,
    imc_array.py:71-73) are given.  [math.log2] is applied to numbers that are powers of two (the
    constructor asserts it, imc_array.py:159-162, 182-185), for which it is exact. *)
From Coq Require Import QArith.
From Verif Require Import Base.
Open Scope string_scope.
Open Scope list_scope.
Open Scope Q_scope.
Open Scope result_scope.

(** [TECH_PARAM_28NM], imc_unit.py:15-28 *)
Definition vdd : Q := 9 # 10.
Definition nd2_cap : Q := 7 # 10000.
Definition wl_cap : Q := 7 # 20000.
Definition bl_cap : Q := 7 # 20000.
Definition xor2_cap : Q := 21 # 20000.
Definition dff_cap : Q := 21 # 10000.
Definition nd2_area : Q := 614 # 1000000000.
Definition xor2_area : Q := (614 # 1000000000) * (24 # 10).
Definition dff_area : Q := (614 # 1000000000) * 6.
Definition nd2_dly : Q := 478 # 10000.
Definition xor2_dly : Q := (478 # 10000) * (24 # 10).

(** Costs of one-bit cells, imc_unit.py:75-129 *)
Definition adder_energy : Q := (3 * nd2_cap + 2 * xor2_cap) * (vdd * vdd).
Definition adder_energy_half : Q := 2 * xor2_cap * (vdd * vdd).
Definition multiplier_energy : Q := (1 # 2) * nd2_cap * (vdd * vdd).
Definition reg_energy : Q := dff_cap * (vdd * vdd).
Definition adder_area : Q := 3 * nd2_area + 2 * xor2_area.
Definition multiplier_area : Q := nd2_area.
Definition reg_area : Q := dff_area.
Definition adder_in2sum : Q := 2 * xor2_dly.
Definition adder_in2cout : Q := xor2_dly + 2 * nd2_dly.
Definition adder_cin2cout : Q := 2 * nd2_dly.
Definition multiplier_dly : Q := nd2_dly.

(** An array, imc_unit.py:30-64: sizes of the first two dimensions in order of their names and the
    product of the others are given. *)
Record imc := mkImc {
  im_analog : bool; im_serial : Z; im_act : Z; im_weight : Z; im_adc : Z;
  im_wordline : Z; im_bitline : Z; im_banks : Z; im_cells : Z;
  im_cells_area : Q (* of all cells, imc_array.py:108-123 *); im_adc_area : Q (* of one, 65-73 *) }.

(** [math.log2] and the assertion that it is whole *)
Definition log2_whole (n : Z) : result Z :=
  if (n <=? 0)%Z then Err ValueError
  else if (2 ^ Z.log2 n =? n)%Z then Ok (Z.log2 n) else Err AssertionError.

(** One-bit adders of a tree: imc_array.py:165-167 and imc_unit.py:385-387; with place values: imc_array.py:187-189 *)
Definition regular_adders (p n depth : Z) : Z := n * (p + 1) - (p + depth + 1).
Definition place_adders (q n depth : Z) : Q :=
  inject_Z q * (inject_Z n - 1) + inject_Z n * (inject_Z depth - (1 # 2)).

(** * The energy of a partly used tree: [get_regular_adder_trees_energy], imc_unit.py:371-442 *)

(** the loop, 408-434: adders with two and with one active input.  [left] and [baseline] are whole
    (the number of active inputs is a [math.ceil], imc_unit.py:212, 318-319). *)
Fixpoint used_adders (fuel : nat) (p left baseline : Z) (full half : Z) : result (Z * Z) :=
  match fuel with
  | O => Err OutOfFuel
  | S fuel =>
      if (left =? 0)%Z then Ok (full, half)
      else
        let baseline := (baseline / 2)%Z in
        let depth := Z.log2 baseline in
        if (left <=? 1)%Z && (baseline =? 1)%Z then used_adders fuel p 0 baseline full (half + p)
        else if (baseline <? left)%Z then
          used_adders fuel p (left - baseline) baseline (full + (baseline * (p + 1) - (p + depth + 1) + (p + depth))) half
        else if (left <? baseline)%Z then used_adders fuel p left baseline full (half + (p + depth))
        else used_adders fuel p (left - baseline) baseline (full + (baseline * (p + 1) - (p + depth + 1))) (half + (p + depth))
  end%Z.
(** 380-442 *)
Definition tree_counts (fuel : nat) (p active physical : Z) : result (Z * Z) :=
  (if 1 <=? active then
    if physical <=? active then Ok (regular_adders p physical (Z.log2 physical), 0)
    else used_adders fuel p active physical 0 0
  else Ok (0, 0))%Z.
Definition tree_energy (fuel : nat) (p active physical : Z) : result Q :=
  c <- tree_counts fuel p active physical ;;
  Ok (inject_Z (fst c) * adder_energy + inject_Z (snd c) * adder_energy_half).

(** * Construction *)

(** [get_dac_cost] and [get_adc_cost], imc_array.py:63-104: delays and energies *)
Definition adc_delay (a : imc) : Q :=
  if (im_adc a =? 0)%Z then 0 else inject_Z (im_adc a) * ((653 # 100000) * inject_Z (im_bitline a) + (64 # 100)).
Definition adc_energy (a : imc) : Q :=
  if (im_adc a =? 0)%Z then 0 else (100 * inject_Z (im_adc a) + (1 # 1000) * inject_Z (4 ^ im_adc a)) * (vdd * vdd) / 1000.
Definition dac_energy (a : imc) : Q :=
  if (im_serial a =? 1)%Z then 0 else (5 # 100) * inject_Z (im_serial a) * (vdd * vdd).

(** what the parts share: depth and output precision of the regular tree (0 when analog), 153-164;
    inputs and precision of the tree with place values, 172-177 *)
Definition regular_depth (a : imc) : result Z := if im_analog a then Ok 0%Z else log2_whole (im_bitline a).
Definition place_inputs (a : imc) : Z := if im_analog a then im_weight a else im_serial a.
Definition place_precision (a : imc) (depth : Z) : Z := if im_analog a then im_adc a else (im_weight a + depth)%Z.
(** 179-189, 392-397, 557-562 *)
Definition place_tree (a : imc) (depth : Z) : result Q :=
  if (place_inputs a =? 1)%Z then Ok 0
  else d <- log2_whole (place_inputs a) ;; Ok (place_adders (place_precision a depth) (place_inputs a) d).
(** the accumulator's output, 197-204 *)
Definition accumulator_precision (a : imc) (depth : Z) : Z :=
  if im_analog a then (im_act a + im_adc a + im_weight a)%Z else (im_act a + depth + im_weight a)%Z.
Definition one_bit_multipliers (a : imc) : Z :=
  ((if im_analog a then 1 else im_serial a) * im_weight a * im_wordline a * im_bitline a * im_banks a)%Z.

(** [get_area], imc_array.py:106-222 *)
Definition get_area (a : imc) : result (dict string Q) :=
  depth <- regular_depth a ;;
  pv <- place_tree a depth ;;
  let acc := inject_Z (accumulator_precision a depth * im_wordline a * im_banks a) in
  Ok [("cells", im_cells_area a);
      ("dacs", 0);
      ("adcs", if im_analog a then im_adc_area a * inject_Z (im_weight a * im_wordline a * im_banks a) else 0);
      ("mults", multiplier_area * inject_Z (one_bit_multipliers a));
      ("adders_regular", if im_analog a then 0 else
         adder_area * inject_Z (regular_adders (im_weight a) (im_bitline a) depth * (im_serial a * im_wordline a * im_banks a)));
      ("adders_pv", adder_area * pv * inject_Z (im_wordline a * im_banks a));
      ("accumulators", if (im_serial a =? im_act a)%Z then 0 else adder_area * acc + reg_area * acc)].

(** [get_tclk], 224-318 *)
Definition get_tclk (a : imc) : result (dict string Q) :=
  depth <- regular_depth a ;;
  let n := place_inputs a in
  let q := place_precision a depth in
  pd <- (if (n =? 1)%Z then Ok 0%Z else log2_whole n) ;;
  let out := (if n =? 1 then q else n + q)%Z in
  acc <- (if (im_serial a =? im_act a)%Z then Ok 0
          else if (out <? accumulator_precision a depth)%Z
            then Ok (adder_in2cout + inject_Z (accumulator_precision a depth - out - 1) * adder_cin2cout)
            else Err AssertionError) ;;
  Ok [("cells", 0);
      ("dacs", 0);
      ("adcs", if im_analog a then adc_delay a else 0);
      ("mults", multiplier_dly);
      ("adders_regular", if im_analog a then 0 else
         inject_Z (depth - 1) * adder_in2sum + adder_in2cout + inject_Z (im_weight a + depth - 1 - 1) * adder_cin2cout);
      ("adders_pv", if (n =? 1)%Z then 0 else
         inject_Z (pd - 1) * adder_in2sum + adder_in2cout + inject_Z (out - q - 1) * adder_cin2cout);
      ("accumulators", acc)].

(** [get_peak_energy_single_cycle], 320-430 *)
Definition peak_energy (a : imc) : result (dict string Q) :=
  depth <- regular_depth a ;;
  pv <- place_tree a depth ;;
  let acc := inject_Z (accumulator_precision a depth * im_wordline a * im_banks a) in
  Ok [("local_bl_precharging", 0);
      ("dacs", if im_analog a then dac_energy a * inject_Z (im_bitline a * im_banks a) else 0);
      ("adcs", if im_analog a then adc_energy a * inject_Z (im_weight a * im_wordline a * im_banks a) else 0);
      ("mults", multiplier_energy * inject_Z (one_bit_multipliers a));
      ("analog_bl_addition", if im_analog a then
         bl_cap * (vdd * vdd) * inject_Z (im_weight a) * inject_Z (im_wordline a * im_bitline a * im_banks a) else 0);
      ("adders_regular", if im_analog a then 0 else
         adder_energy * inject_Z (regular_adders (im_weight a) (im_bitline a) depth * (im_serial a * im_wordline a * im_banks a)));
      ("adders_pv", adder_energy * pv * inject_Z (im_wordline a * im_banks a));
      ("accumulators", if (im_serial a =? im_act a)%Z then 0 else adder_energy * acc + reg_energy * acc)].

Definition total (d : dict string Q) : Q := qsum (map snd d).
(** [ImcArray.__init__], 19-46: area and clock period; the peak performance divides by them and
    by the peak energy, 432-455. *)
Definition construct (a : imc) : result (dict string Q * dict string Q * (Q * Q * Q)) :=
  area <- get_area a ;;
  tclk <- get_tclk a ;;
  peak <- peak_energy a ;;
  if Qeq_bool (inject_Z (im_serial a)) 0 || Qeq_bool (inject_Z (im_act a)) 0 then Err ZeroDivisionError
  else
    let macs := inject_Z (im_wordline a * im_bitline a) / (inject_Z (im_act a) / inject_Z (im_serial a)) * inject_Z (im_banks a) in
    if Qeq_bool (total tclk) 0 || Qeq_bool (total peak) 0 || Qeq_bool (total area) 0 then Err ZeroDivisionError
    else
      let tops := macs * 2 / total tclk / 1000 in
      Ok (area, tclk, (tops, macs * 2 / total peak, tops / total area)).

(** * The rows that a mapping uses *)

(** What is read of the layer and its mapping: unrollings on the wordline and bitline dimension (if
    any), as dictionaries; the product of all unrollings on both; dimensions irrelevant to the
    weights; the pairs of partially relevant dimensions of the activations; operations. *)
Record imc_layer := mkImcLayer {
  il_word : option (dict string Q); il_bit : option (dict string Q);
  il_ir : list string; il_pairs : list (string * string); il_macs : Z }.

(** [calculate_mapped_rows_when_diagonal_mapping_found], imc_unit.py:248-322.  [order] is the order in
    which the set of the bitline's layer dimensions is listed, 292; [layer_dims] is a set
    (spatial_mapping.py:27-28) while [unroll_sizes] are in the order of the mapping. *)
Definition pair_up (ir : list string) (st : dict string (dict string Q) * dict string string) (pr : string * string)
  : dict string (dict string Q) * dict string string :=
  let '(sm, link) := st in
  let '(d1, d2) := pr in
  if memb d1 ir then (dset d2 [(d1, 1)] sm, dset d1 d2 link) else (dset d1 [(d2, 1)] sm, dset d2 d1 link).
Definition pair_unroll (word : dict string Q) (link : dict string string) (sm : dict string (dict string Q)) (w : string)
  : result (dict string (dict string Q)) :=
  key <- dgetr w link ;;
  match dget w word with
  | None => Ok sm
  | Some f =>
      inner <- dgetr key sm ;;
      if Nat.eqb (length word) 1 then Ok (dset key (dset w f inner) sm)
      else old <- dgetr w inner ;; Ok (dset key (dset w (old * f) inner) sm)
  end.
Definition diagonal (sm : dict string (dict string Q)) (d : string) : result Q :=
  match dget d sm with
  | None => Ok 0
  | Some inner => match inner with [] => Err IndexError | (_, f) :: _ => Ok (f - 1) end
  end.
Definition diagonal_rows (l : imc_layer) (word bit : dict string Q) (order : list string) : result (Z * Z) :=
  let '(sm, link) := fold_left (pair_up (il_ir l)) (il_pairs l) ([], []) in
  sm <- rfold (pair_unroll word link) sm (il_ir l) ;;
  let sizes := map snd bit in
  if Nat.eqb (length order) 1 then
    d <- of_option IndexError (nth_error order 0) ;;
    size <- of_option IndexError (nth_error sizes 1) ;;
    extra <- diagonal sm d ;;
    Ok (Qceiling (size + extra), Qceiling size)
  else
    rows <- rfold (fun st x => extra <- diagonal sm (fst x) ;; Ok (fst st * (snd x + extra), snd st * snd x)) (1, 1) (combine order sizes) ;;
    Ok (Qceiling (fst rows), Qceiling (snd rows)).

(** [get_mapped_oa_dim], imc_unit.py:164-246: rows, rows for the adders, columns, activations *)
Definition mapped (l : imc_layer) (order : list string) : result (Z * Z * Q * Q) :=
  let cols := match il_word l with Some w => qprod (map snd w) | None => 1 end in
  let ir_on_word := match il_word l with Some w => existsb (fun d => memb d (il_ir l)) (keys w) | None => false end in
  let inside := qprod (map snd (match il_word l with Some w => w | None => [] end)) * qprod (map snd (match il_bit l with Some b => b | None => [] end)) in
  rows <- match il_bit l with
          | None => Ok (1, 1)%Z
          | Some b =>
              let size := Qceiling (qprod (map snd b)) in
              if negb ir_on_word || (size =? 1)%Z then Ok (size, size)
              else match il_word l with Some w => diagonal_rows l w b order | None => Err KeyError end
          end ;;
  if Qeq_bool inside 0 then Err ZeroDivisionError
  else Ok (fst rows, snd rows, cols, inject_Z (il_macs l) / inside).

(** * The energy of a layer: [get_energy_for_a_layer], imc_array.py:457-603 *)

(** [get_precharge_energy], imc_unit.py:324-369: energy and mapped group depth.  [levels] are the temporal
    levels of the weights.  When a cell group holds more than one weight, line 353 reads
    [data_elem_move_count] of a [DataMovePattern], which has no such attribute (mapping/data_movement.py:91-117
    keeps its values in the dictionary [attributes]): what follows it, 350-365, is never reached. *)
Definition precharge (a : imc) (levels : list (list (string * Z))) : result (Q * Q) :=
  if (im_weight a =? 0)%Z then Err ZeroDivisionError
  else if Qle_bool (inject_Z (im_cells a) / inject_Z (im_weight a)) 1 then Ok (0, 1)
  else match levels with [] => Err IndexError | _ => Err AttributeError end.

Definition layer_energy (fuel : nat) (a : imc) (rows : Z) (cols times precharging : Q) : result (dict string Q) :=
  depth <- regular_depth a ;;
  pv <- place_tree a depth ;;
  tree <- (if im_analog a then Ok 0 else tree_energy fuel (im_weight a) rows (im_bitline a)) ;;
  let repeat := inject_Z (im_act a) / inject_Z (im_serial a) in
  Ok [("local_bl_precharging", precharging);
      ("dacs", if im_analog a then dac_energy a * inject_Z rows * repeat * times else 0);
      ("adcs", if im_analog a then adc_energy a * inject_Z (im_weight a) * cols * repeat * times else 0);
      ("mults", multiplier_energy * inject_Z (if im_analog a then im_weight a * im_wordline a * rows else im_serial a * im_weight a * im_wordline a * im_bitline a)%Z * repeat * times);
      ("analog_bl_addition", if im_analog a then bl_cap * (vdd * vdd) * inject_Z (im_weight a) * cols * inject_Z (im_bitline a) * repeat * times else 0);
      ("adders_regular", if im_analog a then 0 else tree * (inject_Z (im_serial a) * cols) * repeat * times);
      ("adders_pv", adder_energy * pv * cols * repeat * times);
      ("accumulators", if (im_serial a =? im_act a)%Z then 0 else
         (adder_energy + reg_energy) * inject_Z (accumulator_precision a depth) * cols * repeat * times)].

(** * What is reported: [collect_area_data], cost_model_imc.py:64-77, and [calc_mac_energy_cost], 79-84.
    A memory: name, area of one instance; the number of instances on the array is not read. *)
Record mem_area := mkMemArea { ma_name : string; ma_area : Q; ma_instances : Z }.
Definition collect_area (imc_area : Q) (mems : list mem_area) : Q * dict string Q * Q :=
  let mem := fold_left (fun s m => s + ma_area m) mems 0 in
  (mem, fold_left (fun d m => dset (ma_name m) (ma_area m) d) mems [], imc_area + mem).
