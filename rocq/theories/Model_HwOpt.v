(** Model of the search over hardware configurations,
    zigzag/stages/hardware_opt_stages.py:17-165 (the plots of 167-198 are not modelled).
    Of the hardware description (a YAML document) only the fields that the search changes are
    named; the others are the component [hw_rest].  Reading and writing of the description is
    modelled as exact, so the stages that follow are given the description itself; those stages
    are the argument [evaluate], which yields the evaluations of a description and of the mapping that
    the layer then has. *)
From Coq Require Import QArith Ascii.
From Verif Require Import Base Model_Cme Model_Hierarchy Model_SpatialMap.
Local Open Scope string_scope.
Local Open Scope list_scope.
Local Open Scope Z_scope.
Local Open Scope result_scope.

(** What is changed of a description: size and costs of the memory "l1", name and "bandwidth_max" of its
    ports, and the sizes of the array *)
Record hardware (R : Type) := mkHardware {
  hw_size : Z; hw_read : Q; hw_write : Q; hw_ports : list (string * Z); hw_array : list Z; hw_rest : R }.
Arguments mkHardware {R}. Arguments hw_size {R}. Arguments hw_read {R}. Arguments hw_write {R}.
Arguments hw_ports {R}. Arguments hw_array {R}. Arguments hw_rest {R}.

(** 38-48 *)
Definition l1_memory_sizes : list Z := [32; 64; 128; 256; 512].
Definition l1_read_costs : dict Z Z := [(32, 95); (64, 104); (128, 118); (256, 132); (512, 147)].
Definition gemmx_array_sizes : list Z := [8; 16].
(** [itertools.product(sizes, repeat=3)] *)
Definition array_combinations : list (Z * Z * Z) :=
  flat_map (fun a => flat_map (fun b => map (fun c => (a, b, c)) gemmx_array_sizes) gemmx_array_sizes) gemmx_array_sizes.
(** the loops of 91-92 *)
Definition configurations : list (Z * (Z * Z * Z)) :=
  flat_map (fun l => map (fun a => (l, a)) array_combinations) l1_memory_sizes.

(** [_update_l1_size_in_yaml], 107-116; [int] truncates.  The product with 0.8 is exact here. *)
Definition update_l1_size {R} (h : hardware R) (l1 : Z) : result (hardware R) :=
  r <- dgetr l1 l1_read_costs ;;
  Ok (mkHardware (Qfloor (inject_Z (l1 * 1024 * 8) * (8 # 10))) (inject_Z r) ((12 # 10) * inject_Z r) (hw_ports h) (hw_array h) (hw_rest h)).
(** [_update_gemmx_array_size_in_yaml], 118-123 *)
Definition update_array_size {R} (h : hardware R) (a : Z * Z * Z) : hardware R :=
  let '(d1, d2, d3) := a in mkHardware (hw_size h) (hw_read h) (hw_write h) (hw_ports h) [d1; d2; d3] (hw_rest h).
(** [_update_bandwidths_in_yaml], 125-147: a port of the list at [i] *)
Definition set_port (i : nat) (name : string) (bw : Z) (ps : list (string * Z)) : result (list (string * Z)) :=
  p <- of_option IndexError (nth_error ps i) ;;
  if eqb (fst p) name then Ok (firstn i ps ++ (fst p, bw) :: skipn (S i) ps) else Err AssertionError.
Definition update_bandwidths {R} (h : hardware R) (a : Z * Z * Z) : result (hardware R) :=
  let '(d1, d2, d3) := a in
  ps <- set_port 0 "rw_port_1" (d1 * d2 * 8) (hw_ports h) ;;
  ps <- set_port 1 "rw_port_2" (d2 * d3 * 8) ps ;;
  ps <- set_port 2 "rw_port_3" (d1 * d3 * 32) ps ;;
  Ok (mkHardware (hw_size h) (hw_read h) (hw_write h) ps (hw_array h) (hw_rest h)).

(** [array_size[int(oa_dim.name[1]) - 1]], 156; a negative index counts from the end *)
Definition digit_value (c : ascii) : option Z :=
  if digit c then Some (Z.of_nat (nat_of_ascii c) - 48) else None.
Definition size_at (a : Z * Z * Z) (oa_dim : string) : result Z :=
  let '(d1, d2, d3) := a in
  match get 1 oa_dim with
  | None => Err IndexError
  | Some c => n <- of_option ValueError (digit_value c) ;;
              if (n - 1 =? 0) then Ok d1 else if (n - 1 =? 1) then Ok d2
              else if (n - 1 =? 2) || (n - 1 =? -1) then Ok d3 else Err IndexError
  end.
(** [_update_workload_spatial_mapping], 149-165.  [StopIteration] (157) leaves the generator as a
    [RuntimeError]. *)
Definition update_one (layer : dict string Z) (a : Z * Z * Z) (acc : dict string (dict string Q)) (x : string * dict string Q)
  : result (dict string (dict string Q)) :=
  size <- size_at a (fst x) ;;
  match snd x with
  | [] => Err RuntimeError
  | (d, _) :: _ =>
      n <- dgetr d layer ;;
      if n mod size =? 0 then Ok (dset (fst x) [(d, inject_Z size)] acc) else Err ValueError
  end.
Definition update_mapping (layer : dict string Z) (original : dict string (dict string Q)) (a : Z * Z * Z)
  : result (dict string (dict string Q)) :=
  rfold (update_one layer a) original original.

(** What the search carries along: the description (its copies of 94 are shallow, so that what is
    changed is changed in the document that was read), the mapping of the layer, the best
    evaluation, and all of them *)
Record searching (R C : Type) := mkSearching {
  se_hw : hardware R; se_map : dict string (dict string Q); se_best : option C; se_all : list C }.
Arguments mkSearching {R C}. Arguments se_hw {R C}. Arguments se_map {R C}. Arguments se_best {R C}. Arguments se_all {R C}.

(** 66-72 *)
Definition improves (c : eval) (best : option eval) : bool :=
  match best with
  | None => true
  | Some b => negb (Qle_bool (ev_l2 b) (ev_l2 c)) ||
              (Qeq_bool (ev_l2 c) (ev_l2 b) && negb (Qle_bool (ev_energy b) (ev_energy c)))
  end.
Definition keep (best : option eval) (c : eval) : option eval := if improves c best then Some c else best.

(** one configuration: 94-105, and 57-72 *)
Definition try_configuration {R} (evaluate : hardware R -> dict string (dict string Q) -> result (list eval)) (layer : dict string Z)
  (original : dict string (dict string Q)) (s : searching R eval) (x : Z * (Z * Z * Z)) : result (searching R eval) :=
  h <- update_l1_size (se_hw s) (fst x) ;;
  let h := update_array_size h (snd x) in
  h <- update_bandwidths h (snd x) ;;
  m <- update_mapping layer original (snd x) ;;
  cs <- evaluate h m ;;
  Ok (mkSearching h m (fold_left keep cs (se_best s)) (se_all s ++ cs)).

(** [run], 50-76, with the checks of 81-88: the result, and the mapping that the layer is left with.
    The layer is given by its type, its sizes and its mapping. *)
Definition optimize {R} (evaluate : hardware R -> dict string (dict string Q) -> result (list eval)) (path_ok : bool)
  (layers : list (string * dict string Z * dict string (dict string Q))) (h : hardware R)
  : result (eval * dict string (dict string Q)) :=
  if negb path_ok then Err AssertionError
  else match layers with
       | [(type, layer, original)] =>
           if negb (eqb type "Gemm") then Err AssertionError
           else s <- rfold (try_configuration evaluate layer original) (mkSearching h original None []) configurations ;;
                match se_best s with None => Err AssertionError | Some b => Ok (b, se_map s) end
       | _ => Err AssertionError
       end.
