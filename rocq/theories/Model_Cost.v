(** Model of zigzag/cost_model/cost_model.py, first part: memory utilization, word
    accesses, energy and double buffering of one evaluation.

    Floats are exact rationals. *)
From Coq Require Import Qround.
From Verif Require Import Base Model_Alloc Model_Decouple Model_SpatialInt Model_DataMove Model_Mapping Model_Links.
Local Open Scope result_scope.

(** A physical port of a memory level ([MemoryPort], memory_port.py:27-86, after port
    allocation): its unique [port_id], name, maximal bandwidth and [served_op_lv_dir]. *)
Record port := mkPort {
  pt_id : nat; pt_name : string; pt_bw_max : Z; pt_served : list (string * nat * direction) }.

(** What the evaluation reads of a [MemoryLevel], memory_level.py:48-125. *)
Record memlvl := mkMemlvl {
  ml_operands : list string;
  ml_size : Z;
  ml_read_energy : Q; ml_write_energy : Q;
  ml_bw_min : dict string (dict direction (option Z));
  ml_bw_max : dict string (dict direction (option Z));
  ml_ports : list port }.

(** Inputs of [CostModelEvaluation.__init__], cost_model.py:315-366. *)
Record inputs := mkInputs {
  in_ops : list string;                             (* layer.layer_operands *)
  in_inputs : list string; in_out : string;         (* layer.input_operands, output_operand *)
  in_links : links;
  in_hier : dict string (list memlvl);              (* accelerator.mem_hierarchy_dict *)
  in_levels : list memlvl;                          (* memory_hierarchy.mem_level_list *)
  in_sharing : list (list (string * nat));          (* mem_sharing_tuple *)
  in_map : dict string (opdata * list pattern);     (* mapping *)
  in_map_int : dict string (opdata * list pattern); (* mapping_int *)
  in_unit_count : dict string (list Z);             (* mapping.spatial_mapping.unit_count *)
  in_macs : Z;                                      (* layer.total_mac_count *)
  in_mac_cost : Q;                                  (* operational_array.unit.energy_cost *)
  in_units : Z;                                     (* operational_array.total_unit_count *)
  in_total : Z;                                     (* temporal_mapping.total_cycle *)
  in_cpo : Q }.                                     (* cycles_per_op *)

(** [l[i] = x] for a non-negative index *)
Fixpoint set_at {A} (i : nat) (x : A) (l : list A) : result (list A) :=
  match l, i with
  | [], _ => Err IndexError
  | _ :: l', O => Ok (x :: l')
  | y :: l', S i' => r <- set_at i' x l' ;; Ok (y :: r)
  end.

#[global] Instance EqB_prod {A B} `{EqB A} `{EqB B} : EqB (A * B).
Proof.
  refine {| eqb := fun x y => eqb (fst x) (fst y) && eqb (snd x) (snd y) |}.
  intros [a b] [a' b']. cbn. destruct (eqb_spec a a'), (eqb_spec b b'); constructor; congruence.
Defined.

Section Cost.
  Variable ci : inputs.

  (** [accelerator.get_memory_level], accelerator.py:48-52 *)
  Definition get_memory_level (mem_op : string) (lv : nat) : result memlvl :=
    ms <- dgetr mem_op (in_hier ci) ;; at_ ms lv.
  (** [mapping.mem_level[op]]: the number of unit memories *)
  Definition levels_of (m : dict string (opdata * list pattern)) (op : string) : result nat :=
    x <- dgetr op m ;; Ok (length (snd x)).
  Definition unit_mem (m : dict string (opdata * list pattern)) (op : string) (lv : nat) : result pattern :=
    x <- dgetr op m ;; at_ (snd x) lv.
  (** [get_attribute(a).get(k)] *)
  Definition attr_of (p : pattern) (a : attr) (k : direction) : result Z :=
    f <- get_attribute a p ;; four_get k f.

  (** * Utilization *)

  (** cost_model.py:447-455 for one operand; [bits] are data_bit_per_level_unrolled or
      effective_data_bit. *)
  Definition utilization (bits : opdata -> list Z) (op : string) : result (list Q) :=
    mem_op <- layer_to_mem_op (in_links ci) op ;;
    n <- levels_of (in_map ci) op ;;
    rmap (fun lv =>
            x <- dgetr op (in_map ci) ;; b <- at_ (bits (fst x)) (S lv) ;;
            ms <- dgetr mem_op (in_hier ci) ;; m <- at_ ms lv ;;
            pdiv (inject_Z b) (inject_Z (ml_size m))) (seq 0 n).
  Definition individual (bits : opdata -> list Z) : result (dict string (list Q)) :=
    rmap (fun op => u <- utilization bits op ;; Ok (op, u)) (in_ops ci).

  (** members of a sharing group that the layer uses, as (layer operand, level) *)
  Definition used_members (g : list (string * nat)) : result (list (string * nat)) :=
    rmap (fun x => op <- mem_to_layer_op (in_links ci) (fst x) ;; Ok (op, snd x))
      (filter (fun x => contains_mem_op (in_links ci) (fst x)) g).
  (** a list of lists per operand, read at (operand, level) *)
  Definition get2 (d : dict string (list Q)) (x : string * nat) : result Q :=
    l <- dgetr (fst x) d ;; at_ l (snd x).
  Definition set2 (d : dict string (list Q)) (x : string * nat) (v : Q) : result (dict string (list Q)) :=
    l <- dgetr (fst x) d ;; l' <- set_at (snd x) v l ;; Ok (dset (fst x) l' d).

  (** cost_model.py:457-476: the members of every sharing group get the sum over it.
      (The code reads a [defaultdict]: a missing operand gives an empty list and then
      IndexError, here KeyError.) *)
  Definition shared (ind : dict string (list Q)) : result (dict string (list Q)) :=
    rfold (fun d g =>
             ms <- used_members g ;;
             us <- rmap (get2 ind) ms ;;
             rfold (fun d x => set2 d x (qsum us)) d ms) ind (in_sharing ci).

  (** * Word accesses *)

  (** [_calc_memory_access], cost_model.py:520-537 *)
  Definition calc_memory_access (amount prec count max_bw min_bw : Z) (op : string) (lv : nat) : result Z :=
    if ((amount =? 0) || (prec =? 0))%Z then Ok 0
    else
      x <- pdiv (inject_Z (amount * prec)) (inject_Z min_bw) ;;
      y <- pdiv (inject_Z min_bw) (inject_Z max_bw) ;;
      uc <- dgetr op (in_unit_count ci) ;;
      u <- at_ uc (S lv) ;;
      Ok (py_int (inject_Z (Qceiling x) * y * inject_Z count * inject_Z u)%Q).

  (** [mem_level.get_max_bandwidth(mem_op, data_dir)] and the minimum, memory_level.py:119-125 *)
  Definition bandwidth (d : dict string (dict direction (option Z))) (mem_op : string) (k : direction) : result (option Z) :=
    f <- dgetr mem_op d ;; dgetr k f.

  (** cost_model.py:494-516: one direction *)
  Definition word_access (op mem_op : string) (lv : nat) (m : memlvl) (p : pattern) (k : direction) : result Z :=
    amount <- attr_of p AmountPerPeriod k ;;
    prec <- attr_of p Precision k ;;
    count <- attr_of p PeriodCount k ;;
    max_bw <- bandwidth (ml_bw_max m) mem_op k ;;
    min_bw <- bandwidth (ml_bw_min m) mem_op k ;;
    match max_bw, min_bw with
    | None, None => if (amount =? 0)%Z then Ok 0 else Err ValueError
    | Some mx, Some mn =>
        if ((mx =? 0) || (mn =? 0))%Z then Err AssertionError
        else calc_memory_access amount prec count mx mn op lv
    | _, _ => Err AssertionError
    end.

  (** [calc_memory_word_access], cost_model.py:483-518; a [defaultdict], so operands
      without memory levels are absent. *)
  Definition word_accesses_of (op : string) : result (list (four Z)) :=
    mem_op <- layer_to_mem_op (in_links ci) op ;;
    n <- levels_of (in_map ci) op ;;
    rmap (fun lv =>
            m <- get_memory_level mem_op lv ;;
            p <- unit_mem (in_map ci) op lv ;;
            d <- rmap (fun k => x <- word_access op mem_op lv m p k ;; Ok (k, x)) directions ;;
            four_way 0 (Some d)) (seq 0 n).
  Definition calc_memory_word_access : result (dict string (list (four Z))) :=
    all <- rmap (fun op => a <- word_accesses_of op ;; Ok (op, a)) (in_ops ci) ;;
    Ok (filter (fun kv => match snd kv with [] => false | _ => true end) all).

  (** * Energy *)

  (** [calc_mac_energy_cost], cost_model.py:546-553 *)
  Definition mac_energy : Q := (in_mac_cost ci * inject_Z (in_macs ci))%Q.

  (** cost_model.py:577-597: one memory level *)
  Definition level_energy (a : four Z) (m : memlvl) : result (Q * four Q) :=
    rh <- four_get RdHigh a ;; wh <- four_get WrHigh a ;;
    rl <- four_get RdLow a ;; wl <- four_get WrLow a ;;
    let e_rh := (inject_Z rh * ml_read_energy m)%Q in
    let e_wh := (inject_Z wh * ml_write_energy m)%Q in
    let e_rl := (inject_Z rl * ml_read_energy m)%Q in
    let e_wl := (inject_Z wl * ml_write_energy m)%Q in
    f <- four_way 0%Q (Some [(RdHigh, e_rh); (WrHigh, e_wh); (RdLow, e_rl); (WrLow, e_wl)]) ;;
    Ok (((e_rh + e_rl) + (e_wh + e_wl))%Q, f).

  (** [calc_memory_energy_cost], cost_model.py:555-604.  [zip] stops at the shorter list.
      Result: breakdown, further breakdown, memory energy, total energy. *)
  Definition operand_energy (op : string) (accesses : list (four Z)) : result (list (Q * four Q)) :=
    mem_op <- layer_to_mem_op (in_links ci) op ;;
    ms <- dgetr mem_op (in_hier ci) ;;
    rmap (fun am => level_energy (fst am) (snd am)) (combine accesses ms).
  Definition calc_memory_energy_cost (accesses : dict string (list (four Z)))
    : result (dict string (list Q) * dict string (list (four Q)) * Q * Q) :=
    es <- rmap (fun kv => e <- operand_energy (fst kv) (snd kv) ;; Ok (fst kv, e)) accesses ;;
    let mem := fold_left Qplus (concat (map (fun kv => map fst (snd kv)) es)) 0%Q in
    Ok (map (fun kv => (fst kv, map fst (snd kv))) es, map (fun kv => (fst kv, map snd (snd kv))) es,
        mem, (mem + mac_energy)%Q).

  (** * Double buffering *)

  (** [__get_shared_mem_list], cost_model.py:378-390 *)
  Definition shared_mem_list (mem_op : string) (lv : nat) : option (list (string * nat)) :=
    find (memb (mem_op, lv)) (in_sharing ci).

  (** cost_model.py:641-661, one level; the state is effective_mem_utili_shared *)
  Definition double_buffer_step (ind : dict string (list Q)) (op mem_op : string) (lv : nat)
      (sh : dict string (list Q)) : result (bool * dict string (list Q)) :=
    s <- get2 sh (op, lv) ;;
    if Qle_bool s (1 # 2) then Ok (true, sh)
    else
      i <- get2 ind (op, lv) ;;
      if Qle_bool i (1 - s) then
        match shared_mem_list mem_op lv with
        | None => Ok (true, sh)
        | Some g =>
            ms <- used_members g ;;
            sh' <- rfold (fun d x => v <- get2 d x ;; set2 d x (v + i)%Q) sh ms ;;
            Ok (true, sh')
        end
      else Ok (false, sh).
  Definition double_buffer_op (ind : dict string (list Q)) (op : string) (sh : dict string (list Q))
    : result (list bool * dict string (list Q)) :=
    mem_op <- layer_to_mem_op (in_links ci) op ;;
    n <- levels_of (in_map_int ci) op ;;
    rfold (fun st lv => x <- double_buffer_step ind op mem_op lv (snd st) ;;
                        Ok (fst st ++ [fst x], snd x)) ([false], sh) (seq 0 n).
  (** [calc_double_buffer_flag], cost_model.py:631-663 *)
  Definition calc_double_buffer_flag (ind sh : dict string (list Q))
    : result (dict string (list bool) * dict string (list Q)) :=
    rfold (fun st op => x <- double_buffer_op ind op (snd st) ;;
                        Ok (dset op (fst x) (fst st), snd x)) ([], sh) (in_ops ci).
End Cost.
