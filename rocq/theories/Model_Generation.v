(** Model of zigzag/stages/mapping/spatial_mapping_generation.py: automatic generation of
    spatial mappings, without the diagonal extension [add_input_pr_spatial_loop] (off by
    default). *)
From Coq Require Import QArith.
From Verif Require Import Base Model_SpatialMap.
Local Open Scope Z_scope.
Local Open Scope result_scope.

(** What is read of an innermost memory level ([get_inner_memories]): its operands, the
    array dimensions it serves (a set, in iteration order), its capacity in bits and
    the largest read and write bandwidth of each operand towards the array. *)
Record inner_mem := {
  im_operands : list string;
  im_served : list string;
  im_size : Z;
  im_rd_low : dict string (option Z);
  im_wr_low : dict string (option Z) }.

(** What is read of the layer: dimension sizes, layer operand of each memory operand,
    precision and irrelevant dimensions of each layer operand. *)
Record gen_layer := {
  gl_sizes : dict string Z;
  gl_layer_op : dict string string;
  gl_prec : dict string Z;
  gl_ir : dict string (list string) }.

(** [LayerOperand.is_output], datatypes.py:49-50; the output operand is named O *)
Definition is_output_op (op : string) : bool := eqb op "O"%string.

(** * Bandwidth *)
Section Bandwidth.
  Variable layer : gen_layer.

  (** spatial_mapping_generation.py:209-221, for one layer dimension *)
  Definition limit_dim_bw (bw : option Z) (prec : Z) (ir : list string) (du : string * Z)
    : result (string * Z) :=
    if memb (fst du) ir then Ok du
    else
      m <- (if 0 <? prec then b <- of_option TypeError bw ;; Ok (b / prec) else Ok (snd du)) ;;
      Ok (if m <? snd du then (fst du, m) else du).

  (** lines 207-221 *)
  Definition limit_oa_bw bw prec ir (mapping : dict string (dict string Z)) (oa : string) :=
    m <- dgetr oa mapping ;;
    m' <- rmap (limit_dim_bw bw prec ir) m ;;
    Ok (dset oa m' mapping).

  (** lines 198-221 *)
  Definition limit_op_bw (mem : inner_mem) (mapping : dict string (dict string Z)) (mem_op : string) :=
    layer_op <- dgetr mem_op (gl_layer_op layer) ;;
    bw <- dgetr mem_op (if is_output_op layer_op then im_wr_low mem else im_rd_low mem) ;;
    prec <- dgetr layer_op (gl_prec layer) ;;
    ir <- dgetr layer_op (gl_ir layer) ;;
    rfold (limit_oa_bw bw prec ir) mapping (im_served mem).

  (** [limit_unrolling_to_mem_bandwidth], lines 180-223 *)
  Definition limit_bandwidth (mems : list inner_mem) (mapping : dict string (dict string Z)) :=
    rfold (fun mapping mem => rfold (limit_op_bw mem) mapping (im_operands mem)) mapping mems.

  (** [get_max_unrolling], lines 298-313; sizes are integers here *)
  Definition get_max_unrolling (mems : list inner_mem) (oa_sizes : dict string Z) :=
    limit_bandwidth mems
      (map (fun os => (fst os, map (fun ds => (fst ds, Z.min (snd ds) (snd os))) (gl_sizes layer))) oa_sizes).
End Bandwidth.

(** * Capacity *)

(** [factors[factors.index(mx)] -= 1] *)
Fixpoint dec_first (mx : Q) (l : list Q) : list Q :=
  match l with
  | [] => []
  | x :: l => if Qeq_bool x mx then (x - 1)%Q :: l else x :: dec_first mx l
  end.

(** [adjust_unrolling_factors], lines 231-238; [max([])] is a ValueError *)
Fixpoint adjust (fuel : nat) (limit : Q) (factors : list Q) : result (list Q) :=
  if qgt (qprod factors) limit then
    match fuel with
    | O => Err OutOfFuel
    | S f =>
        mx <- of_option ValueError (qmax_list factors) ;;
        adjust f limit (dec_first mx factors)
    end
  else Ok factors.
Definition adjust_fuel (factors : list Q) : nat := Z.to_nat (Qceiling (qsum factors)).

(** [factor_map[x]], lines 250 and 257: a later pair replaces an earlier one with the
    same key *)
Fixpoint factor_map (olds news : list Q) (x : Q) : option Q :=
  match olds, news with
  | o :: olds, n :: news =>
      match factor_map olds news x with
      | Some v => Some v
      | None => if Qeq_bool o x then Some n else None
      end
  | _, _ => None
  end.

Section Capacity.
  Variable layer : gen_layer.
  (** Iteration order of the set of dimensions to limit *)
  Variable dim_order : list string -> list string.

  (** lines 241-246 *)
  Definition collect_factors (dims : list string) (sm : spmap) : list Q :=
    concat (map (fun d => concat (map (fun om =>
      match dget d (snd om) with Some u => [u] | None => [] end) sm)) dims).

  (** lines 255-260 *)
  Definition apply_factors (dims : list string) (olds news : list Q) (m : oamap) : result oamap :=
    rmap (fun du =>
      if memb (fst du) dims then
        v <- of_option KeyError (factor_map olds news (snd du)) ;; Ok (fst du, v)
      else Ok du) m.

  (** [limit_loop_unrolling], lines 228-262 *)
  Definition limit_loop_unrolling (sm : spmap) (dims : list string) (limit : Q) : result spmap :=
    let olds := collect_factors (dim_order dims) sm in
    news <- adjust (adjust_fuel olds) limit olds ;;
    rmap (fun om => m <- apply_factors dims olds news (snd om) ;; Ok (fst om, m)) sm.

  (** The unrollings on array dimensions [sm] of dimensions outside [ir], lines 275-281 *)
  Definition relevant (ir : list string) (sm : spmap) : list (string * Q) :=
    filter (fun du => negb (memb (fst du) ir)) (flatten_unrollings sm).

  (** lines 266-295.  The limited mapping has the layer dimensions of the mapping it
      updates, so updating is replacing. *)
  Definition limit_op_cap (mem : inner_mem) (mapping : spmap) (mem_op : string) : result spmap :=
    layer_op <- dgetr mem_op (gl_layer_op layer) ;;
    prec <- dgetr layer_op (gl_prec layer) ;;
    ir <- dgetr layer_op (gl_ir layer) ;;
    served <- rmap (fun oa => m <- dgetr oa mapping ;; Ok (oa, m)) (im_served mem) ;;
    let rel := relevant ir served in
    if 0 <? prec then
      let limit := (inject_Z (im_size mem) / inject_Z prec)%Q in
      if qgt (qprod (map snd rel)) limit then
        limited <- limit_loop_unrolling served (nodup string_dec (map fst rel)) limit ;;
        Ok (fold_left (fun mp om => dset (fst om) (snd om) mp) limited mapping)
      else Ok mapping
    else Ok mapping.

  (** [limit_unrolling_to_mem_capacity], lines 225-296 *)
  Definition limit_capacity (mems : list inner_mem) (mapping : spmap) : result spmap :=
    rfold (fun mapping mem => rfold (limit_op_cap mem) mapping (im_operands mem)) mapping mems.
End Capacity.

(** * Candidates *)

(** sympy's [divisors], increasing; [divisors(0)] is empty *)
Definition divisors (n : Z) : list Z :=
  filter (fun k => Z.abs n mod k =? 0) (map Z.of_nat (seq 1 (Z.to_nat (Z.abs n)))).
(** [non_trivial_divisors], lines 617-620 *)
Definition non_trivial_divisors (n : Z) : list Z :=
  filter (fun x => (1 <? x) && (x <=? n)) (divisors n).

(** [itertools.combinations] and [itertools.product] *)
Fixpoint combinations {A} (k : nat) (l : list A) : list (list A) :=
  match k, l with
  | O, _ => [[]]
  | S _, [] => []
  | S k', x :: l' => map (cons x) (combinations k' l') ++ combinations k l'
  end.
Fixpoint cart {A} (ls : list (list A)) : list (list A) :=
  match ls with
  | [] => [[]]
  | l :: ls => flat_map (fun x => map (cons x) (cart ls)) l
  end.

(** [generate_mapping_single_oa_dim_mixed], lines 337-368 *)
Definition mixed_mappings (maxs : dict string Z) (hints : list string) : list oamap :=
  flat_map (fun n =>
    flat_map (fun dims =>
      map (fun fs => combine dims (map inject_Z fs))
        (cart (map (fun d => match dget d maxs with Some m => non_trivial_divisors m | None => [0] end) dims)))
      (combinations n hints))
    (seq 2 (length hints - 1)).

(** [generate_spatial_mapping_single_oa_dim], lines 315-335 *)
Definition single_oa_mappings (mix : bool) (hints : list string) (maxs : dict string Z) (size : Z) : list oamap :=
  flat_map (fun d =>
    match dget d maxs with
    | Some m => map (fun f => [(d, inject_Z f)]) (rev (divisors m))
    | None => []
    end) hints ++
  (if mix then filter (fun m => negb (qgt (utilization m) (inject_Z size))) (mixed_mappings maxs hints) else []).

(** [sorted(..., reverse=True)]: decreasing, equal keys in their order *)
Fixpoint insert_desc {A} (x : Q * A) (l : list (Q * A)) : list (Q * A) :=
  match l with
  | [] => [x]
  | y :: l => if qgt (fst y) (fst x) then y :: insert_desc x l else x :: y :: l
  end.
Fixpoint sort_desc {A} (l : list (Q * A)) : list (Q * A) :=
  match l with
  | [] => []
  | x :: l => insert_desc x (sort_desc l)
  end.

Fixpoint rfilter {A} (f : A -> result bool) (l : list A) : result (list A) :=
  match l with
  | [] => Ok []
  | x :: l => b <- f x ;; l' <- rfilter f l ;; Ok (if b then x :: l' else l')
  end.

(** * Objects
    Candidates share the [MappingSingleOADim] objects that the generators made
    (lines 154-158 store references), and the capacity limit updates objects in place
    (line 295).  Objects live in a heap; a candidate maps array dimensions to locations. *)
Notation heap := (list (dict string Q)) (only parsing).
Definition load (h : heap) (c : list (string * nat)) : spmap :=
  map (fun ol => (fst ol, nth (snd ol) h [])) c.
Fixpoint set_nth {A} (n : nat) (x : A) (l : list A) : list A :=
  match n, l with
  | _, [] => []
  | O, _ :: l => x :: l
  | S n, y :: l => y :: set_nth n x l
  end.
Definition store (h : heap) (c : list (string * nat)) (sm : spmap) : heap :=
  fold_left (fun h ol => match dget (fst ol) sm with Some m => set_nth (snd ol) m h | None => h end) c h.

(** Locations of the objects that each generator made *)
Fixpoint number {A} (start : nat) (gens : list (list A)) : list (list nat) :=
  match gens with
  | [] => []
  | g :: gens => seq start (length g) :: number (start + length g)%nat gens
  end.

Definition qsizes (d : dict string Z) : dict string Q := map (fun kv => (fst kv, inject_Z (snd kv))) d.
Definition qmaxs (d : dict string (dict string Z)) : spmap := map (fun om => (fst om, qsizes (snd om))) d.

(** * Hints *)
(** [clear_invalid_hits] and [complete_with_defaults], spatial_mapping.py:322-346, called at
    lines 80-82; a set of hints is a list in iteration order *)
Definition clear_invalid_hints (dims : list string) (hints : dict string (list string)) :=
  filter (fun oh => existsb (fun d => memb d dims) (snd oh)) hints.
Definition complete_hints (oas dims : list string) (hints : dict string (list string)) :=
  fold_left (fun h o => if dmem o h then h else dset o dims h) oas hints.

(** * The generator *)
Section Generate.
  Variables order1 order2 dim_order : list string -> list string.
  Variable pick_dim : string -> oamap -> string.
  Variable pick_oa : string -> spmap -> string.
  Variable layer : gen_layer.
  Variable mems : list inner_mem.
  Variable oa_sizes : dict string Z.
  Variable mix : bool.
  Variable nb : nat.

  Definition fill_dims (t : spmap) : list string :=
    filter (fun o => negb (dmem o t)) (keys oa_sizes).

  (** lines 172-178; the caller collects all mappings before it uses one (line 87) *)
  Definition finish (t : spmap) (fill : list string) (h0 : heap) (selected : list (list nat))
    : result (heap * list (list (string * nat))) :=
    rfold (fun st locs =>
      let '(h, done) := st in
      let c := (combine (keys t) (seq (length h) (length t)) ++ combine fill locs)%list in
      let h1 := (h ++ values t)%list in
      sm <- limit_capacity layer dim_order mems (load h1 c) ;;
      Ok (store h1 c sm, (done ++ [c])%list)) (h0, []) selected.

  (** [generate_spatial_mappings], lines 123-178 *)
  Definition generate (hints : dict string (list string)) (provided : spmap) : result (list spmap) :=
    zmax <- get_max_unrolling layer mems oa_sizes ;;
    let maxu := qmaxs zmax in
    let qoa := qsizes oa_sizes in
    let qs := qsizes (gl_sizes layer) in
    t <- check_and_reduce order1 order2 pick_dim pick_oa qoa maxu qs provided ;;
    match fill_dims t with
    | [] =>
        ok <- is_valid (Some qoa) maxu qs t ;;
        if ok then sm <- limit_capacity layer dim_order mems t ;; Ok [sm] else Err AssertionError
    | fill =>
        gens <- rmap (fun o =>
          h <- dgetr o hints ;; mx <- dgetr o zmax ;; s <- dgetr o oa_sizes ;;
          Ok (single_oa_mappings mix h mx s)) fill ;;
        let h0 := concat gens in
        let candidate locs := (t ++ load h0 (combine fill locs))%list in
        cands <- rfilter (fun locs => is_valid (Some qoa) maxu qs (candidate locs)) (cart (number 0 gens)) ;;
        match cands with
        | [] => Err AssertionError
        | _ =>
            keyed <- rmap (fun locs => v <- performance_indicator (candidate locs) ;; Ok (v, locs)) cands ;;
            st <- finish t fill h0 (map snd (firstn nb (sort_desc keyed))) ;;
            Ok (map (load (fst st)) (snd st))
        end
    end.
End Generate.
