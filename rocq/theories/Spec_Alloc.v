(** Independent vocabulary for C08-C10: tiles of an operand in a memory, described
    by positions in the loop ordering. *)
From Verif Require Import Base Model_Pr Model_Alloc.

(** How many of the memories store the memory operand. *)
Definition storing (mem_op : string) (nodes : list memlevel) : nat :=
  length (filter (fun n => memb mem_op (m_operands n)) nodes).

(** The (layer operand, memory operand) links of the layer that the memory stores. *)
Definition stored_links (ly : layer) (node : memlevel) : list (string * string) :=
  filter (fun lm => memb (snd lm) (m_operands node)) (l_links ly).

(** Number of loops of the ordering that the first [k] levels hold. *)
Definition loops_below (levels : list (list tloop)) (k : nat) : nat :=
  length (concat (firstn k levels)).

(** Product of the sizes of all loops over a dimension. *)
Definition extent (loops : list (string * Q)) (d : string) : Q :=
  qprod (map snd (filter (fun l => eqb (fst l) d) loops)).

(** Elements of the operand along one of its dimensions: the product of the loops
    over it; for a dimension derived from two others (e.g. IX from OX and FX) the
    number of derived indices (C01), clipped to the layer's total. *)
Definition elements_along (ly : layer) (loops : list (string * Q)) (d : string) : Q :=
  if existsb (fun l => eqb (fst l) d) loops then extent loops d
  else match dget d (l_pr_loop ly), dget d (l_pr_scaling ly), dget d (l_pr_sizes ly) with
       | Some (da, db), Some (sa, sb), Some total =>
           inject_Z (Z.min total (calc_pr_dimension_size sa (Qfloor (extent loops da))
                                                         sb (Qfloor (extent loops db))))
       | _, _, _ => 1%Q
       end.

Definition tile_elements (ly : layer) (layer_op : string) (loops : list (string * Q)) : Q :=
  match dget layer_op (l_r_or_pr ly) with
  | Some dims => qprod (map (elements_along ly loops) dims)
  | None => 1%Q
  end.

(** Loops inside memory level [k] of an operand when the temporal loops of the
    ordering before position [p] are: the spatial loops of levels [0..k] too. *)
Definition loops_inside (sp : list (list (string * Q))) (ordering : list tloop) (k p : nat)
  : list (string * Q) :=
  concat (firstn (S k) sp) ++ map (fun t => (fst t, inject_Z (snd t))) (firstn p ordering).

(** Bits per element at level [k], the temporal loops from position [start] on being
    at this level or above: outputs are final when no reduction loop is left. *)
Definition bits_per_element (ly : layer) (sp : list (list (string * Q))) (ordering : list tloop)
    (lm : string * string) (k start : nat) : Z :=
  let ir := match dget (fst lm) (l_ir ly) with Some l => l | None => [] end in
  let full := match dget (fst lm) (l_precision ly) with Some p => p | None => 0 end in
  if eqb (snd lm) output_mem_op
     && negb (existsb (fun d => memb d ir)
                (map fst (concat (skipn (S k) sp)) ++ map fst (skipn start ordering)))
  then l_final_precision ly else full.

(** Bits of the tile of [lm] at its level [k] that starts at position [start] of the
    ordering and ends at position [stop]. *)
Definition tile_bits (ly : layer) (spatial : dict string (list (list (string * Q))))
    (ordering : list tloop) (lm : string * string) (k start stop : nat) : Q :=
  let sp := match dget (fst lm) spatial with Some s => s | None => [] end in
  (tile_elements ly (fst lm) (loops_inside sp ordering k stop)
   * inject_Z (bits_per_element ly sp ordering lm k start))%Q.

(** Accesses to the level above caused by a tile: tile bits times the iterations of
    the loops outside; none for the operand's top memory. *)
Definition accesses_above (ly : layer) (spatial : dict string (list (list (string * Q))))
    (ordering : list tloop) (top : bool) (lm : string * string) (k start stop : nat) : Q :=
  if top then 0%Q
  else (inject_Z (zprod (map snd (skipn stop ordering)))
        * tile_bits ly spatial ordering lm k start stop)%Q.

(** Even splits: an operand that takes loops here may not end further out than any
    other operand of the memory. *)
Definition even_choice (links : list (string * string)) (start stop : string -> nat) : Prop :=
  forall x y, In x links -> In y links ->
    (start (fst x) < stop (fst x))%nat -> (stop (fst x) <= stop (fst y))%nat.

(** Is the memory the operand's top memory? *)
Definition is_top_of (tops : dict string nat) (node : memlevel) (mem_op : string) : bool :=
  match dget mem_op tops with Some t => Nat.eqb (m_id node) t | None => false end.

(** The levels of an operand in the resulting mapping. *)
Definition levels_of (tm : dict string (list (list tloop))) (layer_op : string) : list (list tloop) :=
  match dget layer_op tm with Some l => l | None => [] end.

(** Total bits, resp. accesses to the levels above, of the tiles in [node] (which
    comes after the memories [pre]) when operand [o]'s tile covers the positions
    from [start o] to [stop o]. *)
Definition total_bits ly spatial ordering (pre : list memlevel) (node : memlevel)
    (start stop : string -> nat) : Q :=
  qsum (map (fun lm => tile_bits ly spatial ordering lm (storing (snd lm) pre)
                         (start (fst lm)) (stop (fst lm))) (stored_links ly node)).
Definition total_accesses ly spatial ordering (tops : dict string nat) (pre : list memlevel)
    (node : memlevel) (start stop : string -> nat) : Q :=
  qsum (map (fun lm => accesses_above ly spatial ordering (is_top_of tops node (snd lm)) lm
                         (storing (snd lm) pre) (start (fst lm)) (stop (fst lm)))
            (stored_links ly node)).

(** Positions where the tiles of the mapping [tm] start and stop in the memory that
    comes after [pre]. *)
Definition tile_start (ly : layer) (tm : dict string (list (list tloop))) (pre : list memlevel)
    (layer_op : string) : nat :=
  match dget layer_op (l_links ly) with
  | Some m => loops_below (levels_of tm layer_op) (storing m pre)
  | None => O
  end.
Definition tile_stop (ly : layer) (tm : dict string (list (list tloop))) (pre : list memlevel)
    (layer_op : string) : nat :=
  match dget layer_op (l_links ly) with
  | Some m => loops_below (levels_of tm layer_op) (S (storing m pre))
  | None => O
  end.
