(** Independent vocabulary for C84: what the three files must say for a run to be sure of its course. *)
From Coq Require Import QArith.
From Verif Require Import Base Model_Text Model_DataMove Model_Hierarchy Model_Layer Model_MapFile Model_WorkFile Model_AccelFile Model_Links Model_Evaluate Model_Cme
  Spec_Layer Spec_MapFile Spec_Graph Spec_Workload Spec_WorkFile Spec_AccelFile Spec_SpatialMap Spec_Convert Spec_Cme Spec_Pipeline.
Open Scope string_scope.
Open Scope list_scope.
Open Scope Z_scope.

(** * The accelerator *)

Definition memories (f : raw_accel) : list raw_memory := map snd (rf_memories f).
(** A memory described after the [i]th one holds [op]. *)
Definition above (f : raw_accel) (i : nat) (op : string) : Prop :=
  exists j m, (i < j)%nat /\ nth_error (memories f) j = Some m /\ In op (rm_operands m).
(** How many memories described before the [i]th one hold [op], and the most for an operand of the [i]th, [m] *)
Definition below (f : raw_accel) (i : nat) (op : string) : nat :=
  length (filter (fun m => memb op (rm_operands m)) (firstn i (memories f))).
Definition rank (f : raw_accel) (i : nat) (m : raw_memory) : nat := list_max (map (below f i) (rm_operands m)).
(** A memory that is the first one for all of its operands *)
Definition first_memory (f : raw_accel) (m : raw_memory) : Prop :=
  exists i, nth_error (memories f) i = Some m /\ forall op, In op (rm_operands m) -> below f i op = 0%nat.

(** The movements of an operand at the [i]th memory: all are read towards the array and written from
    above, outputs are also written from the array and read towards above. *)
Definition movement (f : raw_accel) (i : nat) (op : string) (d : direction) : Prop :=
  d = RdLow \/ (op = "O" /\ d = WrLow) \/ (above f i op /\ (d = WrHigh \/ (op = "O" /\ d = RdHigh))).
Definition lists (p : raw_port) (op : string) (d : direction) : Prop := exists text, In text (rp_alloc p) /\ says text op d.

Record usable_accelerator (f : raw_accel) : Prop := {
  ua_accepted : accepted_regular f /\ ra_energy (rf_array f) <> None /\ ra_area (rf_array f) <> None /\ serves_own f;
  ua_array : NoDup (ra_dims (rf_array f)) /\ forall n, In n (ra_sizes (rf_array f)) -> 1 <= n;
  ua_memories : forall m, In m (memories f) -> 0 < rm_size m /\ NoDup (rm_operands m) /\ NoDup (map rp_name (rm_ports m)) /\
    forall p, In p (rm_ports m) -> 0 < rp_min p;
  ua_stored : forall op, operand_name op -> exists m, In m (memories f) /\ In op (rm_operands m);
  ua_moved : forall i m op d, nth_error (memories f) i = Some m -> In op (rm_operands m) -> movement f i op d ->
    exists p, In p (rm_ports m) /\ lists p op d;
  ua_order : forall i j m m' op, (i < j)%nat -> nth_error (memories f) i = Some m -> nth_error (memories f) j = Some m' ->
    In op (rm_operands m) -> In op (rm_operands m') -> (rank f i m <= rank f j m')%nat }.

(** * The layers *)

(** The operands have the usual names, loops are not called like parts of derived dimensions, derived
    dimensions share no loop, and the output has none as subscript. *)
Definition uses (w : written_relation) (d : string) : Prop := d = upper (wt_dim (wl_2 w)) \/ d = upper (wt_dim (wl_3 w)).
Record usable_layer (r : raw_layer) (e : written_equation) (ws : list written_relation) (loops : list (string * Z)) : Prop := {
  ul_written : well_written r;
  ul_sensible : sensible_layer r e ws loops;
  ul_operands : map wr_name (operands_of e) = ["O"; "I"; "W"] \/ map wr_name (operands_of e) = ["O"; "W"; "I"];
  ul_some : loops <> [];
  ul_loops : forall d w, In d (map fst loops) -> In w ws ->
    d <> (upper (wl_1 w) ++ "_R")%string /\ d <> (upper (wl_1 w) ++ "_IR")%string;
  ul_unshared : forall w w' d, In w ws -> In w' ws -> uses w d -> uses w' d -> w = w';
  ul_output : forall w, In w ws -> ~ In (upper (wl_1 w)) (dims_of (we_out e));
  ul_precision : forall d k n, rl_precision r = Some d -> In (k, n) d -> 0 <= n }.

(** * The mapping *)

(** Unrollings from 1 on over dimensions of the array, the usual operands, sizes of ordered loops from 1 on *)
Definition usable_entry (f : raw_accel) (en : entry) : Prop :=
  (forall user oa texts, en_spatial en = Some user -> In (oa, texts) user ->
     In oa (ra_dims (rf_array f)) /\ forall text u, In text texts -> unrolls text u -> 1 <= snd u) /\
  (dget "O" (en_links en) = Some "O" /\
   (dget "I" (en_links en) = Some "I1" /\ dget "W" (en_links en) = Some "I2" \/
    dget "I" (en_links en) = Some "I2" /\ dget "W" (en_links en) = Some "I1")) /\
  forall d n, In (d, inl n) (en_ordering en) -> 1 <= n.

(** What an entry says about the order of the loops of a layer: entries about other dimensions are dropped. *)
Definition ordered (en : entry) (loops : list (string * Z)) : list (string * option Z) :=
  filter (fun x => memb (fst x) (map fst loops))
    (map (fun x => (upper (fst x), match snd x with inl n => Some n | inr _ => None end)) (en_ordering en)).
(** Some entry orders loops. *)
Definition orders_loops (mapping : list raw_entry) : Prop := exists en, In en (map normalise mapping) /\ en_ordering en <> [].

(** First memories hold at least one element, and their ports pass one per cycle. *)
Definition one_element (f : raw_accel) (links : dict string string) (precision : dict string Z) : Prop :=
  forall m op mem_op n, first_memory f m -> dget op links = Some mem_op -> In mem_op (rm_operands m) -> dget op precision = Some n ->
    n <= rm_size m /\
    forall p, In p (rm_ports m) -> lists p mem_op (if string_dec op "O" then WrLow else RdLow) -> n <= rp_max p.

(** * All together *)

(** What a layer is called in a mapping file *)
Definition called (r : raw_layer) : string :=
  match rl_name r with Some (Some n) => n | _ => ("Layer" ++ string_of_Z (identifier r))%string end.

Record usable_files (hardware : raw_accel) (workload : list raw_layer) (mapping : list raw_entry)
    (meaning : list (written_equation * list written_relation * list (string * Z))) : Prop := {
  uf_accelerator : usable_accelerator hardware;
  uf_proper : forall r, In r workload -> proper_layer r;
  uf_layers : Forall2 (fun r x => usable_layer r (fst (fst x)) (snd (fst x)) (snd x)) workload meaning;
  uf_sources : Spec_Workload.sources_earlier (described workload);
  uf_mapping : proper_file mapping /\ exists data, parse_mapping mapping = Ok data;
  uf_entries : forall r t p en, In r workload -> rl_type r = Some t -> rl_precision r = Some p -> Spec_MapFile.chosen (called r) t (map normalise mapping) en ->
    usable_entry hardware en /\ one_element hardware (en_links en) p }.

(** A memory of the accelerator is as described, apart from costs. *)
Definition memory_kept (m : raw_memory) (s : memspec) : Prop :=
  ms_size s = rm_size m /\ ms_operands s = rm_operands m /\ ms_served s = rm_served m /\ Forall2 port_as (rm_ports m) (ms_ports s).

(** * What is searched and evaluated for a spatial mapping of a layer *)

(** The array dimensions that the memories of an operand serve, in the order of the file *)
Definition served_by (f : raw_accel) (mem_op : string) : list (list string) :=
  map rm_served (filter (fun m => memb mem_op (rm_operands m)) (memories f)).
(** The unrollings are lowered to what splits the layer evenly (C18), [lim], and rounded down, [whole]. *)
Definition lowered_to (loops : list (string * Z)) (sm lim whole : dict string (dict string Q)) : Prop :=
  dicts lim /\ dicts whole /\
  (forall o d u, unrolled sm o d u -> exists x y, unrolled lim o d x /\ unrolled whole o d y /\ limited_to loops sm o d u x /\
     ((~ first_largest sm o d /\ y = u) \/ (first_largest sm o d /\ rounded_down x y))) /\
  (forall o d x, unrolled lim o d x -> exists u, unrolled sm o d u) /\
  (forall o d y, unrolled whole o d y -> exists u, unrolled sm o d u).
(** For every operand each unrolling is at the lowest of its memories that serves the array dimension, or above all. *)
Definition spread (f : raw_accel) (links : dict string string) (u : dict string (dict string Q)) (sp : dict string (list (list (string * Q)))) : Prop :=
  forall op mem_op, dget op links = Some mem_op ->
    exists levels, dget op sp = Some levels /\ length levels = S (length (served_by f mem_op)) /\
      forall i l, nth_error levels i = Some l -> level_right (at_home (served_by f mem_op) i u) l.
(** The layer, its mapping and the accelerator are those of the files. *)
Record right_request (f : raw_accel) (e : written_equation) (loops : list (string * Z)) (en : entry) (l : built_layer) (free : bool)
    (sm : dict string (dict string Q)) (rq : request) : Prop := {
  rr_operands : rq_ops rq = map wr_name (operands_of e) /\ rq_out rq = wr_name (we_out e) /\ rq_ops rq = rq_out rq :: rq_inputs rq;
  rr_operations : rq_macs rq = zprod (map snd loops);
  rr_layer : rq_layer rq = ln_layer (bl_node l) /\ dget (rq_out rq) (ln_size_elem (bl_node l)) = Some (rq_size_out rq);
  rr_relevancy : forall op, dget op (rq_r rq) = option_map rv_r (dget op (ln_relevancy (bl_node l))) /\
    dget op (rq_ir rq) = option_map rv_ir (dget op (ln_relevancy (bl_node l)));
  rr_links : lk_data (rq_links rq) = en_links en;
  rr_array : rq_units rq = zprod (ra_sizes (rf_array f)) /\ ra_energy (rf_array f) = Some (rq_mac_cost rq) /\ rq_cpo rq = 1%Q;
  rr_spatial : exists lim whole, lowered_to loops sm lim whole /\
    spread f (en_links en) lim (rq_spatial rq) /\ spread f (en_links en) whole (rq_spatial_int rq);
  rr_options : rq_free rq = free }.

(** Every port serves one movement of one operand. *)
Definition one_movement (f : raw_accel) : Prop :=
  forall m p op d op' d', In m (memories f) -> In p (rm_ports m) -> lists p op d -> lists p op' d' -> op = op' /\ d = d'.

(** * What comes out *)
Section Outcome.
  Context {S C T : Type}.
  (** The positions of the layers and which of them are sources of which *)
  Variables (positions : list nat) (source : nat -> nat -> Prop) (spatials : nat -> result (list S)) (convert : nat -> S -> result C)
    (temporals : nat -> C -> list T * option exn) (evaluate : nat -> C -> T -> result eval).
  (** The sum over all layers, each evaluated once and after its sources, of the best evaluation of a
      temporal mapping found for one of the layer's spatial mappings *)
  Definition best_of_all (le : eval -> eval -> Prop) (energy latency : Q)
      (cmes : list (eval * list (eval * (nat * list (eval * (S * list (eval * T))))))) : Prop :=
    exists total rs, cmes = [(total, rs)] /\ energy = ev_energy total /\ latency = ev_l2 total /\ summed (map fst rs) total /\
      let layers := map (fun r => fst (snd r)) rs in
      Permutation layers positions /\
      (forall u v, In u positions -> In v positions -> source u v -> before layers u v) /\
      forall b i others, In (b, (i, others)) rs ->
        explored spatials convert temporals evaluate i /\ candidate spatials convert temporals evaluate i b /\
        forall e, candidate spatials convert temporals evaluate i e -> le b e.
  (** No temporal mapping was found for a spatial mapping of a layer, which was reported by [x]. *)
  Definition unmapped (x : exn) : Prop :=
    exists i ss s c, In i positions /\ spatials i = Ok ss /\ In s ss /\ convert i s = Ok c /\ temporals i c = ([], Some x).
End Outcome.
