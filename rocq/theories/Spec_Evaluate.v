(** Independent vocabulary for C74: which layers, accelerators and mappings can be evaluated. *)
From Coq Require Import QArith.
From Verif Require Import Base Model_Alloc Model_DataMove Model_Mapping Model_Links Model_Cost Model_Latency Model_Hierarchy Model_Evaluate
  Spec_Decouple Spec_SpatialInt Spec_Mapping Spec_Cost Spec_Hierarchy.
Local Open Scope string_scope.
Local Open Scope list_scope.

(** * What an evaluation is given *)

(** A transfer that happens: it moves data in some periods. *)
Definition happens (p : dict attr (dict direction Z)) (k : direction) : Prop :=
  exists n, entry p PeriodCount k = Some n /\ n <> 0%Z.

(** A port moves a memory operand at a level in a direction. *)
Definition served (ci : inputs) (mem_op : string) (lv : nat) (k : direction) : Prop :=
  exists m pt, In m (in_levels ci) /\ In pt (ml_ports m) /\ In (mem_op, lv, k) (pt_served pt).

(** An operand: as many memories as unit memories in both mappings, sizes for each, all attributes,
    and a bandwidth for every direction in which data move. *)
Record operand_given (ci : inputs) (op mem_op : string) : Prop := {
  og_memories : exists ms od ps od' ps' uc,
    dget mem_op (in_hier ci) = Some ms /\ dget op (in_map ci) = Some (od, ps) /\
    dget op (in_map_int ci) = Some (od', ps') /\ dget op (in_unit_count ci) = Some uc /\
    ps <> [] /\ length ms = length ps /\ length ps' = length ps /\ (length ps < length uc)%nat /\
    (length ps < length (od_bit_unrolled od))%nat /\ (length ps < length (od_effective_bit od))%nat /\
    (length ps < length (od_bit_unrolled od'))%nat;
  og_sizes : forall ms m, dget mem_op (in_hier ci) = Some ms -> In m ms -> (0 < ml_size m)%Z;
  og_attributes : forall od ps p, dget op (in_map ci) = Some (od, ps) \/ dget op (in_map_int ci) = Some (od, ps) -> In p ps ->
    forall a k, exists x, entry p a k = Some x;
  og_widths : forall ms od ps lv m p k, dget mem_op (in_hier ci) = Some ms -> dget op (in_map ci) = Some (od, ps) ->
    nth_error ms lv = Some m -> nth_error ps lv = Some p ->
    (width (ml_bw_max m) mem_op k None /\ width (ml_bw_min m) mem_op k None /\ entry p AmountPerPeriod k = Some 0%Z) \/
    (exists mx mn, width (ml_bw_max m) mem_op k (Some mx) /\ width (ml_bw_min m) mem_op k (Some mn) /\ (0 < mx)%Z /\ (0 < mn)%Z) }.

(** Complete inputs of an evaluation. *)
Record complete_inputs (ci : inputs) : Prop := {
  co_links : exists data, NoDup (keys data) /\ make_links data = Ok (in_links ci);
  co_operands : forall op, (In op (in_ops ci) <-> op = in_out ci \/ In op (in_inputs ci)) /\
    (In op (in_ops ci) <-> In op (keys (lk_data (in_links ci))));
  co_once : NoDup (in_ops ci);
  co_inputs : in_inputs ci <> [] /\
    forall op, In op (in_inputs ci) -> exists m, dget op (lk_data (in_links ci)) = Some m /\ (m = "I1" \/ m = "I2");
  co_output : exists m, dget (in_out ci) (lk_data (in_links ci)) = Some m /\ m <> "I1" /\ m <> "I2";
  co_given : forall op mem_op, dget op (lk_data (in_links ci)) = Some mem_op -> operand_given ci op mem_op;
  (** shared memories and ports are about levels of operands of the layer *)
  co_sharing : forall g op mem_op lv, In g (in_sharing ci) -> In (mem_op, lv) g -> dget op (lk_data (in_links ci)) = Some mem_op ->
    exists od ps, dget op (in_map ci) = Some (od, ps) /\ (lv < length ps)%nat;
  co_served : forall mem_op lv k, served ci mem_op lv k ->
    exists op od ps, dget op (lk_data (in_links ci)) = Some mem_op /\ dget op (in_map_int ci) = Some (od, ps) /\ (lv < length ps)%nat;
  co_ports : forall m pt, In m (in_levels ci) -> In pt (ml_ports m) -> (0 < pt_bw_max pt)%Z;
  (** between neighbouring levels inputs come in and outputs go out, through ports *)
  co_in : forall op mem_op od ps lv p q, In op (in_inputs ci) -> dget op (lk_data (in_links ci)) = Some mem_op ->
    dget op (in_map_int ci) = Some (od, ps) -> nth_error ps lv = Some p -> nth_error ps (S lv) = Some q ->
    served ci mem_op lv WrHigh /\ happens p WrHigh /\ served ci mem_op (S lv) RdLow /\ happens q RdLow;
  co_out : forall mem_op od ps lv p q, dget (in_out ci) (lk_data (in_links ci)) = Some mem_op ->
    dget (in_out ci) (in_map_int ci) = Some (od, ps) -> nth_error ps lv = Some p -> nth_error ps (S lv) = Some q ->
    served ci mem_op lv RdHigh /\ happens p RdHigh /\ served ci mem_op (S lv) WrLow /\ happens q WrLow;
  (** of two periods one is a multiple of the other *)
  co_periods : forall op od ps p k t op' od' ps' p' k' t',
    dget op (in_map_int ci) = Some (od, ps) -> In p ps -> happens p k -> entry p Period k = Some t ->
    dget op' (in_map_int ci) = Some (od', ps') -> In p' ps' -> happens p' k' -> entry p' Period k' = Some t' ->
    (0 < t /\ 0 < t' /\ ((t | t') \/ (t' | t)))%Z;
  co_total : (0 < in_total ci)%Z;
  co_units : (0 < in_units ci)%Z;
  (** operations take a whole number of cycles *)
  co_cycles : exists z, (in_cpo ci == inject_Z z)%Q /\ (0 < z)%Z }.

(** * What can be evaluated *)

(** Spatial levels [su] (the operational array first) and temporal levels [tm] of an operand that
    fit together and suit the layer. *)
Definition fits (rq : request) (op : string) (su : list (list (string * Q))) (tm : list (list (string * Z))) : Prop :=
  exists oi, oi_spatial oi = su /\ oi_temporal oi = tm /\ good_operand (rq_layer rq) (rq_r rq) (rq_ir rq) (rq_pr rq) op oi.

(** A spatial mapping: every operand is unrolled over as many units. *)
Record spatial_fits (rq : request) (sp : dict string (list (list (string * Q)))) : Prop := {
  sf_fits : forall op tm, dget op (rq_temporal rq) = Some tm -> exists su, dget op sp = Some su /\ fits rq op su tm;
  sf_units : forall op op' su su', In op (rq_ops rq) -> In op' (rq_ops rq) -> dget op sp = Some su -> dget op' sp = Some su' ->
    (unrolled_from 0 su == unrolled_from 0 su')%Q }.

(** The temporal mapping: all operands divide the same loops over their memories. *)
Record temporal_fits (rq : request) : Prop := {
  tf_once : NoDup (keys (rq_temporal rq));
  tf_operands : forall op, In op (keys (rq_temporal rq)) <-> In op (rq_ops rq);
  tf_loops : exists ordering, (forall x, In x ordering -> (1 <= snd x)%Z) /\
    forall op tm, In (op, tm) (rq_temporal rq) -> concat tm = ordering;
  tf_levels : forall op mem_op tm, dget op (lk_data (rq_links rq)) = Some mem_op -> dget op (rq_temporal rq) = Some tm ->
    length tm = length (holders (rq_hierarchy rq) mem_op) }.

(** Inputs come in from the memory above and leave towards the array, outputs move both ways. *)
Definition needed (rq : request) (op : string) (above : Prop) (k : direction) : Prop :=
  (In op (rq_inputs rq) /\ (k = RdLow \/ (k = WrHigh /\ above))) \/
  (op = rq_out rq /\ (k = RdLow \/ k = WrLow \/ ((k = RdHigh \/ k = WrHigh) /\ above))).

(** The memories, in the order in which they are described. *)
Record sound_hardware (rq : request) (port_counter : nat) (ms : list memspec) : Prop := {
  sh_built : build port_counter ms = Ok (rq_hierarchy rq);
  sh_once : names_once ms /\ operands_once ms;
  sh_order : heights_grow (rq_hierarchy rq);
  sh_sizes : forall m, In m ms -> (0 < ms_size m)%Z;
  sh_widths : forall m p, In m ms -> In p (ms_ports m) -> (0 < ps_bw_min p /\ 0 < ps_bw_max p)%Z;
  (** nothing is stored that the layer does not have *)
  sh_used : forall m mem_op, In m ms -> In mem_op (ms_operands m) -> exists op, dget op (lk_data (rq_links rq)) = Some mem_op;
  (** all movements that may be needed have a port *)
  sh_moved : forall i m op mem_op k, nth_error ms i = Some m -> In mem_op (ms_operands m) -> dget op (lk_data (rq_links rq)) = Some mem_op ->
    needed rq op (exists j m', (i < j)%nat /\ nth_error ms j = Some m' /\ In mem_op (ms_operands m')) k -> exists p, moved_by m mem_op k p }.

Record sound_layer (rq : request) : Prop := {
  sl_links : exists data, NoDup (keys data) /\ make_links data = Ok (rq_links rq);
  sl_operands : forall op, (In op (rq_ops rq) <-> op = rq_out rq \/ In op (rq_inputs rq)) /\
    (In op (rq_ops rq) <-> In op (keys (lk_data (rq_links rq))));
  sl_once : NoDup (rq_ops rq) /\ NoDup (rq_pr rq) /\ NoDup (keys (rq_r rq));
  sl_pr : forall op, In op (rq_pr rq) -> In op (rq_ops rq) /\ op <> rq_out rq;
  sl_inputs : rq_inputs rq <> [] /\
    forall op, In op (rq_inputs rq) -> exists m, dget op (lk_data (rq_links rq)) = Some m /\ (m = "I1" \/ m = "I2");
  sl_output : exists m, dget (rq_out rq) (lk_data (rq_links rq)) = Some m /\ m <> "I1" /\ m <> "I2";
  sl_derived : derived_ok (rq_layer rq);
  sl_precision : (0 <= l_final_precision (rq_layer rq))%Z /\
    forall op, In op (rq_ops rq) -> exists p, dget op (l_precision (rq_layer rq)) = Some p /\ (0 <= p)%Z;
  sl_sizes : (0 <= rq_macs rq /\ 0 <= rq_size_out rq)%Z }.

Record valid_request (rq : request) : Prop := {
  vr_hardware : exists port_counter ms, sound_hardware rq port_counter ms;
  vr_layer : sound_layer rq;
  vr_temporal : temporal_fits rq;
  vr_spatial : spatial_fits rq (rq_spatial rq);
  vr_spatial_int : spatial_fits rq (rq_spatial_int rq);
  vr_units : (0 < rq_units rq)%Z;
  (** operations take a whole number of cycles *)
  vr_cycles : exists z, (rq_cpo rq == inject_Z z)%Q /\ (0 < z)%Z }.

(** Every port makes one movement of one operand. *)
Definition dedicated_ports (ms : list memspec) : Prop :=
  forall m p op k op' k', In m ms -> moved_by m op k p -> moved_by m op' k' p -> op = op' /\ k = k'.
