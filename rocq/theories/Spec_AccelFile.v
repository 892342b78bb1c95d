(** What a hardware description should mean, over the document that is read. *)
From Coq Require Import QArith Ascii Sorting.Sorted.
From Verif Require Import Base Model_Text Model_MapFile Model_DataMove Model_Hierarchy Model_Imc Model_Cacti Model_AccelFile
  Spec_Layer Spec_MapFile Spec_Hierarchy Spec_Imc.
Open Scope string_scope.
Open Scope list_scope.
Open Scope Z_scope.

(** * Names *)
Definition operand_name (s : string) : Prop := In s ["I1"; "I2"; "O"].
Definition all_digits (w : string) : Prop := w <> "" /\ forall c, In c (characters w) -> In c (characters "0123456789").
(** "D1" *)
Definition dimension_label (s : string) : Prop := exists c, In c (characters "0123456789") /\ s = String "D" (String c "").
(** "rw_port_1" *)
Definition port_label (s : string) : Prop :=
  exists u w, In u [""; "r"; "w"; "rw"] /\ all_digits w /\ s = (u ++ "_port_" ++ w)%string.
Inductive port_kind : string -> ptype -> Prop :=
| kind_read : port_kind "read" PRead
| kind_write : port_kind "write" PWrite
| kind_both : port_kind "read_write" PReadWrite.
(** "I1, fh" *)
Definition says (text op : string) (d : direction) : Prop := text = (op ++ ", " ++ direction_name d)%string.

(** * What the validator accepts *)
Definition automatic (m : raw_memory) : Prop := rm_auto m = Some true.
Definition in_memory (a : raw_array) : Prop := ra_imc a = Some true.

Definition proper_port (p : raw_port) : Prop :=
  port_label (rp_name p) /\ rp_min p <= rp_max p /\
  exists t, port_kind (rp_type p) t /\
    forall text, In text (rp_alloc p) -> exists op d, operand_name op /\ says text op d /\ may_move t d.
Definition proper_memory (dims : list string) (m : raw_memory) : Prop :=
  (forall op, In op (rm_operands m) -> operand_name op) /\ (forall p, In p (rm_ports m) -> proper_port p) /\
  (forall d, In d (rm_served m) -> In d dims) /\
  (automatic m -> rm_size m mod 8 = 0) /\
  (~ automatic m -> rm_read m <> None /\ rm_write m <> None /\ rm_area m <> None).
Definition proper_sizes (a : raw_array) : Prop :=
  (forall d, In d (ra_dims a) -> dimension_label d) /\ length (ra_sizes a) = length (ra_dims a) /\
  (forall n, In n (ra_sizes a) -> 0 <= n).
(** "C, 4" *)
Definition proper_dataflow (s : string) : Prop :=
  exists a w, s = (a ++ ", " ++ w)%string /\ a <> "" /\ (forall c, In c (characters a) -> In c (characters "ABCDEFGHIJKLMNOPQRSTUVWXYZ")) /\ all_digits w.
Definition proper_dataflows (f : raw_accel) : Prop :=
  match rf_dataflows f with
  | None => True
  | Some None => False
  | Some (Some d) => In "D1" (keys d) /\ forall oa texts, In (oa, texts) d -> In oa ["D1"; "D2"; "D3"; "D4"] /\ forall t, In t texts -> proper_dataflow t
  end.
Definition proper_parts (f : raw_accel) : Prop :=
  proper_sizes (rf_array f) /\ (forall x m, In (x, m) (rf_memories f) -> proper_memory (ra_dims (rf_array f)) m) /\ proper_dataflows f.

Definition no_adc (a : raw_array) : Prop := ra_adc a = None \/ ra_adc a = Some (Some 0).
Definition accepted_regular (f : raw_accel) : Prop :=
  proper_parts f /\ let a := rf_array f in
  ~ in_memory a /\ ra_type a = None /\ no_adc a /\ ra_serial a = None /\
  (forall l, ra_precision a = Some l -> length l = 2%nat).
Definition accepted_imc (f : raw_accel) : Prop :=
  proper_parts f /\ let a := rf_array f in
  in_memory a /\ (forall t, ra_type a = Some t -> In t ["analog"; "digital"]) /\ (ra_type a = Some "digital" -> no_adc a) /\
  exists act weight serial cells, ra_precision a = Some [act; weight] /\ ra_serial a = Some serial /\
    power_of_two act /\ power_of_two weight /\ power_of_two serial /\ serial <= act /\
    dget "cells" (rf_memories f) = Some cells /\ rm_operands cells = ["I2"] /\ rm_served cells = [] /\ rm_size cells mod weight = 0.

(** * What is built *)

(** Every port only moves operands that its memory holds. *)
Definition serves_own (f : raw_accel) : Prop :=
  forall x m p text op d, In (x, m) (rf_memories f) -> In p (rm_ports m) -> In text (rp_alloc p) -> says text op d -> In op (rm_operands m).

(** The width that CACTI is asked for: that of the first port of the type read, or else read_write *)
Definition first_kind (t : string) (ps : list raw_port) (p : raw_port) : Prop :=
  exists pre post, ps = pre ++ p :: post /\ rp_type p = t /\ forall y, In y pre -> rp_type y <> t.
Definition read_width (m : raw_memory) (bw : Z) : Prop :=
  exists p, bw = rp_max p /\
    (first_kind "read" (rm_ports m) p \/ ((forall y, In y (rm_ports m) -> rp_type y <> "read") /\ first_kind "read_write" (rm_ports m) p)).
Definition asks (tech : Z) (m : raw_memory) (q : request) : Prop :=
  rq_type q = match rm_type m with None => "sram" | Some t => t end /\ rq_size q = rm_size m /\ read_width m (rq_bw q) /\
  rq_rd q = 1 /\ rq_wr q = 1 /\ rq_rw q = 0 /\ rq_bank q = 1 /\ rq_tech q = tech.

(** Read cost, write cost and area of the memories: as written, or as answered (C71), from first to
    last, with what that does to the pool *)
Inductive priced (sim : simulator) (tech : Z) : pool -> list raw_memory -> list (Q * Q * Q) -> pool -> Prop :=
| priced_none p : priced sim tech p [] [] p
| priced_written p m ms r w a cs p' : ~ automatic m -> rm_read m = Some r -> rm_write m = Some w -> rm_area m = Some a ->
    priced sim tech p ms cs p' -> priced sim tech p (m :: ms) ((r, w, a) :: cs) p'
| priced_extracted p m ms q r w a p1 ran cs p' : automatic m -> asks tech m q -> get_item sim q p = (Costs r w a, p1, ran) ->
    priced sim tech p1 ms cs p' -> priced sim tech p (m :: ms) ((r, w, a) :: cs) p'.

Definition port_as (p : raw_port) (s : portspec) : Prop :=
  ps_name s = rp_name p /\ port_kind (rp_type p) (ps_type s) /\ ps_bw_min s = rp_min p /\ ps_bw_max s = rp_max p /\
  Forall2 (fun text x => exists d, says text (fst x) d /\ snd x = direction_name d) (rp_alloc p) (ps_alloc s).
Definition memory_as (m : raw_memory) (c : Q * Q * Q) (s : memspec) : Prop :=
  ms_size s = rm_size m /\ ms_r_cost s = fst (fst c) /\ ms_w_cost s = snd (fst c) /\ ms_operands s = rm_operands m /\
  ms_served s = rm_served m /\ Forall2 port_as (rm_ports m) (ms_ports s).

(** The memories are those written, in order; [build] is what C30, C31, C61 and C62 are about. *)
Definition memories_as (sim : simulator) (tech : Z) (p : pool) (f : raw_accel) (a : accel) (p' : pool) : Prop :=
  exists cs ms, priced sim tech p (map snd (rf_memories f)) cs p' /\
    Forall2 (fun mc s => memory_as (fst mc) (snd mc) s) (combine (map snd (rf_memories f)) cs) ms /\
    length ms = length (rf_memories f) /\ build 0 ms = Ok (ac_hierarchy a) /\
    ac_areas a = map snd cs /\ accelerator (ac_hierarchy a) = Ok (ac_tables a).
Definition dataflows_as (f : raw_accel) (a : accel) : Prop :=
  match rf_dataflows f with
  | Some (Some user) => exists d, ac_dataflows a = Some d /\ (NoDup (keys user) -> describes user d)
  | _ => ac_dataflows a = None
  end.
(** Sizes are those written, the last one for a repeated dimension. *)
Definition sizes_as (r : raw_array) (a : array) : Prop :=
  NoDup (keys (ar_sizes a)) /\ (forall d n, dget d (ar_sizes a) = Some n <-> last_value (combine (ra_dims r) (ra_sizes r)) d n) /\
  (NoDup (ra_dims r) -> ar_sizes a = combine (ra_dims r) (ra_sizes r) /\ ar_units a = zprod (ra_sizes r)).

Definition read_as (sim : simulator) (tech : Z) (p : pool) (f : raw_accel) (a : accel) (p' : pool) : Prop :=
  ac_name a = rf_name f /\ sizes_as (rf_array f) (ac_array a) /\ memories_as sim tech p f a p' /\ dataflows_as f a.

(** * In-memory computing *)

(** The dimensions in order of their number *)
Definition label_code (s : string) : nat := match s with String _ (String c _) => nat_of_ascii c | _ => 0%nat end.
Definition numbered (dims l : list string) : Prop := Permutation dims l /\ StronglySorted (fun x y => (label_code x < label_code y)%nat) l.
(** wordlines, bitlines and the sizes of the others *)
Definition lines (r : raw_array) (word bit : Z) (others : list Z) : Prop :=
  exists w b os, numbered (ra_dims r) (w :: b :: os) /\ let sizes := combine (ra_dims r) (ra_sizes r) in
    In (w, word) sizes /\ In (b, bit) sizes /\ Forall2 (fun o n => In (o, n) sizes) os others.
(** The array's parameters, as written.  [bank] and [adc] are the area of a bank of cells as CACTI says and of
    one converter; nothing is written for the converters of a digital array. *)
Definition converter_bits (r : raw_array) (n : Z) : Prop :=
  match ra_adc r with
  | None => n = 0
  | Some None => ra_type r <> Some "analog" /\ n = 0
  | Some (Some k) => n = k
  end.
Definition cells_area_as (bank : Z -> Z -> Z -> Z -> result Q) (r : raw_array) (cells : raw_memory) (i : imc) : Prop :=
  (automatic cells -> im_wordline i <> 0 /\ exists x, bank (im_wordline i) (im_bitline i) (rm_size cells) (im_weight i) = Ok x /\
                      im_cells_area i = (x * inject_Z (im_banks i))%Q) /\
  (~ automatic cells -> exists x, rm_area cells = Some x /\ im_cells_area i = (inject_Z (zprod (ra_sizes r)) * x)%Q).
Definition parameters_as (bank : Z -> Z -> Z -> Z -> result Q) (adc : Z -> Q) (f : raw_accel) (i : imc) : Prop :=
  let r := rf_array f in
  (im_analog i = true <-> ra_type r = Some "analog") /\ ra_precision r = Some [im_act i; im_weight i] /\ ra_serial r = Some (im_serial i) /\
  converter_bits r (im_adc i) /\ im_adc_area i = adc (im_adc i) /\
  (exists others, lines r (im_wordline i) (im_bitline i) others /\ im_banks i = zprod others) /\
  exists cells, dget "cells" (rf_memories f) = Some cells /\ im_cells i = rm_size cells /\ cells_area_as bank r cells i.
(** Enough for the figures of the array to be computed *)
Definition workable (bank : Z -> Z -> Z -> Z -> result Q) (adc : Z -> Q) (f : raw_accel) : Prop :=
  let r := rf_array f in
  NoDup (ra_dims r) /\ (2 <= length (ra_dims r))%nat /\ (forall n, In n (ra_sizes r) -> 1 <= n) /\
  (exists n, converter_bits r n /\ 0 <= n) /\ (forall n, (0 <= adc n)%Q) /\
  (ra_type r <> Some "analog" -> forall word bit others, lines r word bit others -> power_of_two bit /\ 2 <= bit) /\
  forall cells, dget "cells" (rf_memories f) = Some cells ->
    (~ automatic cells -> forall x, rm_area cells = Some x -> (0 <= x)%Q) /\
    (automatic cells -> forall word bit size weight, exists x, bank word bit size weight = Ok x /\ (0 <= x)%Q).
(** A memory whose costs CACTI can be asked for *)
Definition known_type (m : raw_memory) : Prop := rm_type m = None \/ exists t, rm_type m = Some t /\ In t ["sram"; "dram"; "rf"].
