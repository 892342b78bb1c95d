(** Independent vocabulary for C88: which JSON a value stands for, and reading in JSON. *)
From Coq Require Import QArith.
From Verif Require Import Base Model_DataMove Model_Cme Model_Json.
Local Open Scope string_scope.
Local Open Scope list_scope.

(** [s] is the text of a key.  Names of operands can be keys only of a dict that is converted ([inside]),
    not of one that is met by the JSON encoder, and never in the simple form. *)
Definition key_as (simple inside : bool) (k : key) (s : string) : Prop := k = KText s \/ (inside = true /\ simple = false /\ k = KName s).

(** Values stand for the JSON of the same shape: lists, tuples and sets for lists, dicts for objects with distinct
    keys in the same order, objects for what their method says. *)
Inductive stands (simple : bool) : bool -> value -> json -> Prop :=
| st_none i : stands simple i VNone JNull
| st_bool i b : stands simple i (VBool b) (JBool b)
| st_int i z : stands simple i (VInt z) (JInt z)
| st_int32 i z : stands simple i (VInt32 z) (JInt z)
| st_float i q : stands simple i (VFloat q) (JNumber q)
| st_text i s : stands simple i (VText s) (JText s)
| st_object i full short w j : (if simple then short else full) = Some w -> stands simple false w j -> stands simple i (VObject full short) j
| st_list i l js : Forall2 (stands simple i) l js -> stands simple i (VList l) (JList js)
| st_tuple i l js : Forall2 (stands simple i) l js -> stands simple i (VTuple l) (JList js)
| st_set i l js : Forall2 (stands simple true) l js -> stands simple i (VSet l) (JList js)
| st_dict i d js : NoDup (map fst js) -> Forall2 (fun x y => key_as simple i (fst x) (fst y) /\ stands simple i (snd x) (snd y)) d js ->
    stands simple i (VDict d) (JObject js).

(** The keys of each dict have distinct texts, at any depth. *)
Definition key_text (k : key) : string := match k with KText s | KName s => s end.
Fixpoint tidy (v : value) : Prop :=
  match v with
  | VObject full short => match full with Some w => tidy w | None => True end /\ match short with Some w => tidy w | None => True end
  | VDict d => NoDup (map (fun x => key_text (fst x)) d) /\ fold_right (fun x P => tidy (snd x) /\ P) True d
  | VSet l | VList l | VTuple l => fold_right (fun x P => tidy x /\ P) True l
  | _ => True
  end.

(** What is found under a path of keys *)
Fixpoint under (path : list string) (j : json) : option json :=
  match path with
  | [] => Some j
  | k :: path => match j with JObject d => match dget k d with Some j' => under path j' | None => None end | _ => None end
  end.

(** The four movements of a level *)
Definition movements_as {A} (number : A -> json) (f : four A) (j : json) : Prop :=
  exists a b c d, dget RdLow f = Some a /\ dget WrLow f = Some b /\ dget RdHigh f = Some c /\ dget WrHigh f = Some d /\
    j = JObject [("rd_out_to_low", number a); ("wr_in_by_low", number b); ("rd_out_to_high", number c); ("wr_in_by_high", number d)].

(** A complete file about an evaluation *)
Record file_about (e : eval) (j : json) : Prop := {
  fa_energy : under ["outputs"; "energy"; "energy_total"] j = Some (JNumber (ev_energy e)) /\
    under ["outputs"; "energy"; "operational_energy"] j = Some (JNumber (ev_mac e)) /\ under ["outputs"; "energy"; "memory_energy"] j = Some (JNumber (ev_mem e));
  fa_levels : forall op l, dget op (ev_bd e) = Some l -> under ["outputs"; "energy"; "memory_energy_breakdown_per_level"; op] j = Some (JList (map JNumber l));
  fa_further : forall op l, dget op (ev_further e) = Some l ->
    exists js, under ["outputs"; "energy"; "memory_energy_breakdown_per_level_per_operand"; op] j = Some (JList js) /\ Forall2 (movements_as JNumber) l js;
  fa_words : forall op l, dget op (ev_words e) = Some l ->
    exists js, under ["outputs"; "memory"; "word_accesses"; op] j = Some (JList js) /\ Forall2 (movements_as JInt) l js;
  (** the parts add up to the latency *)
  fa_latency : exists on computation off, under ["outputs"; "latency"; "data_onloading"] j = Some (JNumber on) /\ under ["outputs"; "latency"; "computation"] j = Some (JNumber computation) /\
    under ["outputs"; "latency"; "data_offloading"] j = Some (JNumber off) /\ computation = ev_l0 e /\ (computation + on == ev_l1 e)%Q /\ (computation + on + off == ev_l2 e)%Q;
  fa_utilisation : exists a b c d, ev_utils e = Some (a, b, c, d) /\ under ["outputs"; "spatial"; "mac_utilization"] j =
    Some (JObject [("ideal", JNumber a); ("stalls", JNumber b); ("stalls_onloading", JNumber c); ("stalls_onloading_offloading", JNumber d)]) }.

(** What a file about an in-memory-computing array says besides *)
Definition numbers_as (d : dict string Q) : json := JObject (map (fun x => (fst x, JNumber (snd x))) d).
Record imc_file_about (e : eval) (m : imc_numbers) (j : json) : Prop := {
  ia_energy : under ["outputs"; "energy"; "operational_energy_breakdown"] j = Some (numbers_as (im_energy_parts m));
  ia_times : under ["outputs"; "latency"; "computation_breakdown"; "mac_computation"] j = Some (JNumber (ev_temporal e)) /\
    under ["outputs"; "latency"; "computation_breakdown"; "memory_stalling"] j = Some (JNumber (im_stall m));
  ia_clock : under ["outputs"; "clock"; "tclk (ns)"] j = Some (JNumber (im_clock m)) /\
    under ["outputs"; "clock"; "tclk_breakdown (ns)"] j = Some (numbers_as (im_clock_parts m));
  ia_area : under ["outputs"; "area (mm^2)"; "total_area"] j = Some (JNumber (im_area m)) /\
    under ["outputs"; "area (mm^2)"; "total_area_breakdown:"] j = Some (JObject [("imc_area", JNumber (im_imc_area m)); ("mem_area", JNumber (im_mem_area m))]) /\
    under ["outputs"; "area (mm^2)"; "total_area_breakdown_further"; "imc_area_breakdown"] j = Some (numbers_as (im_imc_parts m)) /\
    under ["outputs"; "area (mm^2)"; "total_area_breakdown_further"; "mem_area_breakdown"] j = Some (numbers_as (im_mem_parts m)) }.
