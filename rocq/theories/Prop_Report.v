(** The reported loops (C49). *)
From Verif Require Import Base Model_Alloc Model_Temporal Model_Report Spec_Alloc Spec_Temporal Spec_Report Proof_Report.
Open Scope string_scope.
Open Scope list_scope.
Open Scope nat_scope.

(** Every loop of the ordering is reported, innermost first, with the memory that holds it
    for each operand; equal loops in different levels are told apart. *)
Theorem C49_loops_reported :
  forall links names tm ordering, NoDup (map fst links) -> levels_of ordering links names tm -> In "O" (map fst links) ->
  exists loops, report_temporal links names tm = Ok loops /\ map fst loops = ordering /\
    forall k l, nth_error loops k = Some l -> held_in links names tm k (snd l).
Proof. exact report_spec. Qed.
Print Assumptions C49_loops_reported.

(** The printed mapping has a line per loop, outermost first, each indented further, with
    the memories that hold it; then the spatial loops, all at the innermost indentation. *)
Theorem C49_printed :
  forall step links names tm ordering spatial, NoDup (map fst links) -> levels_of ordering links names tm ->
  In "O" (map fst links) -> length links = 3 -> ordering <> [] ->
  exists T P, print_mapping step links names tm spatial =
      Ok (Heading "Temporal Loops" (map fst links) :: T ++ Heading "Spatial Loops" [""; ""; ""] :: P) /\
    length T = length ordering /\ length P = length (concat spatial) /\
    (forall i l, nth_error T i = Some l -> exists d s mems, l = Loop (step * i) "for" d s mems /\
       nth_error ordering (length ordering - 1 - i) = Some (d, s) /\ held_in links names tm (length ordering - 1 - i) mems) /\
    (forall i l, nth_error P i = Some l -> exists d s, l = Loop (step * length ordering) "parfor" d s [""; ""; ""] /\
       nth_error (concat spatial) (length (concat spatial) - 1 - i) = Some (d, s)).
Proof. exact print_spec. Qed.
Print Assumptions C49_printed.

(** Printing fails when there are no temporal loops. *)
Theorem C49_fully_spatial :
  forall step links names tm spatial, NoDup (map fst links) -> levels_of [] links names tm -> In "O" (map fst links) ->
  print_mapping step links names tm spatial = Err ValueError.
Proof. exact print_empty. Qed.
Print Assumptions C49_fully_spatial.

(** The mappings that the allocator makes, after reuse loops are merged down, meet the
    hypothesis. *)
Theorem C49_allocated :
  forall ly spatial mtype tops ordering, NoDup (map snd (l_links ly)) -> NoDup (map fst (l_links ly)) ->
  forall nodes tm names, (forall n, In n nodes -> NoDup (m_operands n)) ->
  (forall lop mop, In (lop, mop) (l_links ly) -> In lop (keys (l_ir ly)) /\
     (exists n, In n nodes /\ In mop (m_operands n) /\ dget mop tops = Some (m_id n)) /\
     exists memories, dget mop names = Some memories /\ length memories = storing mop nodes) ->
  allocator_run ly spatial mtype tops ordering nodes = Ok tm ->
  forall fuel, passes_bound tm <= fuel ->
  exists st mac, merge_down (l_ir ly) fuel tm = Ok (st, mac) /\ levels_of ordering (l_links ly) names st.
Proof. exact allocated_levels. Qed.
Print Assumptions C49_allocated.

(** Two equal loops, in different levels for two of the operands. *)
Example C49_met :
  levels_of [("FX", 3%Z); ("OX", 4%Z); ("K", 8%Z); ("OX", 4%Z)] ex_links ex_names ex_tm /\
  report_temporal ex_links ex_names ex_tm =
    Ok [(("FX", 3%Z), ["reg_O"; "sram"; "sram"]); (("OX", 4%Z), ["sram"; "sram"; "sram"]);
        (("K", 8%Z), ["dram"; "dram"; "sram"]); (("OX", 4%Z), ["dram"; "dram"; "sram"])] /\
  print_mapping 2 ex_links ex_names ex_tm [[("K", 2%Z)]; []] =
    Ok [Heading "Temporal Loops" ["O"; "W"; "I"];
        Loop 0 "for" "OX" 4 ["dram"; "dram"; "sram"]; Loop 2 "for" "K" 8 ["dram"; "dram"; "sram"];
        Loop 4 "for" "OX" 4 ["sram"; "sram"; "sram"]; Loop 6 "for" "FX" 3 ["reg_O"; "sram"; "sram"];
        Heading "Spatial Loops" [""; ""; ""]; Loop 8 "parfor" "K" 2 [""; ""; ""]].
Proof.
  split; [|split; vm_compute; reflexivity].
  intros lop mop [[= <- <-]|[[= <- <-]|[[= <- <-]|[]]]]; do 2 eexists; repeat split; try reflexivity; vm_compute; repeat constructor.
Qed.
