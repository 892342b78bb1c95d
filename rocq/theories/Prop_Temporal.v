(** C12 and C13: construction of a temporal mapping. *)
From Verif Require Import Base Model_Alloc Model_Temporal Spec_Alloc Spec_Temporal
  Proof_Temporal Proof_TemporalRun Prop_Alloc.
Local Open Scope string_scope.

(** C12.  Merging reuse loops down terminates within the stated number of passes,
    keeps levels, loops and order, and moves every boundary past exactly the reuse
    loops that follow it; the stationary cycle count at the multipliers is that of
    the reuse loops at the start of the loop nest. *)
Theorem C12_merge_down :
  forall ir_dims m fuel, (passes_bound m <= fuel)%nat ->
  (forall op, In op (keys m) -> In op (keys ir_dims)) ->
  exists st mac, merge_down ir_dims fuel m = Ok (st, mac) /\ keys mac = keys m /\
    Forall2 (fun kv kv' => fst kv' = fst kv /\
       merged_down (reuse_dims ir_dims (fst kv)) (snd kv) (snd kv')) m st /\
    Forall2 (fun kv kv' => fst kv' = fst kv /\
       leading_product (reuse_dims ir_dims (fst kv)) (concat (snd kv)) (snd kv')) m mac.
Proof. exact merge_down_total. Qed.
Print Assumptions C12_merge_down.

Definition ex_ir : dict string (list string) := [("W", ["OX"; "OY"]); ("O", ["C"; "FX"])].
Definition ex_map : dict string (list (list (string * Z))) :=
  [("W", [[("OX", 4); ("K", 2)]; [("OX", 2)]; [("OY", 3); ("C", 5); ("OY", 2)]]);
   ("O", [[]; [("FX", 4); ("C", 5)]; [("C", 3); ("OX", 4)]])].
Example C12_met : merge_down ex_ir (passes_bound ex_map) ex_map =
  Ok ([("W", [[("OX", 4); ("K", 2); ("OX", 2); ("OY", 3)]; []; [("C", 5); ("OY", 2)]]);
       ("O", [[("FX", 4); ("C", 5); ("C", 3)]; []; [("OX", 4)]])],
      [("W", 4); ("O", 60)]).
Proof. vm_compute. reflexivity. Qed.

(** C13.  Whatever is accepted: one count per level, equal to the product of the
    loops at and below it, each dividing the next and not smaller, the last one the
    same for all operands and equal to the product of all loops of each operand. *)
Theorem C13_cycle_counts :
  forall ir_dims m fuel st mac cabl total, (passes_bound m <= fuel)%nat ->
  (forall op, In op (keys m) -> In op (keys ir_dims)) ->
  build_temporal_mapping ir_dims fuel m = Ok (st, mac, cabl, total) ->
  keys mac = keys m /\
  Forall2 (fun kv kv' => fst kv' = fst kv /\
     merged_down (reuse_dims ir_dims (fst kv)) (snd kv) (snd kv')) m st /\
  Forall2 (fun kv kv' => fst kv' = fst kv /\
     leading_product (reuse_dims ir_dims (fst kv)) (concat (snd kv)) (snd kv')) m mac /\
  Forall2 (fun kv kc => fst kc = fst kv /\ cycle_counts (snd kv) (snd kc) /\
     nth_error (snd kc) (length (snd kc) - 1) = Some total) st cabl /\
  forall op ls, In (op, ls) m -> cycles (concat ls) = total.
Proof. exact build_counts. Qed.
Print Assumptions C13_cycle_counts.

(** C13.  Mappings whose operands disagree on the number of iterations are refused. *)
Theorem C13_unequal_refused :
  forall ir_dims m fuel, (passes_bound m <= fuel)%nat ->
  (forall op, In op (keys m) -> In op (keys ir_dims)) ->
  (forall op ls, In (op, ls) m -> ls <> []) ->
  (exists op ls op' ls', In (op, ls) m /\ In (op', ls') m /\
     cycles (concat ls) <> cycles (concat ls')) ->
  build_temporal_mapping ir_dims fuel m = Err AssertionError.
Proof. exact build_rejects. Qed.
Print Assumptions C13_unequal_refused.

(** C13.  What the allocator makes of one loop ordering is always accepted. *)
Theorem C13_allocated_accepted :
  forall ly spatial mtype tops ordering,
  NoDup (map snd (l_links ly)) -> NoDup (map fst (l_links ly)) ->
  forall nodes tm, (forall n, In n nodes -> NoDup (m_operands n)) -> l_links ly <> [] ->
  (forall lop mop, In (lop, mop) (l_links ly) -> In lop (keys (l_ir ly)) /\
     exists n, In n nodes /\ In mop (m_operands n) /\ dget mop tops = Some (m_id n)) ->
  allocator_run ly spatial mtype tops ordering nodes = Ok tm ->
  forall fuel, (passes_bound tm <= fuel)%nat ->
  exists st mac cabl, build_temporal_mapping (l_ir ly) fuel tm = Ok (st, mac, cabl, cycles ordering).
Proof. exact run_builds. Qed.
Print Assumptions C13_allocated_accepted.

(** C13.  The sizes of the outermost relevant (or reuse) loops per level. *)
Theorem C13_top_loop_sizes :
  forall dims levels, exists tops, top_sizes dims levels = 1 :: tops /\
  Forall2 (outer_run dims) levels tops.
Proof. exact top_sizes_runs. Qed.
Print Assumptions C13_top_loop_sizes.

Example C13_met :
  match allocator_run ex_layer ex_spatial UNEVEN ex_tops ex_ordering ex_nodes with
  | Ok tm => build_temporal_mapping (l_ir ex_layer) (passes_bound tm) tm =
      Ok ([("O", [[("FX", 3)]; [("OX", 4)]; [("K", 8); ("OX", 2)]]);
           ("W", [[("FX", 3); ("OX", 4)]; [("K", 8); ("OX", 2)]]);
           ("I", [[("FX", 3); ("OX", 4); ("K", 8); ("OX", 2)]; []])],
          [("O", 3); ("W", 1); ("I", 1)],
          [("O", [3; 12; 192]); ("W", [12; 192]); ("I", [192; 192])], 192)
  | Err _ => False
  end.
Proof. vm_compute. reflexivity. Qed.
