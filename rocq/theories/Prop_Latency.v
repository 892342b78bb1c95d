(** C25 and C36-C39: latency, updating windows, balanced reduction, double buffering and
    on-loading. *)
From Coq Require Import QArith Qminmax Qround.
From Verif Require Import Base Model_DataMove Model_Mapping Model_Links Model_Cost Model_Latency
  Spec_Mapping Spec_Cost Spec_Latency
  Proof_Window Proof_Balance Proof_Buffer Proof_BufferBits Proof_Loading Proof_Latency Proof_CostExample.
Local Open Scope string_scope.

(** ** C25 *)

(** Whatever the ports, an evaluation has no negative stall and its latencies and utilizations
    are as follows. *)
Theorem C25_totals_partial :
  forall ci la, calc_latency ci = Ok la ->
  (0 <= la_stall la)%Z /\ in_units ci <> 0%Z /\
  la_ideal la = Qceiling (inject_Z (Qceiling (inject_Z (in_macs ci) / inject_Z (in_units ci))) * in_cpo ci) /\
  (la_temporal la == inject_Z (in_total ci) * in_cpo ci)%Q /\
  (la_temporal la <= la_total0 la)%Q /\
  (la_total0 la == la_temporal la + inject_Z (la_stall la))%Q /\
  (la_total1 la == la_total0 la + la_on la)%Q /\ (la_total2 la == la_total1 la + la_off la)%Q /\
  (la_spatial_util la * la_temporal la == inject_Z (la_ideal la))%Q /\
  (la_util0 la * la_total0 la == inject_Z (la_ideal la))%Q /\
  (la_util1 la * la_total1 la == inject_Z (la_ideal la))%Q /\
  (la_util2 la * la_total2 la == inject_Z (la_ideal la))%Q.
Proof. exact latency_totals. Qed.
Print Assumptions C25_totals_partial.

(** Latencies never decrease, and utilizations never increase, when no port serves two
    transfers that happen once per layer. *)
Theorem C25_chain_partial :
  forall ci la, (exists data, NoDup (keys data) /\ make_links data = Ok (in_links ci)) ->
  sound_timing ci -> few_single ci ->
  (0 < in_total ci)%Z -> (0 < in_cpo ci)%Q -> (0 <= in_macs ci)%Z -> (0 < in_units ci)%Z ->
  calc_latency ci = Ok la ->
  (0 < la_temporal la)%Q /\ (la_temporal la <= la_total0 la)%Q /\
  (la_total0 la <= la_total1 la)%Q /\ (la_total1 la <= la_total2 la)%Q /\
  (0 <= la_util2 la)%Q /\ (la_util2 la <= la_util1 la)%Q /\ (la_util1 la <= la_util0 la <= la_spatial_util la)%Q.
Proof. exact latency_chain. Qed.
Print Assumptions C25_chain_partial.

(** The stall covers the delay of every activity of every port. *)
Theorem C25_stall_covers :
  forall ci allowed real s, stall_slack_comb ci allowed real = Ok s ->
  (0 <= s)%Z /\
  forall m pt, In m (in_levels ci) -> NoDup (map pt_name (ml_ports m)) -> In pt (ml_ports m) ->
  exists l, port_activities ci allowed real pt = Ok l /\
    forall a, In a l -> ((pa_real a - pa_allowed a) * (pa_count a - 1) <= s)%Z.
Proof. exact stall_ge. Qed.
Print Assumptions C25_stall_covers.

(** There is none when every port serves at most one activity, which fits its window. *)
Theorem C25_no_stall :
  forall ci allowed real s, stall_slack_comb ci allowed real = Ok s ->
  (forall m pt l, In m (in_levels ci) -> In pt (ml_ports m) -> port_activities ci allowed real pt = Ok l ->
     (length l <= 1)%nat /\ forall a, In a l -> ((pa_real a - pa_allowed a) * (pa_count a - 1) <= 0)%Z) ->
  s = 0%Z.
Proof. exact stall_none. Qed.
Print Assumptions C25_no_stall.

(** The activities of a port are the transfers it serves. *)
Theorem C25_activities :
  forall ci flags allowed real pt l,
  (exists data, NoDup (keys data) /\ make_links data = Ok (in_links ci)) -> transfer_cycles ci flags = Ok (allowed, real) ->
  port_activities ci allowed real pt = Ok l -> forall a, In a l -> served_activity ci flags pt a.
Proof. exact activities_spec. Qed.
Print Assumptions C25_activities.

(** Without the condition on the ports, loading may shorten the computation: evaluating a
    convolution on an accelerator whose inputs share a buffer. *)
Theorem C25_chain_refuted :
  exists ci la, (exists data, NoDup (keys data) /\ make_links data = Ok (in_links ci)) /\ sound_inputs ci /\ sharing_ok ci /\
  (0 < in_total ci)%Z /\ (0 < in_cpo ci)%Q /\ (0 < in_macs ci)%Z /\ (0 < in_units ci)%Z /\
  calc_latency ci = Ok la /\ (la_on la < 0)%Q /\ (la_total1 la < la_total0 la)%Q /\ (la_util0 la < la_util1 la)%Q.
Proof.
  exists shared_ci. eexists. split; [exact ex_links_ok|]. split; [exact shared_sound|]. split; [exact shared_ok_ci|].
  do 4 (split; [reflexivity|]). split; [vm_compute; reflexivity|]. vm_compute. auto.
Qed.
Print Assumptions C25_chain_refuted.

(** ** C36 *)

Theorem C36_union :
  forall l total, periodic l total -> nested l -> window_union l = Ok (open_steps l total).
Proof. exact union_open. Qed.
Print Assumptions C36_union.

Theorem C36_bounds :
  forall l total u, periodic l total -> nested l -> window_union l = Ok u ->
  u = open_steps l total /\ (u <= total)%Z /\ (u <= zsum (map (fun a => pa_allowed a * pa_count a) l))%Z /\
  forall a, In a l -> (pa_allowed a * pa_count a <= u)%Z.
Proof. exact union_bounds. Qed.
Print Assumptions C36_bounds.

(** Other periods make it fail, unless a window is open all the time. *)
Theorem C36_not_nested :
  forall l total, l <> [] -> periodic l total -> ~ nested l ->
  (forall a, In a l -> pa_allowed a <> pa_period a) -> window_union l = Err ValueError.
Proof. exact union_fails. Qed.
Print Assumptions C36_not_nested.

(** ** C37 *)

(** Each result and its reduction add up to the original, no more than the surplus is
    reduced, and nothing grows. *)
Theorem C37_conservative_partial :
  forall cs ms s, (length cs <= length ms)%nat ->
  exists rs ds, reduce_balanced cs ms s = Ok (rs, ds) /\ length rs = length cs /\ length ds = length cs /\
    (forall j c r d, nth_error cs j = Some c -> nth_error rs j = Some r -> nth_error ds j = Some d -> (r + d == c)%Q) /\
    ((0 <= s)%Q -> (qsum ds <= s)%Q) /\
    ((forall j c m, nth_error cs j = Some c -> nth_error ms j = Some m -> (m <= c)%Q) -> forall d, In d ds -> (0 <= d)%Q).
Proof. exact reduce_ok. Qed.
Print Assumptions C37_conservative_partial.

(** The minima hold when the surplus does not exceed what the largest entry can give. *)
Theorem C37_minimum_partial :
  forall cs ms s rs ds, (length cs <= length ms)%nat ->
  (forall j c m, nth_error cs j = Some c -> nth_error ms j = Some m -> (m <= c)%Q) ->
  (forall j c m, nth_error cs j = Some c -> nth_error ms j = Some m -> (forall c', In c' cs -> (c' <= c)%Q) -> (s <= c - m)%Q) ->
  reduce_balanced cs ms s = Ok (rs, ds) ->
  forall j r m, nth_error rs j = Some r -> nth_error ms j = Some m -> (m <= r)%Q.
Proof. exact reduce_within. Qed.
Print Assumptions C37_minimum_partial.

(** A single entry is reduced as far as the surplus and its minimum allow. *)
Theorem C37_single_partial :
  forall c m s, (0 < s)%Q ->
  exists r d, reduce_balanced [c] [m] s = Ok ([r], [d]) /\ (d == c - r)%Q /\
    ((c - m <= s)%Q /\ (r == m)%Q \/ (s < c - m)%Q /\ (r == c - s)%Q).
Proof. exact reduce_one. Qed.
Print Assumptions C37_single_partial.

(** With no surplus nothing changes. *)
Theorem C37_no_surplus :
  forall cs ms s, (s <= 0)%Q \/ cs = [] -> reduce_balanced cs ms s = Ok (cs, map (fun _ => 0%Q) cs).
Proof. exact reduce_trivial. Qed.
Print Assumptions C37_no_surplus.

(** Two entries may end below their minima, and below zero. *)
Theorem C37_minimum_refuted :
  exists cs ms s rs ds r m, (length cs <= length ms)%nat /\
  (forall j c m, nth_error cs j = Some c -> nth_error ms j = Some m -> (m <= c)%Q) /\
  reduce_balanced cs ms s = Ok (rs, ds) /\ nth_error rs 0 = Some r /\ nth_error ms 0 = Some m /\ (r < m)%Q /\ (r < 0)%Q.
Proof.
  exists [10; 10]%Q, [1; 1]%Q, 100%Q. do 4 eexists. split; [auto|]. split.
  { intros [|[|j]] c m Hc Hm; cbn in Hc, Hm; [| |destruct j; discriminate]; injection Hc as <-; injection Hm as <-; discriminate. }
  split; [vm_compute; reflexivity|]. vm_compute. auto.
Qed.
Print Assumptions C37_minimum_refuted.

(** ** C38 *)

(** The tiles of a shared memory and the second buffers granted fit in it together; all
    are granted when the tiles fill at most half of it. *)
Theorem C38_shared :
  forall ci ind sh flags sh' g, sharing_ok ci -> (forall x, (0 <= util ind x)%Q) -> In g (in_sharing ci) ->
  shared ci ind = Ok sh -> calc_double_buffer_flag ci ind sh = Ok (flags, sh') ->
  ((exists x, In x (members ci g) /\ granted flags x = true) ->
   (qsum (map (util ind) (members ci g)) + qsum (map (util ind) (filter (granted flags) (members ci g))) <= 1)%Q) /\
  ((qsum (map (util ind) (members ci g)) <= 1 # 2)%Q ->
   forall op lv n, In (op, lv) (members ci g) -> In op (in_ops ci) -> levels_of (in_map_int ci) op = Ok n -> (lv < n)%nat ->
     granted flags (op, lv) = true).
Proof. exact buffer_group. Qed.
Print Assumptions C38_shared.

(** A tile that has its memory to itself is granted one exactly when it fills at most half. *)
Theorem C38_alone :
  forall ci ind sh flags sh' op lv n, sharing_ok ci ->
  shared ci ind = Ok sh -> calc_double_buffer_flag ci ind sh = Ok (flags, sh') ->
  (forall g, In g (in_sharing ci) -> ~ In (op, lv) (members ci g)) ->
  In op (in_ops ci) -> levels_of (in_map_int ci) op = Ok n -> (lv < n)%nat ->
  (granted flags (op, lv) = true <-> (util ind (op, lv) <= 1 # 2)%Q).
Proof. exact buffer_alone. Qed.
Print Assumptions C38_alone.

(** The part of a memory that a tile takes is its bits over the size of the memory. *)
Theorem C38_utilization :
  forall ci bits ind op lv b s, NoDup (in_ops ci) -> individual ci bits = Ok ind -> In op (in_ops ci) ->
  tile_bits ci bits (op, lv) b -> memory_size ci (op, lv) s ->
  s <> 0%Z /\ (util ind (op, lv) * inject_Z s == inject_Z b)%Q.
Proof. exact utilization_bits. Qed.
Print Assumptions C38_utilization.

(** In bits: all tiles in a shared memory of [s] bits and the second buffers fit in it. *)
Theorem C38_bits :
  forall ci bits ind sh flags sh' g s bs gs, sharing_ok ci -> individual ci bits = Ok ind ->
  shared ci ind = Ok sh -> calc_double_buffer_flag ci ind sh = Ok (flags, sh') -> In g (in_sharing ci) ->
  (forall x b, tile_bits ci bits x b -> (0 <= b)%Z) -> (forall x s, memory_size ci x s -> (0 <= s)%Z) ->
  (forall x, In x (members ci g) -> In (fst x) (in_ops ci) /\ memory_size ci x s) ->
  Forall2 (tile_bits ci bits) (members ci g) bs ->
  Forall2 (tile_bits ci bits) (filter (granted flags) (members ci g)) gs -> gs <> [] ->
  (zsum bs + zsum gs <= s)%Z.
Proof. exact buffer_bits. Qed.
Print Assumptions C38_bits.

(** ** C39 *)

Theorem C39_two_inputs_partial :
  forall ci st a b rest la lb lrest, in_inputs ci = a :: b :: rest ->
  operand_links ci st a la -> operand_links ci st b lb -> Forall2 (operand_links ci st) rest lrest ->
  (forall x, In x (la ++ lb)%list -> (0 <= fst x)%Q) ->
  exists on, onloading ci st = Ok on /\ (0 <= on)%Q /\ (on <= qsum (map fst la) + qsum (map fst lb))%Q /\
    ((length (filter half_shared la) <= 1)%nat -> (qsum (map fst la) <= on)%Q) /\
    ((length (filter half_shared lb) <= 1)%nat -> (qsum (map fst lb) <= on)%Q).
Proof. exact onloading_two. Qed.
Print Assumptions C39_two_inputs_partial.

(** With one input only the transfers between ports that are not shared count. *)
Theorem C39_one_input_partial :
  forall ci st a la, in_inputs ci = [a] -> operand_links ci st a la ->
  exists on, onloading ci st = Ok on /\
    (on == qsum (map fst (filter (fun x => negb (fst (snd x)) && negb (snd (snd x))) la)))%Q.
Proof. exact onloading_one. Qed.
Print Assumptions C39_one_input_partial.

(** Off-loading takes the transfers of the output of all levels. *)
Theorem C39_offloading :
  forall ci st d od ps ts, dget (in_out ci) (lo_off st) = Some d -> dget (in_out ci) (in_map ci) = Some (od, ps) ->
  length ts = (length ps - 1)%nat ->
  (forall lv t, nth_error ts lv = Some t -> exists c1 s1 c2 s2,
     dget (lv, RdHigh) d = Some (c1, s1) /\ dget (S lv, WrLow) d = Some (c2, s2) /\ (t == Qmax c1 c2)%Q) ->
  exists off, offloading ci st = Ok off /\ (off == qsum ts)%Q.
Proof. exact offloading_ok. Qed.
Print Assumptions C39_offloading.

(** Two half shared transfers of an operand: only the outer one counts, so loading appears
    shorter than for that operand alone. *)
Theorem C39_half_shared_refuted :
  exists ci st a b la lb on, in_inputs ci = [a; b] /\ operand_links ci st a la /\ operand_links ci st b lb /\
  (forall x, In x (la ++ lb)%list -> (0 <= fst x)%Q) /\
  onloading ci st = Ok on /\ (on < qsum (map fst la))%Q.
Proof.
  exists shared_ci, half_loading, "I", "W". do 3 eexists. split; [reflexivity|].
  split; [exact half_links_i|]. split; [exact half_links_w|].
  split; [exact half_nonneg|]. split; [vm_compute; reflexivity|]. vm_compute. reflexivity.
Qed.
Print Assumptions C39_half_shared_refuted.

(** * The hypotheses are met *)

Example C25_C36_C38_met :
  (sound_timing separate_ci /\ few_single separate_ci /\ in_total separate_ci = 48%Z /\
   exists la, calc_latency separate_ci = Ok la /\ la_stall la = 15%Z /\ (la_total2 la == 67)%Q) /\
  (let l := [mkActivity 2 1 2 12 ("I", 1%nat, RdLow); mkActivity 3 2 6 4 ("W", 1%nat, RdLow)] in
   periodic l 24 /\ nested l /\ window_union l = Ok 16%Z) /\
  (sharing_ok shared_ci /\ In [("I1", 1%nat); ("I2", 1%nat)] (in_sharing shared_ci) /\
   exists ind sh flags sh', individual shared_ci od_effective_bit = Ok ind /\ shared shared_ci ind = Ok sh /\
     calc_double_buffer_flag shared_ci ind sh = Ok (flags, sh') /\
     map (granted flags) (members shared_ci [("I1", 1%nat); ("I2", 1%nat)]) = [true; true]).
Proof.
  split; [|split].
  - split; [exact separate_timing|]. split; [exact separate_few|]. split; [reflexivity|]. eexists. split; [vm_compute; reflexivity|]. vm_compute. auto.
  - cbv zeta. split; [|split; [|vm_compute; reflexivity]].
    + split; [|split; [lia|]].
      * cbn. apply NoDup_cons; [intros [E|[]]; discriminate|]. apply NoDup_cons; [intros []|apply NoDup_nil].
      * intros a [<-|[<-|[]]]; cbn; lia.
    + eexists. split; [right; left; reflexivity|]. intros a [<-|[<-|[]]]; cbn; [exists 3%Z; reflexivity|exists 1%Z; reflexivity].
  - split; [exact shared_ok_ci|]. split; [left; reflexivity|]. do 4 eexists. do 3 (split; [vm_compute; reflexivity|]). vm_compute. reflexivity.
Qed.

Example C37_C39_met :
  (exists rs ds, reduce_balanced [10; 4; 7] [2; 1; 3] 8 = Ok (rs, ds) /\ Forall2 Qeq rs [2; 4; 7] /\ Forall2 Qeq ds [8; 0; 0])%Q /\
  (exists on, onloading shared_ci half_loading = Ok on /\ (on == 8)%Q).
Proof.
  split.
  - do 2 eexists. split; [vm_compute; reflexivity|]. split; repeat (apply Forall2_cons; [reflexivity|]); apply Forall2_nil.
  - eexists. split; vm_compute; reflexivity.
Qed.

Example C38_bits_met :
  let g := [("I1", 1%nat); ("I2", 1%nat)] in
  (exists ind sh flags sh', individual shared_ci od_effective_bit = Ok ind /\ shared shared_ci ind = Ok sh /\
    calc_double_buffer_flag shared_ci ind sh = Ok (flags, sh') /\
    filter (granted flags) (members shared_ci g) = [("I", 1%nat); ("W", 1%nat)]) /\
  members shared_ci g = [("I", 1%nat); ("W", 1%nat)] /\
  Forall2 (tile_bits shared_ci od_effective_bit) [("I", 1%nat); ("W", 1%nat)] [96; 24]%Z /\
  (forall x, In x (members shared_ci g) -> In (fst x) (in_ops shared_ci) /\ memory_size shared_ci x 256).
Proof.
  cbv zeta. split; [|split; [|split]].
  - do 4 eexists. do 3 (split; [vm_compute; reflexivity|]). vm_compute. reflexivity.
  - reflexivity.
  - apply Forall2_cons; [|apply Forall2_cons; [|apply Forall2_nil]]; (do 2 eexists; split; [vm_compute; reflexivity|]; split; [vm_compute; auto|vm_compute; reflexivity]).
  - assert (E : members shared_ci [("I1", 1%nat); ("I2", 1%nat)] = [("I", 1%nat); ("W", 1%nat)]) by reflexivity. rewrite E.
    intros x [<-|[<-|[]]]; (split; [vm_compute; auto|]); do 2 eexists; (split; [eexists; split; vm_compute; reflexivity|]); split; vm_compute; reflexivity.
Qed.
