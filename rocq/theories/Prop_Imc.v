(** C51, C68, C69, C70: in-memory-computing arrays. *)
From Coq Require Import QArith Qround.
From Verif Require Import Base Spec_Pr Model_Imc Spec_Imc.
From Verif Require Import Proof_Imc.
Open Scope string_scope.
Open Scope list_scope.
Open Scope Z_scope.

(** * C51: adder trees *)

(** The balanced tree has [2^d] inputs, of which exactly those below [m] are in use. *)
Theorem C51_tree_inputs d m : leaves (balanced d 0 m) = map (fun k => Z.of_nat k <? m) (seq 0 (Nat.pow 2 d)).
Proof. exact (balanced_leaves d 0 m). Qed.
Print Assumptions C51_tree_inputs.

(** The area and the peak energy count the one-bit adders of one such tree for every column, input bit and bank. *)
Theorem C51_area a ar : get_area a = Ok ar -> im_analog a = false ->
  exists d v, im_bitline a = 2 ^ Z.of_nat d /\ dget "adders_regular" ar = Some v /\
    (v == adder_area * inject_Z (one_bit_adders (im_weight a) (balanced d 0 (im_bitline a))) * inject_Z (im_serial a * im_wordline a * im_banks a))%Q.
Proof. exact (area_tree a ar). Qed.
Print Assumptions C51_area.

Theorem C51_peak a pk : peak_energy a = Ok pk -> im_analog a = false ->
  exists d v, im_bitline a = 2 ^ Z.of_nat d /\ dget "adders_regular" pk = Some v /\
    (v == adder_energy * inject_Z (one_bit_adders (im_weight a) (balanced d 0 (im_bitline a))) * inject_Z (im_serial a * im_wordline a * im_banks a))%Q.
Proof. exact (peak_tree a pk). Qed.
Print Assumptions C51_peak.

(** The loop ends for every number of used inputs, and counts the one-bit adders with two used
    operands and those with one. *)
Theorem C51_used_adders fuel p m d : (d < fuel)%nat ->
  tree_counts fuel p m (2 ^ Z.of_nat d) = Ok (adding p (balanced d 0 m), passing p (balanced d 0 m)).
Proof. exact (tree_counts_spec fuel p m d). Qed.
Print Assumptions C51_used_adders.

Theorem C51_no_more_than_tree fuel p m d full half : 0 <= p -> (d < fuel)%nat -> tree_counts fuel p m (2 ^ Z.of_nat d) = Ok (full, half) ->
  0 <= full /\ 0 <= half /\ full + half <= one_bit_adders p (balanced d 0 m) /\ (2 ^ Z.of_nat d <= m -> full = one_bit_adders p (balanced d 0 m) /\ half = 0).
Proof.
  exact (fun P F H => match used_le p (balanced d 0 m) P, eq_trans (eq_sym (tree_counts_spec fuel p m d F)) H with
    | conj A (conj B C), E => match E in _ = r return match r with Ok (f, h) => 0 <= f /\ 0 <= h /\ f + h <= one_bit_adders p (balanced d 0 m) /\ (2 ^ Z.of_nat d <= m -> f = one_bit_adders p (balanced d 0 m) /\ h = 0) | Err _ => True end with
      eq_refl => conj A (conj B (conj C (fun L => balanced_full p d 0 m L))) end end).
Qed.
Print Assumptions C51_no_more_than_tree.

(** What a layer spends in the trees *)
Theorem C51_layer_energy fuel a rows cols times pre e : layer_energy fuel a rows cols times pre = Ok e -> im_analog a = false ->
  (Z.to_nat (Z.log2 (im_bitline a)) < fuel)%nat ->
  exists d v, im_bitline a = 2 ^ Z.of_nat d /\ dget "adders_regular" e = Some v /\
    (v == (inject_Z (adding (im_weight a) (balanced d 0 rows)) * adder_energy + inject_Z (passing (im_weight a) (balanced d 0 rows)) * adder_energy_half)
      * (inject_Z (im_serial a) * cols) * (inject_Z (im_act a) / inject_Z (im_serial a)) * times)%Q.
Proof. exact (layer_tree fuel a rows cols times pre e). Qed.
Print Assumptions C51_layer_energy.

(** 21 inputs of 32 in use, four bits wide *)
Example C51_partly_used : tree_counts 6 4 21 32 = Ok (98, 16) /\ adding 4 (balanced 5 0 21) = 98 /\ passing 4 (balanced 5 0 21) = 16 /\ one_bit_adders 4 (balanced 5 0 21) = 150.
Proof. vm_compute. repeat split; reflexivity. Qed.
Example C51_area_met : exists ar, get_area small_digital = Ok ar /\ dget "adders_regular" ar <> Some 0%Q.
Proof. eexists. split; [vm_compute; reflexivity|]. vm_compute. discriminate. Qed.

(** Trees with place values are counted with [d * 2^(d-1)] one-bit adders more than the sums need. *)
Theorem C51_place_value_count q d :
  (place_adders q (2 ^ Z.of_nat (S d)) (Z.of_nat (S d)) == inject_Z (place_one_bit_adders q (S d) + 2 ^ Z.of_nat d * Z.of_nat (S d)))%Q.
Proof. exact (place_count q d). Qed.
Print Assumptions C51_place_value_count.

(** The widths in that specification are those the greatest sums need. *)
Theorem C51_place_value_width q d : 2 <= q -> (0 < d)%nat ->
  2 ^ (place_width q d - 1) <= (2 ^ (2 ^ Z.of_nat d) - 1) * (2 ^ q - 1) < 2 ^ place_width q d.
Proof. exact (place_width_exact q d). Qed.
Print Assumptions C51_place_value_width.

Theorem C51_place_value_refuted : exists q d, ~ (place_adders q (2 ^ Z.of_nat d) (Z.of_nat d) == inject_Z (place_one_bit_adders q d))%Q /\ (0 < d)%nat.
Proof. exists 5, 1%nat. split; [vm_compute; discriminate|]. apply Nat.lt_0_succ. Qed.
Print Assumptions C51_place_value_refuted.

(** * C68: rows used by a mapping *)

(** No dimension that is irrelevant to the weights on the wordlines: one row for each unrolled index of the bitlines. *)
Theorem C68_plain l word bit order : il_word l = Some word -> il_bit l = Some bit -> (forall d, In d (keys word) -> ~ In d (il_ir l)) ->
  ~ (qprod (map snd word) * qprod (map snd bit) == 0)%Q ->
  mapped l order = Ok (Qceiling (qprod (map snd bit)), Qceiling (qprod (map snd bit)), qprod (map snd word), (inject_Z (il_macs l) / (qprod (map snd word) * qprod (map snd bit)))%Q).
Proof. exact (mapped_plain l word bit order). Qed.
Print Assumptions C68_plain.

(** With such dimensions (stride one): the rows are those that hold the shifted copies of the
    weights, when two or more dimensions are on the bitlines and they are listed in the mapping's order. *)
Theorem C68_diagonal_partial l word bit : paired (il_pairs l) (il_ir l) -> il_word l = Some (whole word) -> il_bit l = Some (whole bit) ->
  (2 <= length bit)%nat -> (forall k v, In (k, v) word -> 1 <= v) -> (forall k v, In (k, v) bit -> 1 <= v) ->
  (exists d, In d (keys word) /\ In d (il_ir l)) -> zprod (map snd bit) <> 1 ->
  exists cs cols times, Forall2 (fun x c => 1 <= c /\ copies (il_pairs l) (il_ir l) (whole word) (fst x) (inject_Z c)) bit cs /\
    mapped l (keys bit) = Ok (zprod (map (fun x => rows_held (snd (fst x)) (snd x) 1) (combine bit cs)), zprod (map snd bit), cols, times) /\
    (cols == inject_Z (zprod (map snd word)))%Q /\ (times * inject_Z (zprod (map snd word) * zprod (map snd bit)) == inject_Z (il_macs l))%Q.
Proof. exact (mapped_diagonal l word bit). Qed.
Print Assumptions C68_diagonal_partial.

Example C68_conv : paired (il_pairs conv_layer) (il_ir conv_layer) /\
  exists cols times, mapped conv_layer (keys conv_bit) = Ok (2 * rows_held 4 3 1, 8, cols, times) /\ rows_held 4 3 1 = 6.
Proof. split; [exact conv_paired|]. eexists _, _. split; vm_compute; reflexivity. Qed.

(** The bitlines' dimensions are listed from a set: another order gives another number of rows. *)
Theorem C68_set_order_refuted : exists l o1 o2 r1 r2, Permutation.Permutation o1 o2 /\ mapped l o1 = Ok r1 /\ mapped l o2 = Ok r2 /\
  fst (fst (fst r1)) = 12 /\ fst (fst (fst r2)) = 16.
Proof.
  exists conv_layer, ["C"; "FX"], ["FX"; "C"]. eexists _, _. split; [apply Permutation.perm_swap|]. split; [vm_compute; reflexivity|]. split; [vm_compute; reflexivity|]. split; reflexivity.
Qed.
Print Assumptions C68_set_order_refuted.

(** The copies of a strided layer are further apart than is counted. *)
Theorem C68_stride_refuted : exists n c s, 1 <= n /\ 1 <= c /\ 1 < s /\ rows_held n c s <> rows_held n c 1.
Proof. exists 4, 3, 2. repeat split; vm_compute; discriminate. Qed.
Print Assumptions C68_stride_refuted.

(** One dimension on the bitlines: always an error. *)
Theorem C68_single_dimension_fails l word d n order : paired (il_pairs l) (il_ir l) -> il_word l = Some word -> il_bit l = Some [(d, n)] -> length order = 1%nat ->
  (exists d, In d (keys word) /\ In d (il_ir l)) -> Qceiling n <> 1 -> mapped l order = Err IndexError.
Proof. exact (mapped_single l word d n order). Qed.
Print Assumptions C68_single_dimension_fails.

Example C68_single_met : mapped (mkImcLayer (Some [("OX", 2%Q)]) (Some [("FX", 3%Q)]) ["OX"] [("OX", "FX")] 60) ["FX"] = Err IndexError.
Proof. reflexivity. Qed.

(** A dimension irrelevant to the weights that slides over no other (a batch): always an error. *)
Theorem C68_unpaired_fails l word bit w order : NoDup (flat_map (fun p => [fst p; snd p]) (il_pairs l)) ->
  (forall a b, In (a, b) (il_pairs l) -> (In a (il_ir l) /\ ~ In b (il_ir l)) \/ (In b (il_ir l) /\ ~ In a (il_ir l))) ->
  il_word l = Some word -> il_bit l = Some bit -> (exists d, In d (keys word) /\ In d (il_ir l)) -> Qceiling (qprod (map snd bit)) <> 1 ->
  In w (il_ir l) -> ~ In w (flat_map (fun p => [fst p; snd p]) (il_pairs l)) -> mapped l order = Err KeyError.
Proof. exact (mapped_unpaired l word bit w order). Qed.
Print Assumptions C68_unpaired_fails.

Example C68_unpaired_met : mapped (mkImcLayer (Some [("OX", 2%Q)]) (Some [("C", 2%Q); ("FX", 3%Q)]) ["B"; "OX"] [("OX", "FX")] 60) ["C"; "FX"] = Err KeyError.
Proof. reflexivity. Qed.

(** * C69: the energy of a layer *)

(** A mapping that fits the array spends no more than the array's peak energy per cycle, in every
    part and in total, beside precharging. *)
Theorem C69_bounded a fuel rows cols times pre e pk : valid a -> (Z.to_nat (Z.log2 (im_bitline a)) < fuel)%nat ->
  layer_energy fuel a rows cols times pre = Ok e -> peak_energy a = Ok pk -> (0 <= times)%Q ->
  0 <= rows <= im_bitline a -> (0 <= cols <= inject_Z (im_wordline a))%Q ->
  let uses := (inject_Z (im_act a) / inject_Z (im_serial a) * times)%Q in
  (forall name v w, name <> "local_bl_precharging" -> dget name e = Some v -> dget name pk = Some w -> (v * inject_Z (im_banks a) <= w * uses)%Q) /\
  ((total e - pre) * inject_Z (im_banks a) <= total pk * uses)%Q.
Proof. exact (bound_le a fuel rows cols times pre e pk). Qed.
Print Assumptions C69_bounded.

(** It is the peak energy when the whole array is used. *)
Theorem C69_full a fuel rows cols times pre e pk : valid a -> (Z.to_nat (Z.log2 (im_bitline a)) < fuel)%nat ->
  layer_energy fuel a rows cols times pre = Ok e -> peak_energy a = Ok pk -> (0 <= times)%Q ->
  rows = im_bitline a -> (cols == inject_Z (im_wordline a))%Q ->
  let uses := (inject_Z (im_act a) / inject_Z (im_serial a) * times)%Q in
  ((total e - pre) * inject_Z (im_banks a) == total pk * uses)%Q.
Proof. exact (bound_eq a fuel rows cols times pre e pk). Qed.
Print Assumptions C69_full.

Theorem C69_succeeds fuel a rows cols times pre : valid a -> (Z.to_nat (Z.log2 (im_bitline a)) < fuel)%nat ->
  exists e, layer_energy fuel a rows cols times pre = Ok e.
Proof. exact (energy_total fuel a rows cols times pre). Qed.
Print Assumptions C69_succeeds.

(** Precharging costs nothing when a cell group holds one weight. *)
Theorem C69_precharge_partial a levels : valid a -> im_cells a <= im_weight a -> precharge a levels = Ok (0%Q, 1%Q).
Proof. exact (precharge_one a levels). Qed.
Print Assumptions C69_precharge_partial.

(** The energy of any layer on an array whose cell groups hold more is never computed: an attribute that
    does not exist is read. *)
Theorem C69_precharge_refuted a levels : valid a -> im_weight a < im_cells a -> levels <> [] -> precharge a levels = Err AttributeError.
Proof. exact (precharge_several a levels). Qed.
Print Assumptions C69_precharge_refuted.

Example C69_met : valid small_digital /\ valid small_analog /\
  (exists e, layer_energy 6 small_digital 21 7 100 0 = Ok e /\ Qle_bool (total e) 0 = false) /\
  (exists e, layer_energy 7 small_analog 21 7 100 0 = Ok e /\ Qle_bool (total e) 0 = false).
Proof.
  split; [exact small_digital_valid|]. split; [exact small_analog_valid|]. split; eexists; split; vm_compute; reflexivity.
Qed.
Example C69_precharge_met : im_cells small_analog <= im_weight small_analog /\ im_weight small_digital < im_cells small_digital.
Proof. split; vm_compute; [discriminate|reflexivity]. Qed.

(** * C70: area, clock period and peak performance *)

(** Every valid array of two rows or more is built; the parts of its area, clock period and peak
    energy are not negative and their totals are positive; operations per second, per joule and per
    area are the operations per cycle over these totals. *)
Theorem C70_constructs a : valid a -> im_analog a = true \/ 2 <= im_bitline a ->
  exists area tclk pk tops topsw topsmm2, construct a = Ok (area, tclk, (tops, topsw, topsmm2)) /\ peak_energy a = Ok pk /\
    parts_nonneg area /\ parts_nonneg tclk /\ parts_nonneg pk /\ (0 < total area /\ 0 < total tclk /\ 0 < total pk)%Q /\
    (let ops := 2 * inject_Z (im_wordline a * im_bitline a * im_banks a * im_serial a) / inject_Z (im_act a) in
     tops * 1000 * total tclk == ops /\ topsw * total pk == ops /\ topsmm2 * total area == tops)%Q.
Proof. exact (construct_ok a). Qed.
Print Assumptions C70_constructs.

Example C70_met : valid small_digital /\ 2 <= im_bitline small_digital /\ valid small_analog /\ im_analog small_analog = true.
Proof. split; [exact small_digital_valid|]. split; [vm_compute; discriminate|]. split; [exact small_analog_valid|reflexivity]. Qed.

(** A digital array of a number of rows that is not a power of two is refused. *)
Theorem C70_rows_power_of_two a r : construct a = Ok r -> im_analog a = false -> power_of_two (im_bitline a).
Proof. exact (construct_power a r). Qed.
Print Assumptions C70_rows_power_of_two.

(** The clock period of a valid digital array of one row can be negative. *)
Theorem C70_negative_clock_refuted : exists a area tclk perf, valid a /\ construct a = Ok (area, tclk, perf) /\ (total tclk < 0)%Q.
Proof. exists one_bit_digital. eexists _, _, _. split; [exact one_bit_valid|]. split; [vm_compute; reflexivity|]. vm_compute. reflexivity. Qed.
Print Assumptions C70_negative_clock_refuted.

(** The reported total area is that of the array and of one instance of every memory, and the
    breakdown shows every memory if their names differ. *)
Theorem C70_total_area imc_area mems : NoDup (map ma_name mems) ->
  let '(mem, parts, all) := collect_area imc_area mems in
  parts = map (fun m => (ma_name m, ma_area m)) mems /\ (mem == total parts)%Q /\ (all == imc_area + total parts)%Q.
Proof. exact (collect_ok imc_area mems). Qed.
Print Assumptions C70_total_area.

Theorem C70_equal_names_refuted : exists mems, let '(mem, parts, _) := collect_area 0 mems in ~ (mem == total parts)%Q.
Proof. exists [mkMemArea "rf" 1 1; mkMemArea "rf" 2 1]. vm_compute. discriminate. Qed.
Print Assumptions C70_equal_names_refuted.

Theorem C70_instances_refuted : exists imc_area mems, let '(_, _, all) := collect_area imc_area mems in
  ~ (all == imc_area + qsum (map (fun m => ma_area m * inject_Z (ma_instances m)) mems))%Q.
Proof. exists 1%Q, [mkMemArea "rf" 1 32]. vm_compute. discriminate. Qed.
Print Assumptions C70_instances_refuted.
