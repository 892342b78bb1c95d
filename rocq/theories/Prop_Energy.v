(** C24 and C40: energy totals and memory word accesses. *)
From Coq Require Import QArith.
From Verif Require Import Base Model_DataMove Model_Mapping Model_Links Model_Cost Model_Latency Spec_DataMove Spec_Mapping Spec_Cost
  Proof_Energy Proof_CostExample.
Local Open Scope string_scope.

(** ** C24 *)

(** For access counts of existing memories the energy is computed; the total is the energy of
    the operations plus that of the memories, which is the sum of the breakdown over operands and
    levels; each entry of the breakdown is the energy of the level's accesses, and the finer
    breakdown gives it by direction. *)
Theorem C24_totals :
  forall ci acc, good_accesses ci acc ->
  exists bd further mem total, calc_memory_energy_cost ci acc = Ok (bd, further, mem, total) /\
    (total == in_mac_cost ci * inject_Z (in_macs ci) + mem)%Q /\
    (mem == qsum (map (fun x => qsum (snd x)) bd))%Q /\
    Forall2 (fun a e => fst a = fst e /\ exists ms, memories_of ci (fst a) ms /\
               entries (fun m f x => (x == spent m f)%Q) ms (snd a) (snd e)) acc bd /\
    Forall2 (fun a e => fst a = fst e /\ exists ms, memories_of ci (fst a) ms /\
               entries (fun m f g => forall k, exists x, dget k g = Some x /\ (x == dir_energy m f k)%Q) ms (snd a) (snd e)) acc further.
Proof. exact energy_ok. Qed.
Print Assumptions C24_totals.

(** The access counts of an evaluation are of that kind. *)
Theorem C24_reached :
  forall ci acc, calc_memory_word_access ci = Ok acc -> good_accesses ci acc.
Proof. exact words_good. Qed.
Print Assumptions C24_reached.

(** Nothing is negative, and the memories take no more than the total. *)
Theorem C24_nonnegative :
  forall ci acc bd further mem total, good_accesses ci acc ->
  (0 <= in_mac_cost ci)%Q -> (0 <= in_macs ci)%Z ->
  (forall op fs f k, In (op, fs) acc -> In f fs -> (0 <= count_in f k)%Z) ->
  (forall op ms m, memories_of ci op ms -> In m ms -> (0 <= ml_read_energy m /\ 0 <= ml_write_energy m)%Q) ->
  calc_memory_energy_cost ci acc = Ok (bd, further, mem, total) ->
  (0 <= mem)%Q /\ (mem <= total)%Q /\ (forall op l e, In (op, l) bd -> In e l -> (0 <= e)%Q) /\
  (forall op l g k x, In (op, l) further -> In g l -> dget k g = Some x -> (0 <= x)%Q).
Proof. exact energy_nonneg. Qed.
Print Assumptions C24_nonnegative.

(** The memory energy of summed access counts is the sum of the energies. *)
Theorem C24_additive :
  forall ci x y z bx fx mx tx by_ fy my ty bz fz mz tz,
  good_accesses ci x -> good_accesses ci y -> good_accesses ci z -> sum_accesses x y z ->
  calc_memory_energy_cost ci x = Ok (bx, fx, mx, tx) -> calc_memory_energy_cost ci y = Ok (by_, fy, my, ty) ->
  calc_memory_energy_cost ci z = Ok (bz, fz, mz, tz) -> (mz == mx + my)%Q.
Proof. exact energy_additive. Qed.
Print Assumptions C24_additive.

(** ** C40 *)

(** Every access count of an evaluation is the number of words that hold the bits of all
    periods of all memories of the level, for the operands that have memories. *)
Theorem C40_words :
  forall ci acc, sound_inputs ci -> calc_memory_word_access ci = Ok acc ->
  (forall op fs, In (op, fs) acc -> In op (in_ops ci) /\
     exists od ps, dget op (in_map ci) = Some (od, ps) /\ length fs = length ps) /\
  (forall op od ps, In op (in_ops ci) -> dget op (in_map ci) = Some (od, ps) -> ps <> [] -> In op (keys acc)) /\
  (forall op fs lv f, In (op, fs) acc -> nth_error fs lv = Some f ->
     complete f /\ forall k n, dget k f = Some n -> right_words ci op lv k n).
Proof. exact words_all. Qed.
Print Assumptions C40_words.

(** Such a number of words falls short of the bits by less than one word, exceeds them by less
    than one access of minimal width per repetition, and covers them when words are not wider
    than the minimal access. *)
Theorem C40_bounds :
  forall bits mn mx reps n, (0 < mn)%Z -> (0 < mx)%Z -> (0 < reps)%Z -> words bits mn mx reps n ->
  (bits * reps < (n + 1) * mx /\ n * mx < (bits + mn) * reps /\ ((mx | mn) -> bits * reps <= n * mx))%Z.
Proof. exact words_bounds. Qed.
Print Assumptions C40_bounds.

(** * The hypotheses are met *)

Example C24_C40_met :
  sound_inputs shared_ci /\
  exists acc bd further mem total, calc_memory_word_access shared_ci = Ok acc /\
    calc_memory_energy_cost shared_ci acc = Ok (bd, further, mem, total) /\
    acc = [("I", [[(RdLow, 48); (WrLow, 0); (RdHigh, 0); (WrHigh, 48)]; [(RdLow, 48); (WrLow, 0); (RdHigh, 0); (WrHigh, 12)];
                  [(RdLow, 12); (WrLow, 0); (RdHigh, 0); (WrHigh, 0)]]);
           ("W", [[(RdLow, 48); (WrLow, 0); (RdHigh, 0); (WrHigh, 48)]; [(RdLow, 48); (WrLow, 0); (RdHigh, 0); (WrHigh, 12)];
                  [(RdLow, 12); (WrLow, 0); (RdHigh, 0); (WrHigh, 0)]]);
           ("O", [[(RdLow, 48); (WrLow, 48); (RdHigh, 16); (WrHigh, 16)]; [(RdLow, 32); (WrLow, 32); (RdHigh, 0); (WrHigh, 0)]])]%Z /\
    (total == 36048 # 10)%Q.
Proof. split; [exact shared_sound|]. do 5 eexists. vm_compute. repeat split. Qed.

(** ** Refutation: after the final truncation the words may not cover the bits *)

Theorem C40_truncated_refuted :
  exists bits mn mx reps n, (0 < mn)%Z /\ (0 < mx)%Z /\ (0 < reps)%Z /\ (0 < bits)%Z /\
  calc_memory_access shared_ci bits 1 1 mx mn "I" 0 = Ok n /\ reps = 1%Z /\ (n * mx < bits * reps)%Z.
Proof. exists 1%Z, 1%Z, 8%Z, 1%Z, 0%Z. vm_compute. repeat split. Qed.
Print Assumptions C40_truncated_refuted.
