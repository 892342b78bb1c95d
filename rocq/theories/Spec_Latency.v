(** Independent vocabulary for C25, C36-C39. *)
From Coq Require Import QArith Qminmax.
From Verif Require Import Base Model_DataMove Model_Mapping Model_Links Model_Cost Model_Latency Spec_Mapping Spec_Cost.

(** * Updating windows *)

(** The window of an activity is open during the first [pa_allowed] steps of each period. *)
Definition is_open (a : activity) (t : Z) : bool := (t mod pa_period a <? pa_allowed a)%Z.
(** Number of the time steps [0 .. total-1] at which some window is open. *)
Definition open_steps (l : list activity) (total : Z) : Z :=
  Z.of_nat (length (filter (fun t => existsb (fun a => is_open a t) l) (map Z.of_nat (seq 0 (Z.to_nat total))))).

(** Periodic activities over [total] steps. *)
Definition periodic (l : list activity) (total : Z) : Prop :=
  NoDup (map pa_served l) /\ (0 <= total)%Z /\
  forall a, In a l -> (0 < pa_period a /\ 0 <= pa_allowed a <= pa_period a /\ pa_period a * pa_count a = total)%Z.
(** Some period is a multiple of all. *)
Definition nested (l : list activity) : Prop :=
  exists b, In b l /\ forall a, In a l -> (pa_period a | pa_period b)%Z.

(** * On-loading *)

(** The transfers of an operand between neighbouring levels: how long each takes (the longer of
    its two ends) and whether the port at either end is shared. *)
Definition link_times (d : dict (nat * direction) (Q * bool)) (n : nat) (l : list (Q * (bool * bool))) : Prop :=
  length l = (n - 1)%nat /\
  forall lv x, nth_error l lv = Some x ->
    exists c1 s1 c2 s2, dget (lv, WrHigh) d = Some (c1, s1) /\ dget (S lv, RdLow) d = Some (c2, s2) /\
      (fst x == Qmax c1 c2)%Q /\ snd x = (s1, s2).
Definition half_shared (x : Q * (bool * bool)) : bool := xorb (fst (snd x)) (snd (snd x)).

(** The transfers of all levels of an input operand, after loading *)
Definition operand_links (ci : inputs) (st : loading) (op : string) (l : list (Q * (bool * bool))) : Prop :=
  exists d od ps, dget op (lo_on st) = Some d /\ dget op (in_map ci) = Some (od, ps) /\ link_times d (length ps) l.

(** * Latency *)

(** The transfer [s] that a port serves happens once per layer, and is not one of the partial
    sums that on- and off-loading leave out. *)
Definition single_period (ci : inputs) (s : string * nat * direction) : Prop :=
  let '(mem_op, lv, k) := s in
  exists op od ps p, dget op (lk_data (in_links ci)) = Some mem_op /\ dget op (in_map_int ci) = Some (od, ps) /\
    nth_error ps lv = Some p /\ entry p PeriodCount k = Some 1%Z /\
    ~ (op = in_out ci /\ (k = RdLow \/ k = WrHigh)).

(** * Double buffering *)

(** What the layer keeps in a memory whose operand levels are [g]: its (layer operand, level)
    pairs. *)
Definition members (ci : inputs) (g : list (string * nat)) : list (string * nat) :=
  flat_map (fun x => map (fun kv => (fst kv, snd x)) (filter (fun kv => eqb (snd kv) (fst x)) (lk_data (in_links ci)))) g.
(** The part of the memory that one of them takes, and whether it is granted a second buffer
    (flag 0 is that of the operational array). *)
Definition util (d : dict string (list Q)) (x : string * nat) : Q :=
  match dget (fst x) d with Some l => nth (snd x) l 0%Q | None => 0%Q end.
Definition granted (flags : dict string (list bool)) (x : string * nat) : bool :=
  match dget (fst x) flags with Some l => nth (S (snd x)) l false | None => false end.

(** The bits of the layer that a memory level holds ([bits] starts at the operational array),
    and the size of the memory. *)
Definition tile_bits (ci : inputs) (bits : opdata -> list Z) (x : string * nat) (b : Z) : Prop :=
  exists od ps, dget (fst x) (in_map ci) = Some (od, ps) /\ (snd x < length ps)%nat /\ nth_error (bits od) (S (snd x)) = Some b.
Definition memory_size (ci : inputs) (x : string * nat) (s : Z) : Prop :=
  exists ms m, memories_of ci (fst x) ms /\ nth_error ms (snd x) = Some m /\ ml_size m = s.

(** Sharing groups are sets that do not overlap, and the operand links are one-to-one. *)
Record sharing_ok (ci : inputs) : Prop := {
  so_links : exists data, NoDup (keys data) /\ make_links data = Ok (in_links ci);
  so_ops : NoDup (in_ops ci);
  so_sets : forall g, In g (in_sharing ci) -> NoDup g;
  so_disjoint : forall g g' x, In g (in_sharing ci) -> In g' (in_sharing ci) -> In x g -> In x g' -> g = g' }.

(** * Times are sound *)

Record sound_timing (ci : inputs) : Prop := {
  st_patterns : forall op od ps p, In (op, (od, ps)) (in_map_int ci) -> In p ps -> sound_pattern p;
  st_bits : forall op od ps b, In (op, (od, ps)) (in_map_int ci) -> In b (od_bit_unrolled od) -> (0 <= b)%Z;
  st_widths : forall op ms m mem_op k b, In (op, ms) (in_hier ci) -> In m ms -> width (ml_bw_max m) mem_op k (Some b) -> (0 <= b)%Z;
  st_ports : forall m pt, In m (in_levels ci) -> In pt (ml_ports m) -> (0 < pt_bw_max pt)%Z }.

(** No port serves two transfers that happen once per layer. *)
Definition few_single (ci : inputs) : Prop :=
  forall m pt i j s s', In m (in_levels ci) -> In pt (ml_ports m) ->
    nth_error (pt_served pt) i = Some s -> nth_error (pt_served pt) j = Some s' ->
    single_period ci s -> single_period ci s' -> i = j.

(** The activities of a port, one for each transfer it serves that ever happens. *)
Definition served_activity (ci : inputs) (flags : dict string (list bool)) (pt : port) (a : activity) : Prop :=
  exists op lv k mem_op od ps p ms m fs this next period amount prec,
    In (mem_op, lv, k) (pt_served pt) /\ pa_served a = (op, lv, k) /\
    dget op (lk_data (in_links ci)) = Some mem_op /\ dget op (in_map_int ci) = Some (od, ps) /\ nth_error ps lv = Some p /\
    dget mem_op (in_hier ci) = Some ms /\ nth_error ms lv = Some m /\
    dget op flags = Some fs /\ nth_error fs lv = Some this /\ nth_error fs (S lv) = Some next /\
    entry p PeriodCount k = Some (pa_count a) /\ pa_count a <> 0%Z /\
    entry p Period k = Some period /\ pa_period a = Qround.Qceiling (inject_Z period * in_cpo ci) /\
    entry p AmountPerPeriod k = Some amount /\ entry p Precision k = Some prec /\
    (exists w, width (ml_bw_max m) mem_op k w /\
       pa_real a = match w with None => 0%Z | Some b => if (b =? 0)%Z then 0%Z else Qround.Qceiling (inject_Z (amount * prec) / inject_Z b) end) /\
    (exists x, entry p (if (match k with RdHigh | WrHigh => next | _ => this end) : bool then Period else TransWindow) k = Some x /\
       pa_allowed a = Qround.Qceiling (inject_Z x * in_cpo ci)).
