(** Independent vocabulary for C21-C23, C58-C60: the loop nest of an operand that the
    spatial unrollings per level [su] (level 0 the operational array) and the temporal
    loops per memory level [tm] make up. *)
From Coq Require Import QArith.
From Verif Require Import Base Model_Alloc Model_Decouple Model_SpatialInt Model_DataMove Model_Mapping
  Spec_Alloc Spec_Decouple Spec_SpatialInt Spec_Temporal.

(** The temporal loops of the [i] innermost memory levels and the spatial loops of the
    [j] innermost levels. *)
Definition within (su : list (list (string * Q))) (tm : list (list (string * Z))) (i j : nat)
  : list (string * Q) :=
  (concat (firstn i (map (map (fun x => (fst x, inject_Z (snd x)))) tm)) ++ concat (firstn j su))%list.

(** All of them. *)
Definition whole_nest (su : list (list (string * Q))) (tm : list (list (string * Z))) : list (string * Q) :=
  within su tm (length tm) (length su).

(** A loop outside [i] memory levels and [j] spatial levels that reduces the output. *)
Definition reduces_above (ir : list string) (su : list (list (string * Q)))
    (tm : list (list (string * Z))) (i j : nat) : Prop :=
  (exists d s, In (d, s) (concat (skipn i tm)) /\ In d ir /\ (1 < s)%Z) \/
  (exists d s, In (d, s) (concat (skipn j su)) /\ In d ir /\ (1 < s)%Q).

(** Accesses when the loops [inner] work on one tile of the operand: the tile is moved
    once for every time they are run, each of its elements counting once. *)
Definition moves (ly : layer) (op : string) (macs : Z) (inner : list (string * Q)) (n : Z) : Prop :=
  nearest (inject_Z macs / iterations_of inner * tile_elements ly op inner) n.

(** What a layer operand of a mapping has to meet. *)
Record good_operand (ly : layer) (r_dims ir_dims : dict string (list string)) (pr_ops : list string)
    (op : string) (oi : opinput) : Prop := {
  (** one more spatial level than memory levels, and one memory level *)
  go_levels : length (oi_spatial oi) = S (length (oi_temporal oi)) /\ oi_temporal oi <> [];
  go_relevancy : exists r ir, dget op r_dims = Some r /\ dget op ir_dims = Some ir /\ NoDup r /\
    dget op (l_r_or_pr ly) = Some (r ++ (if in_dec string_dec op pr_ops then keys (l_pr_loop ly) else []))%list /\
    (forall d, In d r -> ~ In d ir) /\
    (forall d, In d (r ++ ir) -> ~ In d (keys (l_pr_loop ly)) /\
       forall p, In p (keys (l_pr_loop ly)) -> d <> String.append p "_R" /\ d <> String.append p "_IR") /\
    (* relevant and irrelevant dimensions are not those of derived dimensions *)
    (In op pr_ops -> forall d x p, In d (r ++ ir) -> runs_over ly p x -> fst x <> d) /\
    (* every loop of more than one iteration is relevant, irrelevant or partially so *)
    (forall x, In x (whole_nest (oi_spatial oi) (oi_temporal oi)) ->
       (snd x == 1)%Q \/ In (fst x) r \/ In (fst x) ir \/ (In op pr_ops /\ exists p, runs_over ly p x));
  go_sizes : forall x, In x (whole_nest (oi_spatial oi) (oi_temporal oi)) ->
    (1 <= snd x)%Q /\ ~ In (fst x) (keys (l_pr_loop ly));
  go_tags : no_tags ly (whole_nest (oi_spatial oi) (oi_temporal oi)) }.

(** The tables that the spatial and the temporal mapping provide for an operand: unit
    counts (C15), cycle counts (C13), sizes of the outermost runs of loops. *)
Record good_tables (ly : layer) (r_dims : dict string (list string)) (pr_ops : list string)
    (total : Z) (op : string) (oi : opinput) : Prop := {
  gt_counts : exists ls' r, dget op r_dims = Some r /\ decoupled_for ly pr_ops op (oi_spatial oi) ls' /\
    right_counts ly r (oi_spatial oi) ls' (oi_counts oi);
  gt_cycles : cycle_counts (oi_temporal oi) (oi_cycles oi) /\ (cycles (concat (oi_temporal oi)) = total)%Z;
  gt_stationary : (1 <= oi_mac_stationary oi)%Z;
  gt_top_r : length (oi_top_r oi) = S (length (oi_temporal oi)) /\ forall t, In t (oi_top_r oi) -> (1 <= t)%Z;
  gt_top_ir : length (oi_top_ir oi) = S (length (oi_temporal oi)) /\ forall t, In t (oi_top_ir oi) -> (1 <= t)%Z;
  gt_precision : In op (keys (l_precision ly)) }.

(** The value of an attribute of a unit memory in one direction. *)
Definition entry (p : dict attr (dict direction Z)) (a : attr) (k : direction) : option Z :=
  match dget a p with Some f => dget k f | None => None end.
Definition row (p : dict attr (dict direction Z)) (a : attr) (rd_low wr_low rd_high wr_high : Z) : Prop :=
  entry p a RdLow = Some rd_low /\ entry p a WrLow = Some wr_low /\
  entry p a RdHigh = Some rd_high /\ entry p a WrHigh = Some wr_high.

(** What all operands of a mapping have to meet. *)
Record good_mapping (ly : layer) (r_dims ir_dims : dict string (list string)) (pr_ops inputs : list string)
    (out : string) (total : Z) (ois : dict string opinput) : Prop := {
  gm_layer : derived_ok ly;
  gm_keys : NoDup (keys ois) /\ NoDup (keys r_dims) /\ NoDup pr_ops;
  gm_ops : In out (keys ois) /\ ~ In out inputs /\ (forall op, In op (keys ois) -> op = out \/ In op inputs) /\
    (forall op, In op pr_ops -> In op (keys ois));
  gm_good : forall op oi, In (op, oi) ois -> good_operand ly r_dims ir_dims pr_ops op oi;
  gm_tables : forall op oi, In (op, oi) ois -> good_tables ly r_dims pr_ops total op oi }.

(** The loops of a nest outside [i] memory levels and [j] spatial levels. *)
Definition outside (su : list (list (string * Q))) (tm : list (list (string * Z))) (i j : nat)
  : list (string * Q) :=
  (concat (skipn i (map (map (fun x => (fst x, inject_Z (snd x)))) tm)) ++ concat (skipn j su))%list.

(** Product of the loops over the given (irrelevant) dimensions. *)
Definition reuse (ir : list string) (l : list (string * Q)) : Q :=
  iterations_of (filter (fun x => memb (fst x) ir) l).

(** All loop sizes are whole numbers, and the MAC count is their product. *)
Definition whole_sizes (l : list (string * Q)) : Prop := forall x, In x l -> exists z, (snd x == inject_Z z)%Q.
Definition exact_nest (oi : opinput) (macs : Z) : Prop :=
  whole_sizes (whole_nest (oi_spatial oi) (oi_temporal oi)) /\
  (inject_Z macs == iterations_of (whole_nest (oi_spatial oi) (oi_temporal oi)))%Q.

(** Units side by side at spatial level [i] use different or the same data, not overlapping parts:
    no loop there is over a dimension that a derived one is computed from. *)
Definition no_overlap (ly : layer) (pr_ops : list string) (op : string) (su : list (list (string * Q))) (i : nat) : Prop :=
  In op pr_ops -> forall l x p, nth_error su i = Some l -> In x l -> ~ runs_over ly p x.

(** No traffic beyond the top memory. *)
Definition below_top (i levels : nat) (x : Z) : Z := if Nat.eqb (S i) levels then 0%Z else x.

(** The transfers of a memory in one direction fit together: [a] elements in each of [n]
    periods of [t] cycles, by each of the [units] memories.  Within a period data move
    in a window that is [outer] times shorter, at a rate as much higher. *)
Definition transfers (p : dict attr (dict direction Z)) (k : direction) (prec total units outer : Z) : Prop :=
  exists m bw bi t n a w,
    entry p MoveCount k = Some m /\ entry p BwAver k = Some bw /\ entry p BwInst k = Some bi /\
    entry p Period k = Some t /\ entry p PeriodCount k = Some n /\ entry p AmountPerPeriod k = Some a /\
    entry p TransWindow k = Some w /\
    (1 <= t /\ t * n = total /\ m = a * n * units /\ bw = a * prec / t /\ bi = bw * outer /\ w = t / outer)%Z.
