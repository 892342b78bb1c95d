(** Independent vocabulary for C16. *)
From Coq Require Import QArith.
From Verif Require Import Base.

(** The unrolling of layer dimension [d] on array dimension [o]. *)
Definition unrolled (sm : dict string (dict string Q)) (o d : string) (u : Q) : Prop :=
  exists m, dget o sm = Some m /\ dget d m = Some u.

(** A Python dict has every key once. *)
Definition dicts (sm : dict string (dict string Q)) : Prop :=
  NoDup (keys sm) /\ forall o m, In (o, m) sm -> NoDup (keys m).

(** Product over the array dimensions of the unrollings of [d]. *)
Fixpoint unrolled_total (sm : dict string (dict string Q)) (d : string) : Q :=
  match sm with
  | [] => 1
  | (o, m) :: sm => ((match dget d m with Some u => u | None => 1 end) * unrolled_total sm d)%Q
  end.

(** What a user asks of a mapping: known dimensions, unrollings within the maxima, no
    array dimension and no layer dimension exceeded. *)
Record mapping_fits (oa_sizes : dict string Q) (maxu : dict string (dict string Q)) (sizes : dict string Q)
    (sm : dict string (dict string Q)) : Prop := {
  fit_max : forall o d u, unrolled sm o d u ->
    exists lim x, dget o maxu = Some lim /\ dget d lim = Some x /\ (u <= x)%Q;
  fit_oa : forall o m, dget o sm = Some m ->
    exists s, dget o oa_sizes = Some s /\ (qprod (values m) <= s)%Q;
  fit_known : forall o d u, unrolled sm o d u -> exists s, dget d sizes = Some s;
  fit_layer : forall d s, dget d sizes = Some s -> (unrolled_total sm d <= s)%Q }.

(** Complete inputs: the mapping unrolls on known array dimensions, maxima exist for the
    layer's dimensions, and all numbers are at least 1. *)
Record reduce_inputs (oa_sizes : dict string Q) (maxu : dict string (dict string Q))
    (sizes : dict string Q) (sm : dict string (dict string Q)) : Prop := {
  ri_dicts : dicts sm;
  ri_sizes : NoDup (keys sizes);
  ri_oas : forall o, In o (keys sm) -> In o (keys oa_sizes);
  ri_max : forall o d u, unrolled sm o d u -> In d (keys sizes) ->
    exists lim x, dget o maxu = Some lim /\ dget d lim = Some x /\ (1 <= x)%Q;
  ri_one : forall o d u, unrolled sm o d u -> (1 <= u)%Q;
  ri_oa_one : forall o s, dget o oa_sizes = Some s -> (1 <= s)%Q;
  ri_size_one : forall d s, dget d sizes = Some s -> (1 <= s)%Q }.

(** Python's choices: an order lists the set, a pick is an element of it. *)
Definition orders (order : list string -> list string) : Prop :=
  forall l, Permutation l (order l).
Definition picks_dim (pick : string -> dict string Q -> string) : Prop :=
  forall o m, m <> [] -> In (pick o m) (keys m).
Definition picks_oa (pick : string -> dict string (dict string Q) -> string) : Prop :=
  forall d sm, dicts sm -> (exists o u, unrolled sm o d u) -> exists u, unrolled sm (pick d sm) d u.

(** Every known unrolling capped by its maximum. *)
Definition capped (maxu : dict string (dict string Q)) (sizes : dict string Q)
    (sm : dict string (dict string Q)) (o d : string) (x : Q) : Prop :=
  exists u lim m, unrolled sm o d u /\ In d (keys sizes) /\ dget o maxu = Some lim /\
    dget d lim = Some m /\ ((m < u)%Q /\ x = m \/ (u <= m)%Q /\ x = u).

(** All unrollings are whole numbers from 1 on. *)
Definition sm_whole (sm : dict string (dict string Q)) : Prop :=
  forall o m d u, In (o, m) sm -> In (d, u) m -> exists k, (1 <= k)%Z /\ (u == inject_Z k)%Q.
