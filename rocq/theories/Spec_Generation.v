(** Independent vocabulary for C19, C20 and the generator of spatial mappings. *)
From Coq Require Import QArith.
From Verif Require Import Base Spec_SpatialMap Model_Generation.
Local Open Scope Z_scope.

(** Layer operand [lop], of precision [prec], uses inner memory [mem] through memory
    operand [mop]; layer dimensions [ir] are irrelevant to it. *)
Record used_by (layer : gen_layer) (mem : inner_mem) (mop lop : string) (prec : Z) (ir : list string) : Prop := {
  ub_operand : In mop (im_operands mem);
  ub_link : dget mop (gl_layer_op layer) = Some lop;
  ub_prec : dget lop (gl_prec layer) = Some prec;
  ub_ir : dget lop (gl_ir layer) = Some ir }.

(** Bits per cycle between the array and [mem] for that operand: written for the output,
    read for an input. *)
Definition array_bandwidth (mem : inner_mem) (mop lop : string) (bw : Z) : Prop :=
  lop = "O"%string /\ dget mop (im_wr_low mem) = Some (Some bw) \/
  lop <> "O"%string /\ dget mop (im_rd_low mem) = Some (Some bw).

(** Some inner memory feeds array dimension [o] with [prec]-bit elements, different
    along layer dimension [d], at [bw] bits per cycle. *)
Definition fed (layer : gen_layer) (mems : list inner_mem) (o d : string) (prec bw : Z) : Prop :=
  exists mem mop lop ir, In mem mems /\ used_by layer mem mop lop prec ir /\
    array_bandwidth mem mop lop bw /\ In o (im_served mem) /\ ~ In d ir /\ 0 < prec.

(** Every memory operand of every inner memory is linked, with a bandwidth; the served
    array dimensions exist. *)
Definition mems_complete (layer : gen_layer) (mems : list inner_mem) (oas : list string) : Prop :=
  forall mem, In mem mems ->
    NoDup (im_served mem) /\ (forall o, In o (im_served mem) -> In o oas) /\
    forall mop, In mop (im_operands mem) ->
      exists lop prec ir bw, used_by layer mem mop lop prec ir /\ array_bandwidth mem mop lop bw.

(** Every inner memory can hold one element of each operand, and pass one per cycle. *)
Definition holds_one (layer : gen_layer) (mems : list inner_mem) : Prop :=
  forall mem mop lop prec ir, In mem mems -> used_by layer mem mop lop prec ir -> prec <= im_size mem.
Definition passes_one (layer : gen_layer) (mems : list inner_mem) : Prop :=
  forall mem mop lop prec ir bw, In mem mems -> used_by layer mem mop lop prec ir ->
    array_bandwidth mem mop lop bw -> prec <= bw.

(** [u'] is [u] cut down to what the feeds [S] (precision, bandwidth) sustain, and no
    further than the tightest of them. *)
Definition cut (S : Z -> Z -> Prop) (u u' : Z) : Prop :=
  u' <= u /\ (forall p b, S p b -> u' * p <= b) /\ (u' = u \/ exists p b, S p b /\ u' * p <= b < (u' + 1) * p).
(** Elementwise, in every array dimension. *)
Definition cuts (S : string -> string -> Z -> Z -> Prop) (m m' : dict string (dict string Z)) : Prop :=
  Forall2 (fun om om' => fst om' = fst om /\
    Forall2 (fun du du' => fst du' = fst du /\ cut (S (fst om) (fst du)) (snd du) (snd du')) (snd om) (snd om')) m m'.

Definition whole1 (q : Q) : Prop := exists k, 1 <= k /\ (q == inject_Z k)%Q.

(** [sm'] unrolls what [sm] unrolls, each by a whole number from 1 to the one of [sm]. *)
Definition lowered_oa (m m' : dict string Q) : Prop :=
  Forall2 (fun du du' => fst du' = fst du /\ (snd du' <= snd du)%Q /\ whole1 (snd du')) m m'.
Definition lowered (sm sm' : dict string (dict string Q)) : Prop :=
  Forall2 (fun om om' => fst om' = fst om /\ lowered_oa (snd om) (snd om')) sm sm'.

(** Elements of an operand that mapping [sm] asks of one memory: the product of the
    unrollings, on the served array dimensions, of dimensions outside [ir]. *)
Definition asked (served ir : list string) (sm : dict string (dict string Q)) : list Q :=
  flat_map (fun o => match dget o sm with
    | None => []
    | Some m => map snd (filter (fun du => negb (memb (fst du) ir)) m)
    end) served.

(** The unrollings larger than 1 are pairwise different. *)
Definition distinct_factors (l : list Q) : Prop :=
  ForallOrdPairs (fun a b => (a == b)%Q -> (a == 1)%Q) l.

Definition with_operands (mem : inner_mem) (ops : list string) : inner_mem :=
  {| im_operands := ops; im_served := im_served mem; im_size := im_size mem;
     im_rd_low := im_rd_low mem; im_wr_low := im_wr_low mem |}.

(** * The generator *)

(** One array dimension of size [s], hinted dimensions [h] and maximal unrollings [mx]:
    one hinted dimension by a divisor of its maximum; if mixing is on also two or more of
    them, in their order, by divisors above 1, together at most [s] (a hint that the layer
    does not have stands for an unrolling of 0, which makes the mapping invalid). *)
Inductive sublist {A} : list A -> list A -> Prop :=
| sub_nil : forall l, sublist [] l
| sub_take : forall x l l', sublist l l' -> sublist (x :: l) (x :: l')
| sub_skip : forall x l l', sublist l l' -> sublist l (x :: l').
Definition choice (mix : bool) (h : list string) (mx : dict string Z) (s : Z) (m : dict string Q) : Prop :=
  (exists d f x, In d h /\ dget d mx = Some x /\ 1 <= f /\ (f | x) /\ m = [(d, inject_Z f)]) \/
  (mix = true /\ (2 <= length m)%nat /\ sublist (keys m) h /\ (qprod (values m) <= inject_Z s)%Q /\
   forall d u, In (d, u) m ->
     (exists f x, dget d mx = Some x /\ u = inject_Z f /\ 1 < f <= x /\ (f | x)) \/ (dget d mx = None /\ u = inject_Z 0)).

(** [c] completes template [t] by a choice on every other array dimension. *)
Definition completes (mix : bool) (hints : dict string (list string)) (zmax : dict string (dict string Z))
    (oa_sizes : dict string Z) (t c : dict string (dict string Q)) : Prop :=
  exists fill ms, fill = filter (fun o => negb (memb o (keys t))) (keys oa_sizes) /\
    c = (t ++ combine fill ms)%list /\
    Forall2 (fun o m => exists h mx s, dget o hints = Some h /\ dget o zmax = Some mx /\ dget o oa_sizes = Some s /\
      choice mix h mx s m) fill ms.

Record gen_inputs (layer : gen_layer) (mems : list inner_mem) (oa_sizes : dict string Z)
    (hints : dict string (list string)) (provided : dict string (dict string Q)) : Prop := {
  gi_oa : NoDup (keys oa_sizes);
  gi_oa_one : forall o s, dget o oa_sizes = Some s -> 1 <= s;
  gi_sizes : NoDup (keys (gl_sizes layer));
  gi_size_one : forall d s, dget d (gl_sizes layer) = Some s -> 1 <= s;
  gi_mems : mems_complete layer mems (keys oa_sizes);
  gi_holds : holds_one layer mems;
  gi_passes : passes_one layer mems;
  gi_provided : dicts provided;
  gi_provided_oa : forall o, In o (keys provided) -> In o (keys oa_sizes);
  gi_whole : sm_whole provided;
  gi_hints : forall o, In o (keys oa_sizes) -> exists h, dget o hints = Some h /\ NoDup h /\
    exists d, In d h /\ In d (keys (gl_sizes layer)) }.

Definition fits_capacity (layer : gen_layer) (mems : list inner_mem) (sm : dict string (dict string Q)) : Prop :=
  forall mem mop lop prec ir, In mem mems -> used_by layer mem mop lop prec ir ->
    (qprod (asked (im_served mem) ir sm) * inject_Z prec <= inject_Z (im_size mem))%Q.

(** [a] ranks at least as high as [b] (see C54 for the indicator). *)
Definition ranks_before (a b : dict string (dict string Q)) : Prop :=
  forall va vb, Model_SpatialMap.performance_indicator a = Ok va -> Model_SpatialMap.performance_indicator b = Ok vb -> (vb <= va)%Q.

(** What becomes of a chosen candidate [cd]: limiting the mappings found before it may
    have lowered it, it is limited itself, and limiting later ones may lower it further. *)
Definition fate (dim_order : list string -> list string) (layer : gen_layer) (mems : list inner_mem)
    (cd r : dict string (dict string Q)) : Prop :=
  exists x y, lowered cd x /\ limit_capacity layer dim_order mems x = Ok y /\ lowered y r.
