(** Independent vocabulary for C17 and C18. *)
From Coq Require Import QArith.
From Verif Require Import Base Spec_SpatialMap.

(** The level an array dimension belongs to: the lowest one serving it, or else the
    extra level on top. *)
Fixpoint home (levels : list (list string)) (o : string) : nat :=
  match levels with
  | [] => 0
  | served :: levels => if in_dec string_dec o served then 0 else S (home levels o)
  end.

(** The array dimensions of the mapping that belong to level [i]. *)
Definition at_home (levels : list (list string)) (i : nat) (usm : dict string (dict string Q))
  : dict string (dict string Q) :=
  filter (fun om => Nat.eqb (home levels (fst om)) i) usm.

(** A level lists each layer dimension of these array dimensions once, with the product
    of its unrollings on them. *)
Definition level_right (usm : dict string (dict string Q)) (loops : list (string * Q)) : Prop :=
  NoDup (map fst loops) /\
  (forall d, In d (map fst loops) <-> exists o u, unrolled usm o d u) /\
  (forall d q, In (d, q) loops -> (q == unrolled_total usm d)%Q).

(** Product of the loops over [d]. *)
Definition over_levels (levels : list (list (string * Q))) (d : string) : Q :=
  qprod (map snd (filter (fun x => if string_dec (fst x) d then true else false) (concat levels))).

(** [o] is the first array dimension holding the largest unrolling of [d]. *)
Definition first_largest (sm : dict string (dict string Q)) (o d : string) : Prop :=
  exists before m after u, sm = before ++ (o, m) :: after /\ dget d m = Some u /\
    (forall o' m' u', In (o', m') before -> dget d m' = Some u' -> (u' < u)%Q) /\
    (forall o' m' u', In (o', m') after -> dget d m' = Some u' -> (u' <= u)%Q).

(** The array dimensions before [o]. *)
Fixpoint before_oa (o : string) (sm : dict string (dict string Q)) : dict string (dict string Q) :=
  match sm with
  | [] => []
  | (o', m) :: sm => if string_dec o o' then [] else (o', m) :: before_oa o sm
  end.

(** A mapping that passed the validity check: whole unrollings from 1 on, within the
    array, per layer dimension within the layer. *)
Record valid_user (sizes oa_sizes : dict string Z) (sm : dict string (dict string Q)) : Prop := {
  vu_dicts : dicts sm;
  vu_whole : sm_whole sm;
  vu_oa : forall o d u, unrolled sm o d u -> exists s, dget o oa_sizes = Some s /\ (u <= inject_Z s)%Q;
  vu_known : forall o d u, unrolled sm o d u -> exists l, dget d sizes = Some l /\ (1 <= l)%Z;
  vu_layer : forall d l, dget d sizes = Some l -> (unrolled_total sm d <= inject_Z l)%Q }.

(** Limiting keeps every unrolling except, per layer dimension, the largest, which is
    lowered so that it, together with those before it, splits the layer dimension in a
    whole number of equal parts; no more parts than needed. *)
Definition limited_to (sizes : dict string Z) (user : dict string (dict string Q))
    (o d : string) (u x : Q) : Prop :=
  (~ first_largest user o d /\ x = u) \/
  (first_largest user o d /\ (0 < x <= u)%Q /\ exists l t, dget d sizes = Some l /\ (1 <= t)%Z /\
     (unrolled_total (before_oa o user) d * x * inject_Z t == inject_Z l)%Q /\
     (forall t', (inject_Z l <= unrolled_total (before_oa o user) d * u * inject_Z t')%Q -> (t <= t')%Z)).
(** The whole-number variant rounds this one down. *)
Definition rounded_down (x y : Q) : Prop :=
  exists k, (y == inject_Z k)%Q /\ (1 <= k)%Z /\ (inject_Z k <= x < inject_Z k + 1)%Q.
