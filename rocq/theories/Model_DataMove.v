(** Model of zigzag/mapping/data_movement.py: four-way data movement and the
    attributes of a unit memory.  Python numbers of the four-way classes are an
    abstract type with zero, sum and product (integers for accesses, exact rationals
    for energies). *)
From Verif Require Import Base.
Local Open Scope result_scope.

(** [DataDirection], zigzag/hardware/architecture/memory_port.py:15-19 *)
Inductive direction := RdLow | WrLow | RdHigh | WrHigh.
Definition directions : list direction := [RdLow; WrLow; RdHigh; WrHigh].
#[global] Instance EqB_direction : EqB direction.
Proof.
  refine {| eqb := fun a b => match a, b with
    | RdLow, RdLow | WrLow, WrLow | RdHigh, RdHigh | WrHigh, WrHigh => true | _, _ => false end |}.
  intros [] []; constructor; congruence.
Defined.

(** [FourWayDataMoving], [MemoryAccesses], [AccessEnergy]: the dict [data]. *)
Notation four := (dict direction).

Section FourWay.
  Variables (A : Type) (zero : A) (add mul : A -> A -> A).

  (** [__init__], data_movement.py:13-22: a copy of the dict, or zeros; ValueError when
      a direction is missing. *)
  Definition four_way (data : option (dict direction A)) : result (four A) :=
    let d := match data with None => map (fun k => (k, zero)) directions | Some d => d end in
    if forallb (fun k => dmem k d) directions then Ok d else Err ValueError.

  (** [get], [set], data_movement.py:24-30 *)
  Definition four_get (k : direction) (f : four A) : result A := dgetr k f.
  Definition four_set (k : direction) (x : A) (f : four A) : four A := dset k x f.

  (** [__add__], data_movement.py:32-34, 59-61, 71-73 *)
  Definition four_add (f g : four A) : result (four A) :=
    d <- rmap (fun k => x <- dgetr k f ;; y <- dgetr k g ;; Ok (k, add x y)) directions ;;
    four_way (Some d).
  (** [__mul__], data_movement.py:36-38, 63-65, 75-77 *)
  Definition four_mul (f : four A) (c : A) : result (four A) :=
    d <- rmap (fun k => x <- dgetr k f ;; Ok (k, mul x c)) directions ;;
    four_way (Some d).
End FourWay.
Arguments four_way {A}. Arguments four_get {A}. Arguments four_set {A}.
Arguments four_add {A}. Arguments four_mul {A}.

(** [DataMoveAttr], data_movement.py:80-88 *)
Inductive attr := MoveCount | Precision | BwAver | BwInst | Period | PeriodCount | AmountPerPeriod | TransWindow.
Definition attrs : list attr :=
  [MoveCount; Precision; BwAver; BwInst; Period; PeriodCount; AmountPerPeriod; TransWindow].
#[global] Instance EqB_attr : EqB attr.
Proof.
  refine {| eqb := fun a b => match a, b with
    | MoveCount, MoveCount | Precision, Precision | BwAver, BwAver | BwInst, BwInst | Period, Period
    | PeriodCount, PeriodCount | AmountPerPeriod, AmountPerPeriod | TransWindow, TransWindow => true
    | _, _ => false end |}.
  intros [] []; constructor; congruence.
Defined.

(** [DataMovePattern]: the dict [attributes]; the name is left out. *)
Notation pattern := (dict attr (four Z)).

(** [DataMovePattern.__init__], data_movement.py:94-100 *)
Definition new_pattern : result pattern :=
  rmap (fun a => f <- four_way 0 None ;; Ok (a, f)) attrs.
(** [set_attribute], data_movement.py:102-106 *)
Definition set_attribute (a : attr) (values : dict direction Z) (p : pattern) : result pattern :=
  f <- four_way 0 (Some values) ;; Ok (dset a f p).
(** [get_attribute], data_movement.py:108-110 *)
Definition get_attribute (a : attr) (p : pattern) : result (four Z) := dgetr a p.
(** [update_single_dir_data], data_movement.py:112-115 *)
Definition update_single_dir_data (k : direction) (x : Z) (p : pattern) : pattern :=
  map (fun kv => (fst kv, four_set k x (snd kv))) p.
