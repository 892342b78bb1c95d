(** Independent vocabulary for C79: the bandwidth that an evaluation reports for a memory. *)
From Coq Require Import QArith Qround.
From Verif Require Import Base Model_Alloc Model_DataMove Model_Hierarchy Model_Latency Model_Evaluate
  Spec_Alloc Spec_Decouple Spec_Temporal Spec_Mapping Spec_Cost Spec_Hierarchy Spec_EvalEnergy Spec_EvalTime.
Local Open Scope list_scope.

Section Bandwidth.
  Variables (rq : request) (ms : list memspec) (z stall : Z).
  Variables (tm : string -> list (list (string * Z))) (tr : string -> nat -> direction -> transfer) (first : string -> Z).

  (** Cycles from the first operation to the last, waits included. *)
  Definition computing (op : string) : Z := cycles (concat (tm op)) * z + stall.

  (** Transfers that go on during the computation: those that occur just once.  Partial sums that
      come back to the array are left out. *)
  Definition prolonged (op : string) (lv : nat) (k : direction) : Prop :=
    is_transfer rq tm (op, lv, k) /\ tr_count (tr op lv k) = 1%Z /\ ~ (op = rq_out rq /\ (k = RdLow \/ k = WrHigh)).
  (** Bits per cycle of it that move during the computation: the share of the computation that the
      cycles spared before it (or after it) make up, of the width of the port. *)
  Definition meanwhile (op : string) (lv : nat) (k : direction) : Z :=
    Qceiling (inject_Z (duration (tr op lv k) - loading_time (computing op) (first op) (tr op lv k)) / inject_Z (computing op) * inject_Z (tr_width (tr op lv k))).
  Definition right_borrowed (borrowed : string -> nat -> direction -> Z) : Prop :=
    forall op lv k, In op (rq_ops rq) -> (lv < length (tm op))%nat ->
      (prolonged op lv k -> borrowed op lv k = meanwhile op lv k) /\ (~ prolonged op lv k -> borrowed op lv k = 0%Z).

  (** The direction that what moves during the computation is booked under, whatever its own. *)
  Definition booked (m : memspec) : direction := if memb "O"%string (ms_operands m) then WrHigh else RdLow.

  (** What is reported for an operand at its memory [lv], described by [m]. *)
  Definition right_bandwidth (borrowed : string -> nat -> direction -> Z) (scaling : Q) (m : memspec) (op : string) (lv : nat) (f : dict direction Z) : Prop :=
    forall k, exists need, dget k f = Some (need + if eqb k (booked m) then zsum (map (fun k' => Qceiling (inject_Z (borrowed op lv k') * scaling)) directions) else 0)%Z /\
      (is_transfer rq tm (op, lv, k) -> need = Qceiling (inject_Z (asked (tr op lv k)) * scaling / inject_Z z)) /\
      (~ is_transfer rq tm (op, lv, k) -> need = 0%Z).
End Bandwidth.

(** What [f] says for a direction. *)
Definition said (k : direction) (f : dict direction Z) : Z := match dget k f with Some x => x | None => 0%Z end.
