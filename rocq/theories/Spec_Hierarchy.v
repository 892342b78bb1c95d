(** Independent vocabulary for memory hierarchies (C30, C31, C61, C62). *)
From Coq Require Import QArith.
From Verif Require Import Base Model_DataMove Model_Cost Model_Graph Model_Hierarchy.
Local Open Scope string_scope.
Local Open Scope list_scope.

(** The memories that hold an operand, in the order in which they were added. *)
Definition stores (op : string) (l : level) : Prop := In op (ml_operands (lv_mem l)).
Definition holders (h : hierarchy) (op : string) : list level :=
  filter (fun l => memb op (ml_operands (lv_mem l))) (h_list h).

(** Every memory lists its operands once. *)
Definition operands_once (ms : list memspec) : Prop := forall m, In m ms -> NoDup (ms_operands m).

(** Memories and their description *)
Definition described (m : memspec) (l : level) : Prop :=
  ml_operands (lv_mem l) = ms_operands m /\ ml_size (lv_mem l) = ms_size m /\
  ml_read_energy (lv_mem l) = ms_r_cost m /\ ml_write_energy (lv_mem l) = ms_w_cost m /\ lv_served l = ms_served m.

(** The last memory of a list with a property *)
Definition last_such {A} (P : A -> Prop) (l : list A) (x : A) : Prop :=
  exists l1 l2, l = l1 ++ x :: l2 /\ P x /\ forall y, In y l2 -> ~ P y.

(** The largest level number that a memory has for any of its operands *)
Definition height (l : level) : nat := list_max (map snd (lv_dict l)).
(** Along the memories of an operand, heights do not go down. *)
Definition heights_grow (h : hierarchy) : Prop :=
  forall op i j li lj, (i < j)%nat -> nth_error (h_list h) i = Some li -> nth_error (h_list h) j = Some lj ->
    stores op li -> stores op lj -> (height li <= height lj)%nat.

(** * Ports *)

Definition direction_name (d : direction) : string :=
  match d with WrHigh => "fh" | WrLow => "fl" | RdHigh => "th" | RdLow => "tl" end.
(** A port is listed for moving an operand in a direction. *)
Definition listed (op : string) (d : direction) (p : portspec) : Prop := In (op, direction_name d) (ps_alloc p).
(** The port that moves it: the last one listed. *)
Definition moved_by (m : memspec) (op : string) (d : direction) (p : portspec) : Prop := last_such (listed op d) (ms_ports m) p.

(** The allocations name operands of the memory and directions, ports have proper names. *)
Definition well_allocated (m : memspec) : Prop :=
  forall p op s, In p (ms_ports m) -> In (op, s) (ps_alloc p) ->
    In op (ms_operands m) /\ (exists d, s = direction_name d) /\ port_regex (ps_name p) = true.

(** What a port may do *)
Definition may_move (t : ptype) (d : direction) : Prop :=
  match t, d with
  | PRead, (WrHigh | WrLow) => False
  | PWrite, (RdHigh | RdLow) => False
  | _, _ => True
  end.

(** The ports of a memory have different names. *)
Definition names_once (ms : list memspec) : Prop := forall m, In m ms -> NoDup (map ps_name (ms_ports m)).

(** Look-up in a table by operand and direction *)
Definition get2 {V} (d : dict string (dict direction V)) (op : string) (k : direction) : option V :=
  match dget op d with Some i => dget k i | None => None end.
