(** C33: layer operands and memory operands are linked one-to-one.

    A link table is a dict, so its layer operands are distinct ([NoDup (keys data)]). *)
From Verif Require Import Base Model_Links Proof_Links.
Local Open Scope string_scope.

(** Converting either way and back gives the same operand. *)
Theorem C33_bijection :
  forall data l, NoDup (keys data) -> make_links data = Ok l ->
  forall op m, layer_to_mem_op l op = Ok m <-> mem_to_layer_op l m = Ok op.
Proof. exact links_inverse. Qed.
Print Assumptions C33_bijection.

(** The conversion is the table that was given. *)
Theorem C33_table :
  forall data l, make_links data = Ok l ->
  forall op m, layer_to_mem_op l op = Ok m <-> dget op data = Some m.
Proof. exact links_table. Qed.
Print Assumptions C33_table.

(** Construction fails exactly when two layer operands share a memory operand, *)
Theorem C33_fails :
  forall data, NoDup (keys data) ->
  (make_links data = Err AssertionError <->
   exists op1 op2 m, op1 <> op2 /\ dget op1 data = Some m /\ dget op2 data = Some m).
Proof. exact links_fail. Qed.
Print Assumptions C33_fails.

(** and succeeds otherwise. *)
Theorem C33_succeeds :
  forall data, NoDup (keys data) -> (exists l, make_links data = Ok l) <-> NoDup (values data).
Proof. exact links_ok. Qed.
Print Assumptions C33_succeeds.

(** The membership tests tell whether a conversion is possible. *)
Theorem C33_contains :
  forall data l, NoDup (keys data) -> make_links data = Ok l ->
  (forall op, contains_layer_op l op = true <-> exists m, layer_to_mem_op l op = Ok m) /\
  (forall m, contains_mem_op l m = true <-> exists op, mem_to_layer_op l m = Ok op).
Proof. exact links_contains. Qed.
Print Assumptions C33_contains.

(** Non-vacuity *)
Example C33_met :
  NoDup (keys [("I", "I1"); ("W", "I2"); ("O", "O")]) /\
  exists l, make_links [("I", "I1"); ("W", "I2"); ("O", "O")] = Ok l /\ mem_to_layer_op l "I2" = Ok "W" /\
  make_links [("I", "I1"); ("W", "I1"); ("O", "O")] = Err AssertionError.
Proof.
  split.
  - repeat constructor; cbn; intuition discriminate.
  - eexists. repeat split; reflexivity.
Qed.
