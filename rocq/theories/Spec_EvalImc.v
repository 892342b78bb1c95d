(** Independent vocabulary for C77: evaluations on in-memory-computing arrays. *)
From Coq Require Import QArith Qround.
From Verif Require Import Base Model_Alloc Model_Layer Model_Evaluate Model_Imc Model_EvalImc Spec_Imc.
Local Open Scope list_scope.

(** The same request for a digital array: [units] of them, an operation costs [energy] and takes [cycles]. *)
Definition digital (rq : request) (units : Z) (energy cycles : Q) : request :=
  mkRequest (rq_layer rq) (rq_r rq) (rq_ir rq) (rq_pr rq) (rq_ops rq) (rq_inputs rq) (rq_out rq) (rq_macs rq) (rq_size_out rq)
    (rq_links rq) (rq_hierarchy rq) units energy cycles (rq_free rq) (rq_spatial rq) (rq_spatial_int rq) (rq_temporal rq).

(** Units of an array, and the cycles of an operation whose activations come in serially *)
Definition units_of (a : imc) : Z := (im_wordline a * im_bitline a * im_banks a)%Z.
Definition serial_cycles (a : imc) : Q := (inject_Z (im_act a) / inject_Z (im_serial a))%Q.

(** What is unrolled on a dimension of the array, and how many times altogether *)
Definition unrollings (o : option (dict string Q)) : list (string * Q) := match o with Some d => d | None => [] end.
Definition times_unrolled (o : option (dict string Q)) : Q := qprod (map snd (unrollings o)).

(** The layer has weights [w] and another input; what is unrolled on the wordlines changes the weights. *)
Record plain_mapping (iq : imc_request) (w : string) : Prop := {
  pm_equation : contained_operands (iq_tokens iq) = Ok (rq_out (iq_request iq) :: rq_inputs (iq_request iq));
  pm_weights : iq_constants iq = [w] /\ In w (rq_inputs (iq_request iq));
  pm_activations : exists act, In act (rq_inputs (iq_request iq)) /\ act <> w;
  pm_word : exists ir, dget w (l_ir (rq_layer (iq_request iq))) = Some ir /\ forall d n, In (d, n) (unrollings (iq_word iq)) -> ~ In d ir;
  pm_sizes : forall d n, In (d, n) (unrollings (iq_word iq) ++ unrollings (iq_bit iq)) -> (1 <= n)%Q }.

(** It fits the array. *)
Definition within_array (iq : imc_request) : Prop :=
  (Qceiling (times_unrolled (iq_bit iq)) <= im_bitline (iq_array iq))%Z /\ (times_unrolled (iq_word iq) <= inject_Z (im_wordline (iq_array iq)))%Q.
Definition fills_array (iq : imc_request) : Prop :=
  Qceiling (times_unrolled (iq_bit iq)) = im_bitline (iq_array iq) /\ (times_unrolled (iq_word iq) == inject_Z (im_wordline (iq_array iq)))%Q.
(** How often the array is activated: every operation takes part once. *)
Definition activations (iq : imc_request) : Q :=
  (inject_Z (rq_macs (iq_request iq)) / (times_unrolled (iq_word iq) * times_unrolled (iq_bit iq)))%Q.
