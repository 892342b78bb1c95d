(** C76: reading of workload descriptions. *)
From Verif Require Import Base Model_Text Model_Graph Model_Layer Model_MapFile Model_Workload Model_WorkFile Shipped_Workload
  Spec_Layer Spec_MapFile Spec_Workload Spec_WorkFile Proof_Elements Proof_WorkFile Proof_WorkFileExample.
Open Scope string_scope.
Open Scope list_scope.
Open Scope Z_scope.

(** Exactly the descriptions in which every layer is proper are accepted, and read as written; others are
    refused, with a [TypeError] when paddings or sizes are given for dimensions that are not named. *)
Theorem C76_accepted :
  forall file,
  ((exists data, parse_workload_data file = Ok data) <-> forall r, In r file -> proper_layer r) /\
  (forall data, parse_workload_data file = Ok data -> Forall2 layer_read file data) /\
  (forall e, parse_workload_data file = Err e <->
     (e = TypeError /\ exists r, In r file /\ unnamed_dims r) \/
     (e = ValueError /\ (forall r, In r file -> ~ unnamed_dims r) /\ exists r, In r file /\ ~ proper_layer r)).
Proof. exact accepted_files. Qed.
Print Assumptions C76_accepted.

(** A workload of proper and sensible layers, whose sources are earlier layers, is built with any
    accepted mapping, every layer as written and one edge per use of an earlier layer. *)
Theorem C76_built :
  forall order mapping file (m : list (written_equation * list written_relation * list (string * Z))),
  (forall l, Permutation (order l) l) -> proper_file mapping -> (exists data, parse_mapping mapping = Ok data) ->
  (forall r, In r file -> proper_layer r) ->
  Forall2 (fun r x => sensible_layer r (fst (fst x)) (snd (fst x)) (snd x)) file m ->
  sources_earlier (described file) ->
  exists ls g, parse_workload order file mapping = Ok (ls, g) /\
    (forall i r x, nth_error file i = Some r -> nth_error m i = Some x ->
       exists l, nth_error ls i = Some l /\ layer_as order mapping r (fst (fst x)) (snd (fst x)) (snd x) l) /\
    length ls = length file /\ g_nodes g = seq 0 (length file) /\
    forall u v, In (u, v) (g_edges g) <-> names (described file) u v.
Proof. exact workload_built. Qed.
Print Assumptions C76_built.

(** Both workloads that come with the project are built with every mapping that comes with it. *)
Theorem C76_shipped :
  forall order file mapping, (forall l, Permutation (order l) l) -> In file shipped_workloads -> In mapping shipped_mappings ->
  exists ls g, parse_workload order file mapping = Ok (ls, g) /\ length ls = length file /\
    (forall i r l, nth_error file i = Some r -> nth_error ls i = Some l ->
       exists e ws loops, sensible_layer r e ws loops /\ layer_as order mapping r e ws loops l) /\
    forall u v, In (u, v) (g_edges g) <-> names (described file) u v.
Proof. exact shipped_built. Qed.
Print Assumptions C76_shipped.

(** Being accepted is not enough to be built: fields that are required may be missing, and more. *)
Theorem C76_accepted_fails_refuted :
  forall r e, In (r, e) missing_parts -> proper_layer r /\ parse_workload same_order [r] default_mapping = Err e.
Proof.
  intros r e I. cbn [missing_parts In] in I.
  repeat (destruct I as [I|I]; [injection I as <- <-; split; [apply proper_iff; split; vm_compute; reflexivity|vm_compute; reflexivity]|]). destruct I.
Qed.
Print Assumptions C76_accepted_fails_refuted.

(** A negative size is accepted and built: the layer has a negative number of operations. *)
Theorem C76_positive_refuted :
  let r := odd_layer gemm_text None (Some ["D0"; "D1"; "D2"]) (Some [-4; 4; 4]) in
  proper_layer r /\ exists l g, parse_workload same_order [r] default_mapping = Ok ([l], g) /\ ln_macs (bl_node l) = -64.
Proof. split; [apply proper_iff; split; vm_compute; reflexivity|]. do 2 eexists. split; vm_compute; reflexivity. Qed.
Print Assumptions C76_positive_refuted.

(** Sizes in excess, and the first of two sizes of one loop, are overlooked. *)
Theorem C76_sizes_refuted :
  let r := odd_layer gemm_text None (Some ["D0"; "D1"; "D2"; "D1"]) (Some [4; 5; 6; 7; 8]) in
  proper_layer r /\ exists l g, parse_workload same_order [r] default_mapping = Ok ([l], g) /\ ln_sizes (bl_node l) = [("D0", 4); ("D1", 7); ("D2", 6)].
Proof. split; [apply proper_iff; split; vm_compute; reflexivity|]. do 2 eexists. split; vm_compute; reflexivity. Qed.
Print Assumptions C76_sizes_refuted.

Example C76_met : proper_layer ex_raw /\ sensible_layer ex_raw ex_we ex_ws ex_loops /\
  parse_workload_data [ex_raw] = Ok [normalise_layer ex_raw] /\
  (exists l g, parse_workload same_order [ex_raw] default_mapping = Ok ([l], g) /\ bl_name l = "Layer3" /\ ln_macs (bl_node l) = 36864) /\
  (exists l g, parse_workload same_order resnet18 tpu_like_mapping = Ok (l, g) /\ length l = 31%nat /\ In (1, 4)%nat (g_edges g)).
Proof.
  split; [exact ex_proper|]. split; [exact ex_sensible|]. split; [vm_compute; reflexivity|]. split.
  - do 2 eexists. split; [vm_compute; reflexivity|]. split; vm_compute; reflexivity.
  - do 2 eexists. split; [vm_compute; reflexivity|]. split; [vm_compute; reflexivity|]. vm_compute. tauto.
Qed.
