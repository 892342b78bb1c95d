(** Independent vocabulary for workloads (C43, C44, C63). *)
From Verif Require Import Base Model_Graph Spec_Graph Model_Workload.
Local Open Scope list_scope.

(** [v] is reached from [u] by one edge, or by edges through dummy nodes only. *)
Inductive through {A} (dummy : A -> bool) (g : graph A) : A -> A -> Prop :=
| through_one u v : In (u, v) (g_edges g) -> through dummy g u v
| through_more u d v : In (u, d) (g_edges g) -> dummy d = true -> through dummy g d v -> through dummy g u v.

(** Layer [v] names the identifier of layer [u] as the source of an operand; [u] is the last layer
    with this identifier before [v]. *)
Definition names (ls : list layerspec) (u v : nat) : Prop :=
  exists lu lv op, nth_error ls u = Some lu /\ nth_error ls v = Some lv /\ (u < v)%nat /\
    In (op, ls_id lu) (ls_source lv) /\ ls_id lu <> ls_id lv /\
    forall w lw, (u < w < v)%nat -> nth_error ls w = Some lw -> ls_id lw <> ls_id lu.
(** Sources are the layer itself or earlier layers. *)
Definition sources_earlier (ls : list layerspec) : Prop :=
  forall v lv op s, nth_error ls v = Some lv -> In (op, s) (ls_source lv) -> s <> ls_id lv ->
    exists u lu, (u < v)%nat /\ nth_error ls u = Some lu /\ ls_id lu = s.

(** A tensor that ONNX node [u] produces is an input of node [v]. *)
Definition feeds (ns : list onnxnode) (u v : nat) : Prop :=
  exists nu nv t, nth_error ns u = Some nu /\ nth_error ns v = Some nv /\ In t (on_outputs nu) /\ In t (on_inputs nv).
(** The nodes that feed [v], one for each input. *)
Definition feeding (ns : list onnxnode) (v : nat) : list nat :=
  match nth_error ns v with
  | None => []
  | Some nv => flat_map (fun t => filter (fun u => match nth_error ns u with Some nu => memb t (on_outputs nu) | None => false end) (seq 0 (length ns))) (on_inputs nv)
  end.
(** The nodes of a model are in an order in which they can be executed, as the ONNX standard demands. *)
Definition executable (ns : list onnxnode) : Prop := forall u v, feeds ns u v -> (u < v)%nat.
(** A chain of tensors, each produced from the one before *)
Inductive depends (ns : list onnxnode) : nat -> nat -> Prop :=
| depends_one u v : feeds ns u v -> depends ns u v
| depends_more u v w : feeds ns u v -> depends ns v w -> depends ns u w.
