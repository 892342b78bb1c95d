(** Independent vocabulary for graphs (C30, C31, C43, C44). *)
From Verif Require Import Base Model_Graph.

Section Spec.
  Context {A : Type} `{EqB A}.

  (** Nodes and edges are listed once, edges connect nodes. *)
  Definition graph_ok (g : graph A) : Prop :=
    NoDup (g_nodes g) /\ NoDup (g_edges g) /\ forall u v, In (u, v) (g_edges g) -> In u (g_nodes g) /\ In v (g_nodes g).

  (** One or more edges lead from [u] to [v]. *)
  Inductive path (g : graph A) : A -> A -> Prop :=
  | path_one u v : In (u, v) (g_edges g) -> path g u v
  | path_more u v w : In (u, v) (g_edges g) -> path g v w -> path g u w.
  Definition acyclic (g : graph A) : Prop := forall u, ~ path g u u.

  (** [u] comes before [v]. *)
  Definition before (l : list A) (u v : A) : Prop := exists l1 l2 l3, l = l1 ++ u :: l2 ++ v :: l3.
  Definition topological_order (g : graph A) (l : list A) : Prop :=
    Permutation l (g_nodes g) /\ forall u v, In (u, v) (g_edges g) -> before l u v.
  (** Edges go up. *)
  Definition ranked (g : graph A) : Prop := exists r : A -> nat, forall u v, In (u, v) (g_edges g) -> (r u < r v)%nat.
End Spec.
