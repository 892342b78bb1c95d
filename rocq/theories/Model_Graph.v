(** Model of the directed graphs that hierarchies and workloads are, zigzag/utils.py:84-200
    ([DiGraphWrapper]).  The wrapped class is networkx's [DiGraph], which is not part of the
    repository; its documented behaviour is modelled: nodes and edges are kept in insertion
    order, adding one that exists does nothing, [topological_sort] is Kahn's algorithm. *)
From Verif Require Import Base.
Local Open Scope result_scope.

Section Graph.
  Context {A : Type} `{EqB A}.

  Record graph := mkGraph { g_nodes : list A; g_edges : list (A * A) }.
  Definition no_graph : graph := mkGraph [] [].

  Definition edge_eqb (e e' : A * A) : bool := eqb (fst e) (fst e') && eqb (snd e) (snd e').
  (** [add_node], utils.py:157-158 *)
  Definition add_node (x : A) (g : graph) : graph :=
    if memb x (g_nodes g) then g else mkGraph (g_nodes g ++ [x]) (g_edges g).
  (** [add_edge], utils.py:166-167; missing nodes are added *)
  Definition add_edge (u v : A) (g : graph) : graph :=
    let g := add_node v (add_node u g) in
    if existsb (edge_eqb (u, v)) (g_edges g) then g else mkGraph (g_nodes g) (g_edges g ++ [(u, v)]).
  (** [add_edges_from], utils.py:169-173 *)
  Definition add_edges_from (es : list (A * A)) (g : graph) : graph :=
    fold_left (fun g e => add_edge (fst e) (snd e) g) es g.
  (** [remove_nodes_from], utils.py:163-164 *)
  Definition remove_nodes_from (xs : list A) (g : graph) : graph :=
    mkGraph (filter (fun x => negb (memb x xs)) (g_nodes g))
      (filter (fun e => negb (memb (fst e) xs) && negb (memb (snd e) xs)) (g_edges g)).
  (** [successors] and [predecessors], utils.py:147-151 *)
  Definition successors (g : graph) (u : A) : list A := map snd (filter (fun e => eqb u (fst e)) (g_edges g)).
  Definition predecessors (g : graph) (v : A) : list A := map fst (filter (fun e => eqb v (snd e)) (g_edges g)).
  (** [in_degree] and [out_degree] of a node, utils.py:128-145 *)
  Definition in_degree (g : graph) (v : A) : nat := length (predecessors g v).
  Definition out_degree (g : graph) (u : A) : nat := length (successors g u).

  (** [topological_sort], utils.py:153-155.  networkx keeps the in-degrees that are not zero
      and a list of the nodes that are ready; visiting a node lowers the in-degrees of its
      successors, and those that reach zero become ready.  Generation by generation is the
      same as first in, first out.  What is left over raises NetworkXUnfeasible (here
      [ValueError]); a missing in-degree RuntimeError. *)
  Fixpoint visit (children : list A) (ind : dict A nat) (ready : list A) : result (dict A nat * list A) :=
    match children with
    | [] => Ok (ind, ready)
    | c :: cs =>
        match dget c ind with
        | None => Err RuntimeError
        | Some d => if Nat.leb d 1 then visit cs (ddel c ind) (ready ++ [c]) else visit cs (dset c (d - 1)%nat ind) ready
        end
    end.
  Fixpoint kahn (g : graph) (fuel : nat) (ready : list A) (ind : dict A nat) (out : list A) : result (list A) :=
    match ready with
    | [] => match ind with [] => Ok out | _ => Err ValueError end
    | u :: q =>
        match fuel with
        | O => Err OutOfFuel
        | S fuel' => '(ind', new) <- visit (successors g u) ind [] ;; kahn g fuel' (q ++ new) ind' (out ++ [u])
        end
    end.
  Definition topological_sort (g : graph) : result (list A) :=
    let degrees := map (fun v => (v, in_degree g v)) (g_nodes g) in
    kahn g (length (g_nodes g))
      (map fst (filter (fun x => Nat.eqb (snd x) 0) degrees))
      (filter (fun x => Nat.ltb 0 (snd x)) degrees) [].
End Graph.
Arguments graph : clear implicits.
