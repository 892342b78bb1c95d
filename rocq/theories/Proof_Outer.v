(** Outer memories and numbers of instances (C30). *)
From Coq Require Import QArith.
From Verif Require Import Base Model_DataMove Model_Cost Model_Graph Model_Hierarchy Spec_Graph Spec_Hierarchy.
From Verif Require Import Proof_Graph Proof_Hierarchy.
Local Open Scope string_scope.
Local Open Scope list_scope.
Local Open Scope nat_scope.

Lemma out_degree_0 {A} `{EqB A} (g : graph A) u : out_degree g u = 0 <-> forall v, ~ In (u, v) (g_edges g).
Proof.
  unfold out_degree, successors. rewrite map_length, length_zero_iff_nil. split.
  - intros E v I. assert (X : In (u, v) (filter (fun e => eqb u (fst e)) (g_edges g))) by (apply filter_In; split; [exact I|apply eqb_refl]).
    now rewrite E in X.
  - intros N. destruct (filter _ _) as [|[a b] l] eqn:E; [reflexivity|]. exfalso.
    assert (X : In (a, b) (filter (fun e => eqb u (fst e)) (g_edges g))) by (rewrite E; now left).
    apply filter_In in X. destruct X as (X & Q). cbn [fst] in Q. destruct (eqb_spec u a); [subst; exact (N b X)|discriminate].
Qed.

Lemma first_exists {A} (P : A -> bool) (l : list A) j x : nth_error l j = Some x -> P x = true ->
  forall i, i <= j -> exists v y, i <= v /\ nth_error l v = Some y /\ P y = true /\ forall w z, i <= w < v -> nth_error l w = Some z -> P z = false.
Proof.
  intros Ej Pj i Lij. remember (j - i) as n eqn:En. revert i Lij En. induction n as [|n IH]; intros i Lij En.
  - assert (j = i) by lia. subst j. exists i, x. split; [lia|]. split; [exact Ej|]. split; [exact Pj|]. intros w z L. lia.
  - destruct (nth_error l i) as [y|] eqn:Ei.
    + destruct (P y) eqn:Py.
      * exists i, y. split; [lia|]. split; [exact Ei|]. split; [exact Py|]. intros w z L. lia.
      * destruct (IH (S i)) as (v & z & L & E & Pz & F); [lia|lia|]. exists v, z. split; [lia|]. split; [exact E|]. split; [exact Pz|].
        intros w q Lw Ew. destruct (Nat.eq_dec w i) as [->|N]; [congruence|]. apply (F w q); [lia|exact Ew].
    + apply nth_error_None in Ei. assert (j < length l) by (apply nth_error_Some; congruence). lia.
Qed.

(** Memories after which no memory stores any of their operands are outer ones, and they
    are the only ones when heights do not go down. *)
Lemma outer_spec k ms h i l : build k ms = Ok h -> nth_error (h_list h) i = Some l ->
  ((forall op j l', i < j -> nth_error (h_list h) j = Some l' -> stores op l -> ~ stores op l') -> In l (get_outer_memories h)) /\
  (heights_grow h -> In l (get_outer_memories h) -> forall op j l', i < j -> nth_error (h_list h) j = Some l' -> stores op l -> ~ stores op l').
Proof.
  intros E Ei. destruct (build_inv k ms h E) as (I & _). unfold get_outer_memories. rewrite In_pick. split.
  - intros N. exists i. split; [|exact Ei]. apply filter_In. split.
    + rewrite (hi_nodes h I). apply in_seq. assert (i < length (h_list h)) by (apply nth_error_Some; congruence). lia.
    + apply Nat.eqb_eq. apply out_degree_0. intros v Q. apply (hi_edges h I) in Q. destruct Q as (lu & lv & op & Eu & Ev & L & Su & Sv & _).
      rewrite Ei in Eu. injection Eu as <-. exact (N op v lv L Ev Su Sv).
  - intros G (i' & Ii & Ei') op j l' L Ej S S'.
    assert (i' = i) by (apply (hi_ids h I) in Ei, Ei'; congruence). subst i'.
    apply filter_In in Ii. destruct Ii as (_ & D). apply Nat.eqb_eq in D. rewrite out_degree_0 in D.
    destruct (first_exists (holds op) (h_list h) j l' Ej (proj2 (holds_stores op l') S') (Datatypes.S i)) as (v & y & Lv & Ev & Pv & F); [lia|].
    apply (D v). apply (hi_edges h I). exists l, y, op. split; [exact Ei|]. split; [exact Ev|]. split; [lia|]. split; [exact S|].
    split; [now apply holds_stores|]. intros w lw Lw Ew Sw. destruct (Nat.lt_trichotomy w i) as [A|[A|A]].
    + exact (G op w i lw l A Ew Ei Sw S).
    + subst w. rewrite Ei in Ew. injection Ew as <-. lia.
    + apply holds_stores in Sw. rewrite (F w lw) in Sw; [discriminate|lia|exact Ew].
Qed.

(** Instances times the units each serves are all units. *)
Lemma instances_cover oa l :
  (unroll_count oa l * zprod (map snd (filter (fun x => memb (fst x) (lv_served l)) oa)) = zprod (map snd oa))%Z.
Proof.
  unfold unroll_count. induction oa as [|[d n] oa IH]; [reflexivity|]. cbn [filter fst map snd].
  rewrite (zprod_cons n (map snd oa)), <- IH. destruct (memb d (lv_served l)); cbn [negb map snd]; rewrite zprod_cons; ring.
Qed.
