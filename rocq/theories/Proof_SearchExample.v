(** Examples for C80: a convolution on registers and an external memory. *)
From Coq Require Import QArith Lia.
From Verif Require Import Base Model_Alloc Model_Loma Model_DataMove Model_Mapping Model_Links Model_Cost Model_Graph Model_Hierarchy Model_Latency Model_Evaluate Model_Engine Model_Cme Model_Search
  Spec_Decouple Spec_SpatialInt Spec_Mapping Spec_Graph Spec_Hierarchy Spec_Evaluate Spec_Search
  Proof_MappingExample Proof_CostExample Proof_EvalExample.
Local Open Scope string_scope.
Local Open Scope list_scope.
Local Open Scope Z_scope.

Definition ex_sizes : list (string * Z) := [("K", 2); ("C", 2); ("OX", 4); ("FX", 3)].

Lemma ex_ready : spatial_ready ex_request ex_spatial.
Proof.
  constructor.
  - intros op mem_op Hl. apply ex_links_in in Hl.
    assert (D : ~ In "K" (keys (l_pr_loop (ex_layer 1 6))) /\ forall p, In p (keys (l_pr_loop (ex_layer 1 6))) -> "K" <> String.append p "_R" /\ "K" <> String.append p "_IR").
    { split; [cbn; intuition discriminate|]. intros p [<-|[]]. split; discriminate. }
    destruct Hl as [(-> & ->)|[(-> & ->)|(-> & ->)]]; (eexists; split; [reflexivity|]; split; [vm_compute; reflexivity|]); intros x r ir Hr Hir Ix;
      injection Hr as <-; injection Hir as <-; destruct Ix as [<-|[]]; (split; [cbn; unfold Qle; cbn; lia|]); (split; [exact D|right; unfold known_dim; cbn; tauto]).
  - intros op op' su su' I I' H H'. pick_in I; pick_in I'; injection H as <-; injection H' as <-; reflexivity.
Qed.

Lemma ex_relevancy rq op : rq_layer rq = ex_layer 1 6 -> rq_r rq = ex_r -> rq_ir rq = ex_ir -> rq_pr rq = ["I"] ->
  In op ["I"; "W"; "O"] -> exists r ir, relevancy_ok rq ex_sizes op r ir.
Proof.
  intros E1 E2 E3 E4. unfold relevancy_ok, loop_dim, known_dim. rewrite E1, E2, E3, E4. clear rq E1 E2 E3 E4.
  assert (D : forall d, In d ["C"; "K"; "FX"; "OX"] -> ~ In d (keys (l_pr_loop (ex_layer 1 6))) /\ forall p, In p (keys (l_pr_loop (ex_layer 1 6))) -> d <> String.append p "_R" /\ d <> String.append p "_IR").
  { intros d Id. split; [pick_in Id; cbn; intuition discriminate|]. intros p [<-|[]]. pick_in Id; split; discriminate. }
  assert (P : exists p da db, In (p, (da, db)) (l_pr_loop (ex_layer 1 6)) /\ da = "OX" /\ db = "FX") by (exists "IX", "OX", "FX"; cbn; tauto).
  intros [<-|[<-|[<-|[]]]]; eexists; eexists; (split; [reflexivity|]; split; [reflexivity|]; split; [nd|]; split; [reflexivity|]; split; [reflexivity|]; split; [cbn; tauto|]).
  - split; [cbn; intuition (subst; discriminate)|]. split; [intros d Id; apply D; cbn in *; tauto|]. split.
    + intros _ d x p Id (da & db & Ip & Q). destruct Ip as [Ip|[]]. injection Ip as <- <- <-. cbn in Id. intros <-. destruct Q as [Q|Q]; rewrite Q in Id; intuition discriminate.
    + intros d n In'. apply (List.in_map fst) in In'. rename In' into Id. cbn [fst] in Id. split; [apply D; cbn in *; tauto|]. right. cbn in Id.
      destruct Id as [<-|[<-|[Q|[Q|[]]]]]; [right; left; cbn; tauto|left; cbn; tauto| |]; right; right; (split; [now left|]); destruct P as (p & da & db & Ip & -> & ->); exists p, "OX", "FX"; (split; [exact Ip|auto]).
  - split; [cbn; intuition (subst; discriminate)|]. split; [intros d Id; apply D; cbn in *; tauto|]. split; [intros [Q|[]]; discriminate|].
    intros d n In'. apply (List.in_map fst) in In'. rename In' into Id. cbn [fst] in Id. split; [apply D; cbn in *; tauto|]. right. cbn in *. tauto.
  - split; [cbn; intuition (subst; discriminate)|]. split; [intros d Id; apply D; cbn in *; tauto|]. split; [intros [Q|[]]; discriminate|].
    intros d n In'. apply (List.in_map fst) in In'. rename In' into Id. cbn [fst] in Id. split; [apply D; cbn in *; tauto|]. right. cbn in *. tauto.
Qed.

Lemma ex_searchable : searchable ex_request ex_sizes 0 ex_accelerator.
Proof.
  constructor.
  - exact (ex_hardware ex_accelerator (or_introl eq_refl)).
  - exact (vr_layer _ (ex_valid ex_accelerator (or_introl eq_refl))).
  - reflexivity.
  - split; [discriminate|]. split; [cbn; nd|]. intros d n [H|[H|[H|[H|[]]]]]; injection H as <- <-; lia.
  - intros op Io. now apply ex_relevancy.
  - intros op mem_op Hl. apply ex_links_in in Hl. exists ex_external. split; [cbn; tauto|]. destruct Hl as [(_ & ->)|[(_ & ->)|(_ & ->)]]; cbn; tauto.
  - exact ex_ready.
  - exact ex_ready.
  - cbn. lia.
  - exists 1. split; [reflexivity|lia].
Qed.

(** * Registers of one word below a chain of buffers with shared ports *)
Definition with_size (n : Z) (m : memspec) : memspec := mkMemspec n (ms_r_cost m) (ms_w_cost m) (ms_operands m) (ms_ports m) (ms_served m).
Definition small_accelerator (ws : list Z) : list memspec :=
  [with_size 8 (ex_register "I1" false); with_size 8 (ex_register "I2" false); with_size 16 (ex_register "O" true)] ++ chain_above true 8 ws.
Definition small_request (ws : list Z) : request :=
  mkRequest (ex_layer 1 6) ex_r ex_ir ["I"] ["I"; "W"; "O"] ["I"; "W"] "O" 48 8 ex_links (built (small_accelerator ws)) 1 (1 # 10) 1 false
    (chain_spatial (length ws)) (chain_spatial (length ws)) [].

Lemma small_hardware ws : ws = zero_widths \/ ws = negative_widths -> sound_hardware (small_request ws) 0 (small_accelerator ws).
Proof.
  intros Hws. constructor; cbn [small_request rq_hierarchy rq_links].
  - destruct Hws as [-> | ->]; vm_compute; reflexivity.
  - split; intros m Im; destruct Hws as [-> | ->]; pick_in Im; cbn; nd.
  - assert (Hh : forall i l, nth_error (h_list (built (small_accelerator ws))) i = Some l -> height l = (i - 2)%nat).
    { intros i l El. destruct Hws as [-> | ->]; vm_compute in El; do 10 (destruct i as [|i]; [first [injection El as <-; reflexivity|discriminate El]|]); destruct i; discriminate. }
    intros op i j li lj L Ei Ej _ _. rewrite (Hh i li Ei), (Hh j lj Ej). lia.
  - intros m Im. destruct Hws as [-> | ->]; pick_in Im; cbn; lia.
  - intros m p Im Ip. destruct Hws as [-> | ->]; pick_in Im; pick_in Ip; cbn; lia.
  - intros m mem_op Im Io. assert (Q : mem_op = "I1" \/ mem_op = "I2" \/ mem_op = "O") by (destruct Hws as [-> | ->]; pick_in Im; pick_in Io; tauto).
    destruct Q as [-> | [-> | ->]]; [exists "I"|exists "W"|exists "O"]; reflexivity.
  - intros i m op mem_op k Em Io Hl Hn. apply moved_find. unfold needed in Hn. cbn [small_request rq_inputs rq_out] in Hn. apply ex_links_in in Hl.
    assert (Top : S i = length (small_accelerator ws) -> ~ exists j m', (i < j)%nat /\ nth_error (small_accelerator ws) j = Some m' /\ In mem_op (ms_operands m')).
    { intros Q (j & m' & L & Ej & _). assert (j < length (small_accelerator ws))%nat by (apply nth_error_Some; congruence). lia. }
    destruct Hws as [-> | ->]; (do 10 (destruct i as [|i]; [first [discriminate Em|injection Em as <-]; pick_in Io; destruct Hl as [(-> & Q)|[(-> & Q)|(-> & Q)]]; try discriminate Q;
      destruct k; try (eexists; vm_compute; reflexivity); exfalso; cbn in Hn; specialize (Top ltac:(lia || reflexivity)) || clear Top; intuition discriminate|])); destruct i; discriminate Em.
Qed.

Lemma small_ready ws : ws = zero_widths \/ ws = negative_widths -> spatial_ready (small_request ws) (chain_spatial (length ws)).
Proof.
  intros Hws. constructor.
  - intros op mem_op Hl. apply ex_links_in in Hl. destruct Hl as [(-> & ->)|[(-> & ->)|(-> & ->)]]; (eexists; split; [reflexivity|]; split; [destruct Hws as [-> | ->]; vm_compute; reflexivity|]);
      intros x r ir _ _ Ix; exfalso; destruct Hws as [-> | ->]; cbn in Ix; exact Ix.
  - intros op op' su su' I I' H H'. pick_in I; pick_in I'; injection H as <-; injection H' as <-; destruct Hws as [-> | ->]; reflexivity.
Qed.

Lemma small_searchable ws : ws = zero_widths \/ ws = negative_widths -> searchable (small_request ws) ex_sizes 0 (small_accelerator ws).
Proof.
  intros Hws. constructor.
  - exact (small_hardware ws Hws).
  - destruct (vr_layer _ (ex_valid ex_accelerator (or_introl eq_refl))). constructor; assumption.
  - reflexivity.
  - split; [discriminate|]. split; [cbn; nd|]. intros d n [H|[H|[H|[H|[]]]]]; injection H as <- <-; lia.
  - intros op Io. now apply ex_relevancy.
  - intros op mem_op Hl. apply ex_links_in in Hl. exists (last (small_accelerator ws) ex_external). split; [destruct Hws as [-> | ->]; cbn; tauto|].
    destruct Hws as [-> | ->], Hl as [(_ & ->)|[(_ & ->)|(_ & ->)]]; cbn; tauto.
  - exact (small_ready ws Hws).
  - exact (small_ready ws Hws).
  - cbn. lia.
  - exists 1. split; [reflexivity|lia].
Qed.
