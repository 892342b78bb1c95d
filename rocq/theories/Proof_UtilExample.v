(** Examples for C81. *)
From Coq Require Import QArith Lia.
From Verif Require Import Base Model_Alloc Model_Loma Model_DataMove Model_Mapping Model_Links Model_Cost Model_Hierarchy Model_Evaluate Model_Engine Model_Search
  Spec_Mapping Spec_Hierarchy Spec_Evaluate Spec_EvalEnergy Spec_Search Spec_Util Proof_MappingExample Proof_CostExample Proof_EvalExample Proof_SearchExample.
Local Open Scope string_scope.
Local Open Scope list_scope.
Local Open Scope Z_scope.

Lemma ex_unrollings : whole_unrollings ex_request.
Proof. intros op su x Hs Ix. cbn in Hs. repeat (destruct (String.eqb _ _) in Hs; [injection Hs as <-; destruct Ix as [<-|[]]; now exists 2|]). discriminate Hs. Qed.
Lemma ex_final : final_smaller ex_request.
Proof. intros full H. injection H as <-. cbn. lia. Qed.

(** Final outputs of 48 bits, partial sums of 16 *)
Definition with_final (f : Z) (ly : layer) : layer :=
  mkLayer (l_links ly) (l_precision ly) f (l_r_or_pr ly) (l_ir ly) (l_pr_loop ly) (l_pr_scaling ly) (l_pr_sizes ly) (l_dims ly).
Definition final_bits (f : Z) (rq : request) : request :=
  mkRequest (with_final f (rq_layer rq)) (rq_r rq) (rq_ir rq) (rq_pr rq) (rq_ops rq) (rq_inputs rq) (rq_out rq) (rq_macs rq) (rq_size_out rq) (rq_links rq)
    (rq_hierarchy rq) (rq_units rq) (rq_mac_cost rq) (rq_cpo rq) (rq_free rq) (rq_spatial rq) (rq_spatial_int rq) (rq_temporal rq).
Definition wide_request : request := final_bits 48 ex_request.

Lemma final_searchable f rq sizes pc ms : 0 <= f -> searchable rq sizes pc ms -> searchable (final_bits f rq) sizes pc ms.
Proof.
  intros Hf R. constructor.
  - destruct (se_hardware _ _ _ _ R). constructor; assumption.
  - destruct (se_layer _ _ _ _ R) as [A1 A2 A3 A4 A5 A6 A7 A8 A9]. constructor; try assumption; [|split; [exact Hf|exact (proj2 A8)]]. destruct A7. constructor; assumption.
  - exact (se_links _ _ _ _ R).
  - exact (se_sizes _ _ _ _ R).
  - exact (se_relevancy _ _ _ _ R).
  - exact (se_stored _ _ _ _ R).
  - destruct (se_spatial _ _ _ _ R). constructor; assumption.
  - destruct (se_spatial_int _ _ _ _ R). constructor; assumption.
  - exact (se_units _ _ _ _ R).
  - exact (se_cycles _ _ _ _ R).
Qed.
Lemma wide_searchable : searchable wide_request ex_sizes 0 ex_accelerator.
Proof. apply final_searchable; [lia|exact ex_searchable]. Qed.
Lemma wide_unrollings : whole_unrollings wide_request.
Proof. exact ex_unrollings. Qed.

(** The utilisation of one mapping *)
Definition utilisations (rq : request) (tm : dict string (list (list tloop))) : result (dict string (list Q) * dict string (list Q)) :=
  rbind (prepare (with_temporal rq tm) 100) (fun ci => rbind (individual ci od_bit_unrolled) (fun ind => rbind (Model_Cost.shared ci ind) (fun sh => Ok (ind, sh)))).
