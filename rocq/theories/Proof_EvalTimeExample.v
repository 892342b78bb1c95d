(** Examples for C78: the convolution on an accelerator whose weights come over a narrow port. *)
From Coq Require Import QArith Lia.
From Verif Require Import Base Model_Alloc Model_DataMove Model_Links Model_Hierarchy Model_Latency Model_Evaluate
  Spec_Alloc Spec_Mapping Spec_Hierarchy Spec_Evaluate Spec_EvalEnergy Spec_EvalTime Proof_MappingExample Proof_EvalExample Proof_EvalEnergyExample.
Open Scope string_scope.
Open Scope list_scope.
Open Scope Z_scope.

Definition narrow_external : memspec :=
  mkMemspec 4096 20 40 ["I1"; "I2"; "O"]
    [mem_port "r_port_1" PRead "I1" "tl"; mkPortspec "r_port_2" PRead 1 1 [("I2", "tl")]; mem_port "r_port_3" PRead "O" "tl"; mem_port "w_port_1" PWrite "O" "fl"] [].
Definition narrow_accelerator : list memspec := [ex_register "I1" false; ex_register "I2" false; ex_register "O" true; narrow_external].
Definition narrow_request : request := ex_request_on narrow_accelerator 1.

Lemma narrow_hardware : sound_hardware narrow_request 0 narrow_accelerator.
Proof.
  constructor; cbn [narrow_request ex_request_on rq_hierarchy rq_links].
  - vm_compute; reflexivity.
  - split; intros m Im; pick_in Im; cbn; nd.
  - assert (Hh : forall i l, nth_error (h_list (built narrow_accelerator)) i = Some l -> height l = if (i <? 3)%nat then 0%nat else 1%nat).
    { intros i l El. vm_compute in El; do 4 (destruct i as [|i]; [injection El as <-; reflexivity|]); destruct i; discriminate. }
    intros op i j li lj L Ei Ej _ _. rewrite (Hh i li Ei), (Hh j lj Ej). destruct (Nat.ltb_spec i 3), (Nat.ltb_spec j 3); lia.
  - intros m Im. pick_in Im; cbn; lia.
  - intros m p Im Ip. pick_in Im; pick_in Ip; cbn; lia.
  - intros m mem_op Im Io. assert (Q : mem_op = "I1" \/ mem_op = "I2" \/ mem_op = "O") by (pick_in Im; pick_in Io; tauto).
    destruct Q as [-> | [-> | ->]]; [exists "I"|exists "W"|exists "O"]; reflexivity.
  - intros i m op mem_op k Em Io Hl Hn. apply moved_find. unfold needed in Hn. cbn [narrow_request ex_request_on rq_inputs rq_out] in Hn. apply ex_links_in in Hl.
    assert (Top : i = 3%nat -> ~ exists j m', (i < j)%nat /\ nth_error narrow_accelerator j = Some m' /\ In mem_op (ms_operands m')).
    { intros -> (j & m' & L & Ej & _). do 4 (destruct j as [|j]; [lia|]). destruct j; discriminate Ej. }
    (do 4 (destruct i as [|i]; [injection Em as <-; pick_in Io; destruct Hl as [(-> & Q)|[(-> & Q)|(-> & Q)]]; try discriminate Q;
      destruct k; try (eexists; vm_compute; reflexivity); exfalso; cbn in Hn; specialize (Top ltac:(lia || reflexivity)) || clear Top; intuition discriminate|])); destruct i; discriminate Em.
Qed.

Lemma narrow_valid : valid_request narrow_request.
Proof.
  assert (SF : spatial_fits narrow_request ex_spatial).
  { constructor; cbn [narrow_request ex_request_on rq_temporal rq_ops].
    - intros op tm H. exact (ex_fits narrow_accelerator op tm H).
    - intros op op' su su' I I' H H'. pick_in I; pick_in I'; injection H as <-; injection H' as <-; reflexivity. }
  constructor.
  - exists 0%nat, narrow_accelerator. exact narrow_hardware.
  - constructor; cbn [narrow_request ex_request_on rq_links rq_ops rq_out rq_inputs rq_pr rq_r rq_layer rq_macs rq_size_out].
    + exists [("I", "I1"); ("W", "I2"); ("O", "O")]. split; [cbn; nd|reflexivity].
    + intros op. cbn. intuition.
    + split; [nd|]. split; [nd|cbn; nd].
    + intros op [<-|[]]. split; [now left|discriminate].
    + split; [discriminate|]. intros op [<-|[<-|[]]]; [exists "I1"|exists "I2"]; (split; [reflexivity|tauto]).
    + exists "O". split; [reflexivity|]. split; discriminate.
    + apply ex_derived; lia.
    + split; [cbn; lia|]. intros op I. pick_in I; (eexists; split; [reflexivity|lia]).
    + lia.
  - constructor; cbn [narrow_request ex_request_on rq_temporal rq_ops rq_links rq_hierarchy].
    + cbn. nd.
    + intros op. cbn. intuition.
    + exists [("FX", 3); ("OX", 4); ("C", 2)]. split; [intros x I; pick_in I; cbn; lia|]. intros op tm [H|[H|[H|[]]]]; injection H as <- <-; reflexivity.
    + intros op mem_op tm Hl Ht. apply ex_links_in in Hl. destruct Hl as [(-> & ->)|[(-> & ->)|(-> & ->)]]; injection Ht as <-; vm_compute; reflexivity.
  - exact SF.
  - exact SF.
  - cbn. lia.
  - exists 1. split; [reflexivity|lia].
Qed.

Lemma narrow_dedicated : dedicated_ports narrow_accelerator.
Proof.
  intros m p op k op' k' Im (l1 & l2 & E1 & L1 & _) (l3 & l4 & _ & L2 & _). assert (Ip : In p (ms_ports m)) by (rewrite E1; apply in_or_app; right; now left). clear E1. unfold listed in L1, L2.
  pick_in Im; pick_in Ip; cbn in L1, L2; destruct L1 as [L1|[]], L2 as [L2|[]]; injection L1 as <- Q1; injection L2 as <- Q2; (split; [reflexivity|]); destruct k; try discriminate Q1; destruct k'; try discriminate Q2; reflexivity.
Qed.

Lemma narrow_times : whole_time_loops narrow_request.
Proof. exact (ex_whole narrow_accelerator). Qed.
Lemma narrow_inputs : NoDup (rq_inputs narrow_request).
Proof. cbn. nd. Qed.
