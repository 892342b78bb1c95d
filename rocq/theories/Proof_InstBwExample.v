(** Examples for C79. *)
From Coq Require Import QArith Lia.
From Verif Require Import Base Model_Alloc Model_Temporal Model_DataMove Model_Mapping Model_Links Model_Hierarchy Model_Latency Model_Evaluate Model_InstBw
  Spec_Alloc Spec_Mapping Spec_Hierarchy Spec_Evaluate Spec_EvalEnergy Spec_EvalTime Proof_CostExample Proof_MappingExample Proof_EvalExample Proof_EvalEnergyExample Proof_EvalTimeExample Proof_Ports.
Open Scope string_scope.
Open Scope list_scope.
Open Scope Z_scope.

(** * Partial sums of 16 bits that leave their register over a port of 15 *)
Definition odd_register : memspec :=
  mkMemspec 16 1 2 ["O"] [mem_port "r_port_1" PRead "O" "tl"; mem_port "w_port_1" PWrite "O" "fh"; mkPortspec "r_port_2" PRead 15 15 [("O", "th")]; mem_port "w_port_2" PWrite "O" "fl"] [].
Definition odd_accelerator : list memspec := [ex_register "I1" false; ex_register "I2" false; odd_register; ex_external].
Definition odd_request : request := ex_request_on odd_accelerator 1.

Lemma odd_hardware : sound_hardware odd_request 0 odd_accelerator.
Proof.
  constructor; cbn [odd_request ex_request_on rq_hierarchy rq_links].
  - vm_compute; reflexivity.
  - split; intros m Im; pick_in Im; cbn; nd.
  - assert (Hh : forall i l, nth_error (h_list (built odd_accelerator)) i = Some l -> height l = if (i <? 3)%nat then 0%nat else 1%nat).
    { intros i l El. vm_compute in El; do 4 (destruct i as [|i]; [injection El as <-; reflexivity|]); destruct i; discriminate. }
    intros op i j li lj L Ei Ej _ _. rewrite (Hh i li Ei), (Hh j lj Ej). destruct (Nat.ltb_spec i 3), (Nat.ltb_spec j 3); lia.
  - intros m Im. pick_in Im; cbn; lia.
  - intros m p Im Ip. pick_in Im; pick_in Ip; cbn; lia.
  - intros m mem_op Im Io. assert (Q : mem_op = "I1" \/ mem_op = "I2" \/ mem_op = "O") by (pick_in Im; pick_in Io; tauto).
    destruct Q as [-> | [-> | ->]]; [exists "I"|exists "W"|exists "O"]; reflexivity.
  - intros i m op mem_op k Em Io Hl Hn. apply moved_find. unfold needed in Hn. cbn [odd_request ex_request_on rq_inputs rq_out] in Hn. apply ex_links_in in Hl.
    assert (Top : i = 3%nat -> ~ exists j m', (i < j)%nat /\ nth_error odd_accelerator j = Some m' /\ In mem_op (ms_operands m')).
    { intros -> (j & m' & L & Ej & _). do 4 (destruct j as [|j]; [lia|]). destruct j; discriminate Ej. }
    (do 4 (destruct i as [|i]; [injection Em as <-; pick_in Io; destruct Hl as [(-> & Q)|[(-> & Q)|(-> & Q)]]; try discriminate Q;
      destruct k; try (eexists; vm_compute; reflexivity); exfalso; cbn in Hn; specialize (Top ltac:(lia || reflexivity)) || clear Top; intuition discriminate|])); destruct i; discriminate Em.
Qed.

Lemma odd_valid : valid_request odd_request.
Proof.
  assert (SF : spatial_fits odd_request ex_spatial).
  { constructor; cbn [odd_request ex_request_on rq_temporal rq_ops].
    - intros op tm H. exact (ex_fits odd_accelerator op tm H).
    - intros op op' su su' I I' H H'. pick_in I; pick_in I'; injection H as <-; injection H' as <-; reflexivity. }
  constructor.
  - exists 0%nat, odd_accelerator. exact odd_hardware.
  - constructor; cbn [odd_request ex_request_on rq_links rq_ops rq_out rq_inputs rq_pr rq_r rq_layer rq_macs rq_size_out].
    + exists [("I", "I1"); ("W", "I2"); ("O", "O")]. split; [cbn; nd|reflexivity].
    + intros op. cbn. intuition.
    + split; [nd|]. split; [nd|cbn; nd].
    + intros op [<-|[]]. split; [now left|discriminate].
    + split; [discriminate|]. intros op [<-|[<-|[]]]; [exists "I1"|exists "I2"]; (split; [reflexivity|tauto]).
    + exists "O". split; [reflexivity|]. split; discriminate.
    + apply ex_derived; lia.
    + split; [cbn; lia|]. intros op I. pick_in I; (eexists; split; [reflexivity|lia]).
    + lia.
  - constructor; cbn [odd_request ex_request_on rq_temporal rq_ops rq_links rq_hierarchy].
    + cbn. nd.
    + intros op. cbn. intuition.
    + exists [("FX", 3); ("OX", 4); ("C", 2)]. split; [intros x I; pick_in I; cbn; lia|]. intros op tm [H|[H|[H|[]]]]; injection H as <- <-; reflexivity.
    + intros op mem_op tm Hl Ht. apply ex_links_in in Hl. destruct Hl as [(-> & ->)|[(-> & ->)|(-> & ->)]]; injection Ht as <-; vm_compute; reflexivity.
  - exact SF.
  - exact SF.
  - cbn. lia.
  - exists 1. split; [reflexivity|lia].
Qed.

(** Every port of the accelerator is at least as wide as what is reported for its movement. *)
Definition wide_enough (rq : request) (fuel : nat) (ms : list memspec) : bool :=
  forallb (fun im => forallb (fun p => forallb (fun od =>
      match reported_bandwidth rq fuel (fst im) (fst od) 1 with
      | Ok f => forallb (fun k => negb (listedb (fst od) k (ps_alloc p)) || match dget k f with Some b => b <=? ps_bw_max p | None => false end) directions
      | Err _ => false end) (ps_alloc p)) (ms_ports (snd im))) (combine (seq 0 (length ms)) ms).

(** * Outputs of 16 bits, rounded to 2 when they are final, in a register of four *)
Definition rounded_layer : layer :=
  mkLayer [("I", "I1"); ("W", "I2"); ("O", "O")] [("I", 8); ("W", 8); ("O", 16)] 2
    [("I", ["C"; "IX"]); ("W", ["C"; "K"; "FX"]); ("O", ["K"; "OX"])] [("I", ["K"]); ("W", ["OX"]); ("O", ["C"; "FX"])]
    [("IX", ("OX", "FX"))] [("IX", (1, 1))] [("IX", 6)] ["K"; "C"; "OX"; "FX"].
Definition output_buffer : memspec :=
  mkMemspec 512 5 10 ["O"] [mem_port "r_port_1" PRead "O" "tl"; mem_port "w_port_1" PWrite "O" "fh"; mem_port "r_port_2" PRead "O" "th"; mem_port "w_port_2" PWrite "O" "fl"] [].
Definition rounded_accelerator : list memspec := [ex_register "I1" false; ex_register "I2" false; ex_register "O" true; output_buffer; ex_external].
Definition rounded_loops : list (string * Z) := [("FX", 3); ("OX", 4); ("K", 2); ("C", 2)].
Definition rounded_temporal : dict string tmlevels :=
  [("I", [[("FX", 3); ("OX", 4); ("K", 2)]; [("C", 2)]]); ("W", [[("FX", 3); ("OX", 4)]; [("K", 2); ("C", 2)]]); ("O", [[("FX", 3); ("OX", 4)]; [("K", 2); ("C", 2)]; []])].
Definition rounded_spatial : dict string (list (list (string * Q))) := [("I", [[]; []; []]); ("W", [[]; []; []]); ("O", [[]; []; []; []])].
Definition rounded_request : request :=
  mkRequest rounded_layer ex_r ex_ir ["I"] ["I"; "W"; "O"] ["I"; "W"] "O" 48 8 ex_links (built rounded_accelerator) 1 (1 # 10) 1 false rounded_spatial rounded_spatial rounded_temporal.

Lemma rounded_hardware : sound_hardware rounded_request 0 rounded_accelerator.
Proof.
  constructor; cbn [rounded_request rq_hierarchy rq_links].
  - vm_compute; reflexivity.
  - split; intros m Im; pick_in Im; cbn; nd.
  - assert (Hh : forall i l, nth_error (h_list (built rounded_accelerator)) i = Some l -> height l = (i - 2)%nat).
    { intros i l El. vm_compute in El; do 5 (destruct i as [|i]; [injection El as <-; reflexivity|]); destruct i; discriminate. }
    intros op i j li lj L Ei Ej _ _. rewrite (Hh i li Ei), (Hh j lj Ej). lia.
  - intros m Im. pick_in Im; cbn; lia.
  - intros m p Im Ip. pick_in Im; pick_in Ip; cbn; lia.
  - intros m mem_op Im Io. assert (Q : mem_op = "I1" \/ mem_op = "I2" \/ mem_op = "O") by (pick_in Im; pick_in Io; tauto).
    destruct Q as [-> | [-> | ->]]; [exists "I"|exists "W"|exists "O"]; reflexivity.
  - intros i m op mem_op k Em Io Hl Hn. apply moved_find. unfold needed in Hn. cbn [rounded_request rq_inputs rq_out] in Hn. apply ex_links_in in Hl.
    assert (Top : i = 4%nat -> ~ exists j m', (i < j)%nat /\ nth_error rounded_accelerator j = Some m' /\ In mem_op (ms_operands m')).
    { intros -> (j & m' & L & Ej & _). do 5 (destruct j as [|j]; [lia|]). destruct j; discriminate Ej. }
    (do 5 (destruct i as [|i]; [injection Em as <-; pick_in Io; destruct Hl as [(-> & Q)|[(-> & Q)|(-> & Q)]]; try discriminate Q;
      destruct k; try (eexists; vm_compute; reflexivity); exfalso; cbn in Hn; specialize (Top ltac:(lia || reflexivity)) || clear Top; intuition discriminate|])); destruct i; discriminate Em.
Qed.

Lemma rounded_runs p da db : In (p, (da, db)) (l_pr_loop rounded_layer) -> p = "IX" /\ da = "OX" /\ db = "FX".
Proof. intros [H|[]]; injection H as <- <- <-; tauto. Qed.
Lemma rounded_fits op tm : dget op rounded_temporal = Some tm ->
  exists su, dget op rounded_spatial = Some su /\ Spec_Evaluate.fits rounded_request op su tm.
Proof.
  intros H. apply dget_In in H. destruct H as [H|[H|[H|[]]]]; injection H as <- <-; (eexists; split; [reflexivity|]);
    (eexists (mkOpinput _ (ex_counts "I") _ 1 [] [] []); split; [reflexivity|]; split; [reflexivity|]).
  all: split;
      [split; [reflexivity|discriminate]
      |eexists _, _; split; [reflexivity|]; split; [reflexivity|]; split; [nd|];
       split; [reflexivity|]; split; [intros d Hd Hd'; cbn in Hd, Hd'; intuition (subst; discriminate)|];
       split; [intros d Hd; cbn in Hd; split; [cbn; intuition (subst; discriminate)|
         intros p [<-|[]]; intuition (subst; discriminate)]|]; split;
       [intros Hp d x p Hd (da & db & Hx & E); apply rounded_runs in Hx; cbn in Hp, Hd; intuition (subst; try discriminate; congruence)|
        intros x Hx; cbn in Hx; repeat (destruct Hx as [<-|Hx]; [cbn; try (right; (tauto || (right; right; split; [tauto|exists "IX"; exists "OX", "FX"; cbn; tauto])))|]); destruct Hx]
      |intros x Hx; cbn in Hx; repeat (destruct Hx as [<-|Hx]; [split; [cbn; discriminate|cbn; intuition discriminate]|]); destruct Hx
      |intros x p Hx [<-|[]]; cbn in Hx; repeat (destruct Hx as [<-|Hx]; [cbn; split; discriminate|]); destruct Hx].
Qed.

Lemma rounded_valid : valid_request rounded_request.
Proof.
  assert (SF : spatial_fits rounded_request rounded_spatial).
  { constructor; cbn [rounded_request rq_temporal rq_ops].
    - intros op tm H. exact (rounded_fits op tm H).
    - intros op op' su su' I I' H H'. pick_in I; pick_in I'; injection H as <-; injection H' as <-; reflexivity. }
  constructor.
  - exists 0%nat, rounded_accelerator. exact rounded_hardware.
  - constructor; cbn [rounded_request rq_links rq_ops rq_out rq_inputs rq_pr rq_r rq_layer rq_macs rq_size_out].
    + exists [("I", "I1"); ("W", "I2"); ("O", "O")]. split; [cbn; nd|reflexivity].
    + intros op. cbn. intuition.
    + split; [nd|]. split; [nd|cbn; nd].
    + intros op [<-|[]]. split; [now left|discriminate].
    + split; [discriminate|]. intros op [<-|[<-|[]]]; [exists "I1"|exists "I2"]; (split; [reflexivity|tauto]).
    + exists "O". split; [reflexivity|]. split; discriminate.
    + destruct (ex_derived 1 6 ltac:(lia) ltac:(lia)). constructor; assumption.
    + split; [cbn; lia|]. intros op I. pick_in I; (eexists; split; [reflexivity|lia]).
    + lia.
  - constructor; cbn [rounded_request rq_temporal rq_ops rq_links rq_hierarchy].
    + cbn. nd.
    + intros op. cbn. intuition.
    + exists rounded_loops. split; [intros x I; pick_in I; cbn; lia|]. intros op tm [H|[H|[H|[]]]]; injection H as <- <-; reflexivity.
    + intros op mem_op tm Hl Ht. apply ex_links_in in Hl. destruct Hl as [(-> & ->)|[(-> & ->)|(-> & ->)]]; injection Ht as <-; vm_compute; reflexivity.
  - exact SF.
  - exact SF.
  - cbn. lia.
  - exists 1. split; [reflexivity|lia].
Qed.
Lemma rounded_dedicated : dedicated_ports rounded_accelerator.
Proof.
  intros m p op k op' k' Im (l1 & l2 & E1 & L1 & _) (l3 & l4 & _ & L2 & _). assert (Ip : In p (ms_ports m)) by (rewrite E1; apply in_or_app; right; now left). clear E1. unfold listed in L1, L2.
  pick_in Im; pick_in Ip; cbn in L1, L2; destruct L1 as [L1|[]], L2 as [L2|[]]; injection L1 as <- Q1; injection L2 as <- Q2; (split; [reflexivity|]); destruct k; try discriminate Q1; destruct k'; try discriminate Q2; reflexivity.
Qed.
Lemma odd_dedicated : dedicated_ports odd_accelerator.
Proof.
  intros m p op k op' k' Im (l1 & l2 & E1 & L1 & _) (l3 & l4 & _ & L2 & _). assert (Ip : In p (ms_ports m)) by (rewrite E1; apply in_or_app; right; now left). clear E1. unfold listed in L1, L2.
  pick_in Im; pick_in Ip; cbn in L1, L2; destruct L1 as [L1|[]], L2 as [L2|[]]; injection L1 as <- Q1; injection L2 as <- Q2; (split; [reflexivity|]); destruct k; try discriminate Q1; destruct k'; try discriminate Q2; reflexivity.
Qed.

Lemma rounded_whole : whole_request rounded_request.
Proof.
  intros op su tm Es Et. apply dget_In in Es. apply dget_In in Et. cbn in Es, Et.
  destruct Es as [Es|[Es|[Es|[]]]]; injection Es as <- <-; destruct Et as [Et|[Et|[Et|[]]]]; try discriminate Et; injection Et as <-;
    intros x Ix; cbn in Ix; repeat (destruct Ix as [<-|Ix]; [eexists; cbn [snd]; reflexivity|]); destruct Ix.
Qed.
Lemma rounded_times : whole_time_loops rounded_request.
Proof. exact rounded_whole. Qed.
Lemma odd_times : whole_time_loops odd_request.
Proof. exact (ex_whole odd_accelerator). Qed.
Lemma odd_inputs : NoDup (rq_inputs odd_request).
Proof. cbn. nd. Qed.
Lemma rounded_inputs : NoDup (rq_inputs rounded_request).
Proof. cbn. nd. Qed.
