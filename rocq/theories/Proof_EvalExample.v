(** Evaluation of valid requests (C74), and a concrete one. *)
From Coq Require Import QArith Lia.
From Verif Require Import Base Model_Alloc Model_Temporal Model_Decouple Model_SpatialInt Model_DataMove Model_Mapping Model_Links Model_Cost Model_Latency Model_Hierarchy Model_Evaluate
  Spec_Alloc Spec_Decouple Spec_SpatialInt Spec_Temporal Spec_Mapping Spec_Cost Spec_Latency Spec_Hierarchy Spec_Evaluate
  Proof_AllocSearch Proof_Bandwidth Proof_Hierarchy Proof_Ports Proof_EvalTotal Proof_EvalBuild Proof_EvalHardware Proof_EvalPrepare Proof_MappingExample Proof_CostExample.
Local Open Scope string_scope.
Local Open Scope list_scope.

Lemma evaluation_total rq fuel : valid_request rq -> (passes_bound (rq_temporal rq) <= fuel)%nat ->
  exists ci stall on off flags allowed real st, prepare rq fuel = Ok ci /\ transfer_cycles ci flags = Ok (allowed, real) /\
    loading_all ci real stall = Ok st /\ onloading ci st = Ok on /\ offloading ci st = Ok off /\
    let computing := (inject_Z (in_total ci) * in_cpo ci + inject_Z stall)%Q in
    (0 < computing)%Q /\
    ((exists r, evaluation rq fuel = Ok r /\ (la_total2 (snd r) == computing + on + off)%Q) \/
     (evaluation rq fuel = Err ZeroDivisionError /\ ((computing + on == 0)%Q \/ (computing + on + off == 0)%Q))).
Proof.
  intros V F. destruct (vr_hardware rq V) as (pc & ms & SH). destruct (prepared rq fuel pc ms V SH F) as (ci & Ep & C & _).
  destruct (evaluate_total ci C) as (stall & on & off & fl & allowed & real & st & E1 & E2 & E3 & E4 & _ & H). exists ci, stall, on, off, fl, allowed, real, st. unfold evaluation. rewrite Ep. cbn [rbind].
  repeat (split; [assumption || reflexivity|]). exact H.
Qed.

Lemma prepare_total rq fuel ci : valid_request rq -> (passes_bound (rq_temporal rq) <= fuel)%nat -> prepare rq fuel = Ok ci ->
  in_cpo ci = rq_cpo rq /\ forall op tm, dget op (rq_temporal rq) = Some tm -> in_total ci = cycles (concat tm).
Proof.
  intros V F Q. destruct (temporal_built rq fuel (vr_layer rq V) (vr_temporal rq V) F _ (vr_spatial rq V)) as (st & mac & cabl & total & ord & Et & TI).
  unfold prepare in Q. rewrite Et in Q. cbn [rbind] in Q. do 2 (apply rbind_Ok in Q; destruct Q as (? & _ & Q)). apply rbind_Ok in Q. destruct Q as (((hd & lvs) & sh) & _ & Q).
  do 2 (apply rbind_Ok in Q; destruct Q as (? & _ & Q)). injection Q as <-. split; [reflexivity|]. intros op tm E. cbn [in_total snd]. destruct (ti_op _ _ _ _ _ _ TI op tm E) as (ls & m & cyc & _ & _ & _ & _ & _ & O & _).
  rewrite O. exact (ti_total _ _ _ _ _ _ TI).
Qed.

Lemma evaluation_ok rq fuel ci : valid_request rq -> (passes_bound (rq_temporal rq) <= fuel)%nat -> prepare rq fuel = Ok ci -> few_single ci ->
  exists r, evaluation rq fuel = Ok r /\ forall op tm, dget op (rq_temporal rq) = Some tm -> (inject_Z (cycles (concat tm)) * rq_cpo rq <= la_total2 (snd r))%Q.
Proof.
  intros V F Ep FS. destruct (vr_hardware rq V) as (pc & ms & SH). destruct (prepared rq fuel pc ms V SH F) as (ci' & Ep' & C & ST). rewrite Ep in Ep'. injection Ep' as <-.
  unfold evaluation. rewrite Ep. cbn [rbind]. destruct (evaluate_ok ci C ST FS) as (r & E & L). exists r. split; [exact E|]. intros op tm Et.
  destruct (prepare_total rq fuel ci V F Ep) as (P1 & P2). now rewrite <- P1, <- (P2 op tm Et).
Qed.

Lemma prepare_levels rq fuel ci : prepare rq fuel = Ok ci -> in_levels ci = map lv_mem (h_list (rq_hierarchy rq)).
Proof.
  unfold prepare. intros Q. do 3 (apply rbind_Ok in Q; destruct Q as (? & _ & Q)). apply rbind_Ok in Q. destruct Q as (acc & Ea & Q). unfold accelerator in Ea. apply rbind_Ok in Ea. destruct Ea as (hd & _ & Ea). injection Ea as <-.
  do 2 (apply rbind_Ok in Q; destruct Q as (? & _ & Q)). now injection Q as <-.
Qed.

Lemma dedicated_single rq fuel pc ms ci : sound_hardware rq pc ms -> dedicated_ports ms -> prepare rq fuel = Ok ci -> few_single ci.
Proof.
  intros SH D Ep m pt i j s s' Im Ip Ei Ej _ _. rewrite (prepare_levels rq fuel ci Ep) in Im. apply in_map_iff in Im. destruct Im as (l & <- & Il). apply In_nth_error in Il. destruct Il as (n & En).
  destruct (described_at pc ms _ (sh_built rq pc ms SH) n l En) as (d & Ed & Dd). destruct (level_ports pc ms _ n d l (proj1 (sh_once rq pc ms SH)) (sh_built rq pc ms SH) Ed En) as (A1 & _).
  destruct (A1 pt Ip) as (p & _ & _ & _ & _ & Nd & Sv). destruct s as [[op lv] k], s' as [[op' lv'] k'].
  destruct (proj1 (Sv op lv k) (nth_error_In _ _ Ei)) as (L1 & M1). destruct (proj1 (Sv op' lv' k') (nth_error_In _ _ Ej)) as (L2 & M2).
  destruct (D d p op k op' k' (nth_error_In _ _ Ed) M1 M2) as (E1 & E2). subst op' k'. rewrite L1 in L2. injection L2 as <-. apply (proj1 (NoDup_nth_error _) Nd); [apply nth_error_Some; congruence|congruence].
Qed.

Lemma evaluation_dedicated rq fuel pc ms : valid_request rq -> sound_hardware rq pc ms -> dedicated_ports ms -> (passes_bound (rq_temporal rq) <= fuel)%nat ->
  exists r, evaluation rq fuel = Ok r /\ forall op tm, dget op (rq_temporal rq) = Some tm -> (inject_Z (cycles (concat tm)) * rq_cpo rq <= la_total2 (snd r))%Q.
Proof.
  intros V SH D F. destruct (prepared rq fuel pc ms V SH F) as (ci & Ep & _). exact (evaluation_ok rq fuel ci V F Ep (dedicated_single rq fuel pc ms ci SH D Ep)).
Qed.

Lemma evaluation_only rq fuel : valid_request rq -> (passes_bound (rq_temporal rq) <= fuel)%nat -> (exists r, evaluation rq fuel = Ok r) \/ evaluation rq fuel = Err ZeroDivisionError.
Proof. intros V F. destruct (evaluation_total rq fuel V F) as (ci & stall & on & off & fl & al & re & st & _ & _ & _ & _ & _ & _ & [(r & E & _)|(E & _)]); eauto. Qed.

(** * A convolution on registers and an external memory *)
Definition mem_port (name : string) (t : ptype) (op d : string) : portspec := mkPortspec name t 8 16 [(op, d)].
Definition ex_register (op : string) (outputs : bool) : memspec :=
  mkMemspec 64 1 2 [op]
    ([mem_port "r_port_1" PRead op "tl"; mem_port "w_port_1" PWrite op "fh"] ++
     if outputs then [mem_port "r_port_2" PRead op "th"; mem_port "w_port_2" PWrite op "fl"] else []) [].
Definition ex_external : memspec :=
  mkMemspec 4096 20 40 ["I1"; "I2"; "O"]
    [mem_port "r_port_1" PRead "I1" "tl"; mem_port "r_port_2" PRead "I2" "tl"; mem_port "r_port_3" PRead "O" "tl"; mem_port "w_port_1" PWrite "O" "fl"] [].
Definition ex_accelerator : list memspec := [ex_register "I1" false; ex_register "I2" false; ex_register "O" true; ex_external].
Definition built (ms : list memspec) : hierarchy := match build 0 ms with Ok h => h | Err _ => no_hierarchy 0 end.
Definition ex_temporal : dict string tmlevels :=
  [("I", [[("FX", 3); ("OX", 4)]; [("C", 2)]]); ("W", [[("FX", 3)]; [("OX", 4); ("C", 2)]]); ("O", [[("FX", 3)]; [("OX", 4); ("C", 2)]])].
Definition ex_request_on (ms : list memspec) (cpo : Q) : request :=
  mkRequest (ex_layer 1 6) ex_r ex_ir ["I"] ["I"; "W"; "O"] ["I"; "W"] "O" 48 8 ex_links (built ms) 2 (1 # 10) cpo false ex_spatial ex_spatial ex_temporal.
Definition ex_request : request := ex_request_on ex_accelerator 1.

(** The same with one read port on the external memory *)
Definition shared_external : memspec :=
  mkMemspec 4096 20 40 ["I1"; "I2"; "O"]
    [mkPortspec "r_port_1" PRead 8 16 [("I1", "tl"); ("I2", "tl"); ("O", "tl")]; mem_port "w_port_1" PWrite "O" "fl"] [].
Definition shared_accelerator : list memspec := [ex_register "I1" false; ex_register "I2" false; ex_register "O" true; shared_external].

(** Accelerators that miss a port, or store something that the layer does not have *)
Definition unread_accelerator : list memspec :=
  [mkMemspec 64 1 2 ["I1"] [mem_port "w_port_1" PWrite "I1" "fh"] []; ex_register "I2" false; ex_register "O" true; ex_external].
Definition closed_accelerator : list memspec := [ex_register "I1" false; ex_register "I2" false; ex_register "O" false; ex_external].
Definition foreign_accelerator : list memspec := ex_accelerator ++ [ex_register "X" false].

Ltac pick_in H := cbn in H; repeat (destruct H as [<-|H]); try (destruct H).

Lemma ex_links_in op mem_op : dget op (lk_data ex_links) = Some mem_op -> (op = "I" /\ mem_op = "I1") \/ (op = "W" /\ mem_op = "I2") \/ (op = "O" /\ mem_op = "O").
Proof. intros H. apply dget_In in H. destruct H as [H|[H|[H|[]]]]; injection H as <- <-; tauto. Qed.

Lemma moved_find m op d : (exists p, find (fun p => listedb op d (ps_alloc p)) (rev (ms_ports m)) = Some p) -> exists p, moved_by m op d p.
Proof. intros (p & F). exists p. apply (find_last (fun p => listedb op d (ps_alloc p))); [intros; apply listedb_spec|exact F]. Qed.

Lemma ex_hardware ms : ms = ex_accelerator \/ ms = shared_accelerator -> sound_hardware (ex_request_on ms 1) 0 ms.
Proof.
  intros Hms. constructor; cbn [ex_request_on rq_hierarchy rq_links].
  - destruct Hms as [-> | ->]; vm_compute; reflexivity.
  - split; intros m Im; destruct Hms as [-> | ->]; pick_in Im; cbn; nd.
  - assert (Hh : forall i l, nth_error (h_list (built ms)) i = Some l -> height l = if (i <? 3)%nat then 0%nat else 1%nat).
    { intros i l El. destruct Hms as [-> | ->]; vm_compute in El; do 4 (destruct i as [|i]; [injection El as <-; reflexivity|]); destruct i; discriminate. }
    intros op i j li lj L Ei Ej _ _. rewrite (Hh i li Ei), (Hh j lj Ej). destruct (Nat.ltb_spec i 3), (Nat.ltb_spec j 3); lia.
  - intros m Im. destruct Hms as [-> | ->]; pick_in Im; cbn; lia.
  - intros m p Im Ip. destruct Hms as [-> | ->]; pick_in Im; pick_in Ip; cbn; lia.
  - intros m mem_op Im Io. assert (Q : mem_op = "I1" \/ mem_op = "I2" \/ mem_op = "O") by (destruct Hms as [-> | ->]; pick_in Im; pick_in Io; tauto).
    destruct Q as [-> | [-> | ->]]; [exists "I"|exists "W"|exists "O"]; reflexivity.
  - intros i m op mem_op k Em Io Hl Hn. apply moved_find. unfold needed in Hn. cbn [ex_request_on rq_inputs rq_out] in Hn. apply ex_links_in in Hl.
    assert (Top : i = 3%nat -> ~ exists j m', (i < j)%nat /\ nth_error ms j = Some m' /\ In mem_op (ms_operands m')).
    { intros -> (j & m' & L & Ej & _). do 4 (destruct j as [|j]; [lia|]). destruct Hms as [-> | ->]; destruct j; discriminate Ej. }
    destruct Hms as [-> | ->]; (do 4 (destruct i as [|i]; [injection Em as <-; pick_in Io; destruct Hl as [(-> & Q)|[(-> & Q)|(-> & Q)]]; try discriminate Q;
      destruct k; try (eexists; vm_compute; reflexivity); exfalso; cbn in Hn; specialize (Top ltac:(lia || reflexivity)) || clear Top; intuition discriminate|])); destruct i; discriminate Em.
Qed.

Lemma ex_fits ms op tm : dget op ex_temporal = Some tm -> exists su, dget op ex_spatial = Some su /\ Spec_Evaluate.fits (ex_request_on ms 1) op su tm.
Proof.
  intros H. apply dget_In in H. destruct H as [H|[H|[H|[]]]]; injection H as <- <-; (eexists; split; [reflexivity|]).
  - exists (snd (nth 0 ex_ois ("", snd (hd ("", mkOpinput [] (ex_counts "I") [] 1 [] [] []) ex_ois)))). split; [reflexivity|]. split; [reflexivity|].
    apply (gm_good _ _ _ _ _ _ _ _ ex_good "I"). now left.
  - exists (snd (nth 1 ex_ois ("", snd (hd ("", mkOpinput [] (ex_counts "I") [] 1 [] [] []) ex_ois)))). split; [reflexivity|]. split; [reflexivity|].
    apply (gm_good _ _ _ _ _ _ _ _ ex_good "W"). right. now left.
  - exists (snd (nth 2 ex_ois ("", snd (hd ("", mkOpinput [] (ex_counts "I") [] 1 [] [] []) ex_ois)))). split; [reflexivity|]. split; [reflexivity|].
    apply (gm_good _ _ _ _ _ _ _ _ ex_good "O"). right. right. now left.
Qed.

Lemma ex_valid ms : ms = ex_accelerator \/ ms = shared_accelerator -> valid_request (ex_request_on ms 1).
Proof.
  intros Hms. assert (SF : spatial_fits (ex_request_on ms 1) ex_spatial).
  { constructor; cbn [ex_request_on rq_temporal rq_ops].
    - intros op tm H. exact (ex_fits ms op tm H).
    - intros op op' su su' I I' H H'. pick_in I; pick_in I'; injection H as <-; injection H' as <-; reflexivity. }
  constructor.
  - exists 0%nat, ms. now apply ex_hardware.
  - constructor; cbn [ex_request_on rq_links rq_ops rq_out rq_inputs rq_pr rq_r rq_layer rq_macs rq_size_out].
    + exists [("I", "I1"); ("W", "I2"); ("O", "O")]. split; [cbn; nd|reflexivity].
    + intros op. cbn. intuition.
    + split; [nd|]. split; [nd|cbn; nd].
    + intros op [<-|[]]. split; [now left|discriminate].
    + split; [discriminate|]. intros op [<-|[<-|[]]]; [exists "I1"|exists "I2"]; (split; [reflexivity|tauto]).
    + exists "O". split; [reflexivity|]. split; discriminate.
    + apply ex_derived; lia.
    + split; [cbn; lia|]. intros op I. pick_in I; (eexists; split; [reflexivity|lia]).
    + lia.
  - constructor; cbn [ex_request_on rq_temporal rq_ops rq_links rq_hierarchy].
    + cbn. nd.
    + intros op. cbn. intuition.
    + exists [("FX", 3); ("OX", 4); ("C", 2)]. split; [intros x I; pick_in I; cbn; lia|]. intros op tm [H|[H|[H|[]]]]; injection H as <- <-; reflexivity.
    + intros op mem_op tm Hl Ht. apply ex_links_in in Hl. destruct Hl as [(-> & ->)|[(-> & ->)|(-> & ->)]]; injection Ht as <-; destruct Hms as [-> | ->]; vm_compute; reflexivity.
  - exact SF.
  - exact SF.
  - cbn. lia.
  - exists 1. split; [reflexivity|lia].
Qed.

Lemma ex_dedicated : dedicated_ports ex_accelerator.
Proof.
  intros m p op k op' k' Im (l1 & l2 & E1 & L1 & _) (l3 & l4 & _ & L2 & _). assert (Ip : In p (ms_ports m)) by (rewrite E1; apply in_or_app; right; now left). clear E1. unfold listed in L1, L2.
  pick_in Im; pick_in Ip; cbn in L1, L2; destruct L1 as [L1|[]], L2 as [L2|[]]; injection L1 as <- Q1; injection L2 as <- Q2; (split; [reflexivity|]); destruct k; try discriminate Q1; destruct k'; try discriminate Q2; reflexivity.
Qed.

(** * Chains of buffers that both inputs go through, with shared ports of the given widths *)
Definition chain_buffer (lowest : bool) (wr ww : Z) : memspec :=
  mkMemspec 256 5 10 ["I1"; "I2"]
    ((if lowest then [mkPortspec "r_port_1" PRead 8 8 [("I1", "tl")]; mkPortspec "r_port_2" PRead 8 8 [("I2", "tl")]]
      else [mkPortspec "r_port_1" PRead wr wr [("I1", "tl"); ("I2", "tl")]]) ++ [mkPortspec "w_port_1" PWrite ww ww [("I1", "fh"); ("I2", "fh")]]) [].
Definition chain_external (wr : Z) : memspec :=
  mkMemspec 4096 20 40 ["I1"; "I2"; "O"]
    [mkPortspec "r_port_1" PRead wr wr [("I1", "tl"); ("I2", "tl")]; mem_port "r_port_2" PRead "O" "tl"; mkPortspec "w_port_1" PWrite 16 16 [("O", "fl")]] [].
Fixpoint chain_above (lowest : bool) (wr : Z) (ws : list Z) : list memspec :=
  match ws with [] => [chain_external wr] | w :: ws => chain_buffer lowest wr w :: chain_above false w ws end.
Definition chain_accelerator (ws : list Z) : list memspec :=
  [ex_register "I1" false; ex_register "I2" false; ex_register "O" true] ++ chain_above true 8 ws.
Definition chain_loops : list (string * Z) := [("FX", 3); ("OX", 4); ("C", 2); ("K", 2)].
Definition chain_temporal (n : nat) : dict string tmlevels :=
  [("I", [[]; chain_loops] ++ repeat [] n); ("W", [[]; chain_loops] ++ repeat [] n); ("O", [[("FX", 3)]; [("OX", 4); ("C", 2); ("K", 2)]])].
Definition chain_spatial (n : nat) : dict string (list (list (string * Q))) := [("I", repeat [] (3 + n)); ("W", repeat [] (3 + n)); ("O", [[]; []; []])].
Definition chain_request (ws : list Z) : request :=
  mkRequest (ex_layer 1 6) ex_r ex_ir ["I"] ["I"; "W"; "O"] ["I"; "W"] "O" 48 8 ex_links (built (chain_accelerator ws)) 1 (1 # 10) 1 false
    (chain_spatial (length ws)) (chain_spatial (length ws)) (chain_temporal (length ws)).
Definition zero_widths : list Z := [8; 6; 6; 6; 6].
Definition negative_widths : list Z := [6; 6; 6; 6; 8; 8].

Lemma chain_hardware ws : ws = zero_widths \/ ws = negative_widths -> sound_hardware (chain_request ws) 0 (chain_accelerator ws).
Proof.
  intros Hws. constructor; cbn [chain_request rq_hierarchy rq_links].
  - destruct Hws as [-> | ->]; vm_compute; reflexivity.
  - split; intros m Im; destruct Hws as [-> | ->]; pick_in Im; cbn; nd.
  - assert (Hh : forall i l, nth_error (h_list (built (chain_accelerator ws))) i = Some l -> height l = (i - 2)%nat).
    { intros i l El. destruct Hws as [-> | ->]; vm_compute in El; do 10 (destruct i as [|i]; [first [injection El as <-; reflexivity|discriminate El]|]); destruct i; discriminate. }
    intros op i j li lj L Ei Ej _ _. rewrite (Hh i li Ei), (Hh j lj Ej). lia.
  - intros m Im. destruct Hws as [-> | ->]; pick_in Im; cbn; lia.
  - intros m p Im Ip. destruct Hws as [-> | ->]; pick_in Im; pick_in Ip; cbn; lia.
  - intros m mem_op Im Io. assert (Q : mem_op = "I1" \/ mem_op = "I2" \/ mem_op = "O") by (destruct Hws as [-> | ->]; pick_in Im; pick_in Io; tauto).
    destruct Q as [-> | [-> | ->]]; [exists "I"|exists "W"|exists "O"]; reflexivity.
  - intros i m op mem_op k Em Io Hl Hn. apply moved_find. unfold needed in Hn. cbn [chain_request rq_inputs rq_out] in Hn. apply ex_links_in in Hl.
    assert (Top : S i = length (chain_accelerator ws) -> ~ exists j m', (i < j)%nat /\ nth_error (chain_accelerator ws) j = Some m' /\ In mem_op (ms_operands m')).
    { intros Q (j & m' & L & Ej & _). assert (j < length (chain_accelerator ws))%nat by (apply nth_error_Some; congruence). lia. }
    destruct Hws as [-> | ->]; (do 10 (destruct i as [|i]; [first [discriminate Em|injection Em as <-]; pick_in Io; destruct Hl as [(-> & Q)|[(-> & Q)|(-> & Q)]]; try discriminate Q;
      destruct k; try (eexists; vm_compute; reflexivity); exfalso; cbn in Hn; specialize (Top ltac:(lia || reflexivity)) || clear Top; intuition discriminate|])); destruct i; discriminate Em.
Qed.

Ltac chain_operand :=
  split;
      [split; [reflexivity|discriminate]
      |eexists _, _; split; [reflexivity|]; split; [reflexivity|]; split; [nd|];
       split; [reflexivity|]; split; [intros d Hd Hd'; cbn in Hd, Hd'; intuition (subst; discriminate)|];
       split; [intros d Hd; cbn in Hd; split; [cbn; intuition (subst; discriminate)|
         intros p [<-|[]]; intuition (subst; discriminate)]|]; split;
       [intros Hp d x p Hd (da & db & Hx & E); apply ex_runs in Hx; cbn in Hp, Hd; intuition (subst; try discriminate; congruence)|
        intros x Hx; cbn in Hx; repeat (destruct Hx as [<-|Hx]; [cbn; try (right; (tauto || (right; right; split; [tauto|exists "IX"; exists "OX", "FX"; cbn; tauto])))|]); destruct Hx]
      |intros x Hx; cbn in Hx; repeat (destruct Hx as [<-|Hx]; [split; [cbn; discriminate|cbn; intuition discriminate]|]); destruct Hx
      |intros x p Hx [<-|[]]; cbn in Hx; repeat (destruct Hx as [<-|Hx]; [cbn; split; discriminate|]); destruct Hx].

Lemma chain_fits ws op tm : ws = zero_widths \/ ws = negative_widths -> dget op (chain_temporal (length ws)) = Some tm ->
  exists su, dget op (chain_spatial (length ws)) = Some su /\ Spec_Evaluate.fits (chain_request ws) op su tm.
Proof.
  intros Hws H. apply dget_In in H.
  destruct Hws as [-> | ->]; (destruct H as [H|[H|[H|[]]]]; injection H as <- <-; (eexists; split; [reflexivity|]);
    (eexists (mkOpinput _ (ex_counts "I") _ 1 [] [] []); split; [reflexivity|]; split; [reflexivity|]; chain_operand)).
Qed.

Lemma chain_valid ws : ws = zero_widths \/ ws = negative_widths -> valid_request (chain_request ws).
Proof.
  intros Hws. assert (SF : spatial_fits (chain_request ws) (chain_spatial (length ws))).
  { constructor; cbn [chain_request rq_temporal rq_ops].
    - intros op tm H. exact (chain_fits ws op tm Hws H).
    - intros op op' su su' I I' H H'. destruct Hws as [-> | ->]; pick_in I; pick_in I'; injection H as <-; injection H' as <-; reflexivity. }
  constructor.
  - exists 0%nat, (chain_accelerator ws). now apply chain_hardware.
  - constructor; cbn [chain_request rq_links rq_ops rq_out rq_inputs rq_pr rq_r rq_layer rq_macs rq_size_out].
    + exists [("I", "I1"); ("W", "I2"); ("O", "O")]. split; [cbn; nd|reflexivity].
    + intros op. cbn. intuition.
    + split; [nd|]. split; [nd|cbn; nd].
    + intros op [<-|[]]. split; [now left|discriminate].
    + split; [discriminate|]. intros op [<-|[<-|[]]]; [exists "I1"|exists "I2"]; (split; [reflexivity|tauto]).
    + exists "O". split; [reflexivity|]. split; discriminate.
    + apply ex_derived; lia.
    + split; [cbn; lia|]. intros op I. pick_in I; (eexists; split; [reflexivity|lia]).
    + lia.
  - constructor; cbn [chain_request rq_temporal rq_ops rq_links rq_hierarchy].
    + cbn. nd.
    + intros op. cbn. intuition.
    + exists chain_loops. split; [intros x I; pick_in I; cbn; lia|]. intros op tm H. destruct Hws as [-> | ->]; destruct H as [H|[H|[H|[]]]]; injection H as <- <-; reflexivity.
    + intros op mem_op tm Hl Ht. apply ex_links_in in Hl. destruct Hws as [-> | ->]; destruct Hl as [(-> & ->)|[(-> & ->)|(-> & ->)]]; injection Ht as <-; vm_compute; reflexivity.
  - exact SF.
  - exact SF.
  - cbn. lia.
  - exists 1. split; [reflexivity|lia].
Qed.

(** * Inputs that change after 6 and 24 operations, over one port *)
Definition serial_accelerator : list memspec :=
  [mkMemspec 32 1 2 ["I1"] [mem_port "r_port_1" PRead "I1" "tl"; mem_port "w_port_1" PWrite "I1" "fh"] []; ex_register "I2" false; ex_register "O" true; chain_external 8].
Definition serial_loops : list (string * Z) := [("FX", 3); ("K", 2); ("OX", 4); ("C", 2)].
Definition serial_temporal : dict string tmlevels :=
  [("I", [[("FX", 3); ("K", 2)]; [("OX", 4); ("C", 2)]]); ("W", [[("FX", 3); ("K", 2); ("OX", 4)]; [("C", 2)]]); ("O", [[("FX", 3)]; [("K", 2); ("OX", 4); ("C", 2)]])].
Definition serial_request (cpo : Q) : request :=
  mkRequest (ex_layer 1 6) ex_r ex_ir ["I"] ["I"; "W"; "O"] ["I"; "W"] "O" 48 8 ex_links (built serial_accelerator) 1 (1 # 10) cpo false
    (chain_spatial 0) (chain_spatial 0) serial_temporal.

Lemma serial_hardware : sound_hardware (serial_request 1) 0 (serial_accelerator).
Proof.
  constructor; cbn [serial_request rq_hierarchy rq_links].
  - vm_compute; reflexivity.
  - split; intros m Im; pick_in Im; cbn; nd.
  - assert (Hh : forall i l, nth_error (h_list (built (serial_accelerator))) i = Some l -> height l = (i - 2)%nat).
    { intros i l El. vm_compute in El; do 10 (destruct i as [|i]; [first [injection El as <-; reflexivity|discriminate El]|]); destruct i; discriminate. }
    intros op i j li lj L Ei Ej _ _. rewrite (Hh i li Ei), (Hh j lj Ej). lia.
  - intros m Im. pick_in Im; cbn; lia.
  - intros m p Im Ip. pick_in Im; pick_in Ip; cbn; lia.
  - intros m mem_op Im Io. assert (Q : mem_op = "I1" \/ mem_op = "I2" \/ mem_op = "O") by (pick_in Im; pick_in Io; tauto).
    destruct Q as [-> | [-> | ->]]; [exists "I"|exists "W"|exists "O"]; reflexivity.
  - intros i m op mem_op k Em Io Hl Hn. apply moved_find. unfold needed in Hn. cbn [serial_request rq_inputs rq_out] in Hn. apply ex_links_in in Hl.
    assert (Top : S i = length (serial_accelerator) -> ~ exists j m', (i < j)%nat /\ nth_error (serial_accelerator) j = Some m' /\ In mem_op (ms_operands m')).
    { intros Q (j & m' & L & Ej & _). assert (j < length (serial_accelerator))%nat by (apply nth_error_Some; congruence). lia. }
    (do 10 (destruct i as [|i]; [first [discriminate Em|injection Em as <-]; pick_in Io; destruct Hl as [(-> & Q)|[(-> & Q)|(-> & Q)]]; try discriminate Q;
      destruct k; try (eexists; vm_compute; reflexivity); exfalso; cbn in Hn; specialize (Top ltac:(lia || reflexivity)) || clear Top; intuition discriminate|])); destruct i; discriminate Em.
Qed.
Lemma serial_fits op tm : dget op (serial_temporal) = Some tm ->
  exists su, dget op (chain_spatial 0) = Some su /\ Spec_Evaluate.fits (serial_request 1) op su tm.
Proof.
  intros H. apply dget_In in H.
  (destruct H as [H|[H|[H|[]]]]; injection H as <- <-; (eexists; split; [reflexivity|]);
    (eexists (mkOpinput _ (ex_counts "I") _ 1 [] [] []); split; [reflexivity|]; split; [reflexivity|]; chain_operand)).
Qed.

Lemma serial_valid : valid_request (serial_request 1).
Proof.
  assert (SF : spatial_fits (serial_request 1) (chain_spatial 0)).
  { constructor; cbn [serial_request rq_temporal rq_ops].
    - intros op tm H. exact (serial_fits op tm H).
    - intros op op' su su' I I' H H'. pick_in I; pick_in I'; injection H as <-; injection H' as <-; reflexivity. }
  constructor.
  - exists 0%nat, (serial_accelerator). now apply serial_hardware.
  - constructor; cbn [serial_request rq_links rq_ops rq_out rq_inputs rq_pr rq_r rq_layer rq_macs rq_size_out].
    + exists [("I", "I1"); ("W", "I2"); ("O", "O")]. split; [cbn; nd|reflexivity].
    + intros op. cbn. intuition.
    + split; [nd|]. split; [nd|cbn; nd].
    + intros op [<-|[]]. split; [now left|discriminate].
    + split; [discriminate|]. intros op [<-|[<-|[]]]; [exists "I1"|exists "I2"]; (split; [reflexivity|tauto]).
    + exists "O". split; [reflexivity|]. split; discriminate.
    + apply ex_derived; lia.
    + split; [cbn; lia|]. intros op I. pick_in I; (eexists; split; [reflexivity|lia]).
    + lia.
  - constructor; cbn [serial_request rq_temporal rq_ops rq_links rq_hierarchy].
    + cbn. nd.
    + intros op. cbn. intuition.
    + exists serial_loops. split; [intros x I; pick_in I; cbn; lia|]. intros op tm H. destruct H as [H|[H|[H|[]]]]; injection H as <- <-; reflexivity.
    + intros op mem_op tm Hl Ht. apply ex_links_in in Hl. destruct Hl as [(-> & ->)|[(-> & ->)|(-> & ->)]]; injection Ht as <-; vm_compute; reflexivity.
  - exact SF.
  - exact SF.
  - cbn. lia.
  - exists 1. split; [reflexivity|lia].
Qed.
