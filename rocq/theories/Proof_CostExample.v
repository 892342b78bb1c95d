(** Concrete evaluations: the convolution of Proof_MappingExample on two accelerators. *)
From Coq Require Import QArith.
From Verif Require Import Base Model_Alloc Model_Temporal Model_Decouple Model_SpatialInt Model_DataMove Model_Mapping
  Model_Links Model_Cost Model_Latency Spec_Mapping Spec_Cost Spec_Latency Proof_MappingExample.
Local Open Scope string_scope.

(** Operand inputs of the mapping from a temporal mapping without unrolling. *)
Definition plain_ois (tm : dict string tmlevels) : dict string opinput :=
  let sp := map (fun kv => (fst kv, map (fun _ => []) ([] :: snd kv))) tm in
  let counts op := counts_in (build_spatial (ex_layer 1 6) ex_r ex_ir ["I"] ["I"; "W"; "O"] sp) op in
  match build_temporal_mapping [("I", ["K"]); ("W", ["OX"]); ("O", ["C"; "FX"])] 10 tm with
  | Ok (st, stat, cyc, _) =>
      map (fun kv =>
             let op := fst kv in
             (op, mkOpinput (match dget op sp with Some l => l | None => [] end) (counts op) (snd kv)
                    (match dget op stat with Some x => x | None => 1%Z end)
                    (match dget op cyc with Some x => x | None => [] end)
                    (top_sizes (match dget op ex_r with Some l => l | None => [] end) (snd kv))
                    (top_sizes (match dget op ex_ir with Some l => l | None => [] end) (snd kv)))) st
  | Err _ => []
  end.
Definition plain_map (tm : dict string tmlevels) : dict string (opdata * list pattern) :=
  match build_mapping (ex_layer 1 6) ex_r ex_ir ["I"] ["I"; "W"] "O" 48 8 48 false (fun _ _ => 8%Z) (plain_ois tm) with
  | Ok (_, m) => m
  | Err _ => []
  end.
Definition plain_units (tm : dict string tmlevels) : dict string (list Z) :=
  map (fun kv => (fst kv, unit_count (oi_counts (snd kv)))) (plain_ois tm).

(** Memories that transfer [w] bits per cycle in all directions that their operands use *)
Definition widths (w : Z) (ops : list (string * list direction)) : dict string (dict direction (option Z)) :=
  map (fun x => (fst x, map (fun k => (k, if memb k (snd x) then Some w else None)) directions)) ops.
Definition inputs_low := [RdLow; WrHigh].
Definition outputs_low := [RdLow; WrLow; RdHigh; WrHigh].
Definition simple_mem (ops : list (string * list direction)) (size w : Z) (e : Q) (ports : list port) : memlvl :=
  mkMemlvl (map fst ops) size e (2 * e) (widths w ops) (widths w ops) ports.

(** Registers per operand, a buffer shared by the inputs, and an external memory. *)
Definition reg_i := simple_mem [("I1", inputs_low)] 8 8 1 [mkPort 0 "r" 8 [("I1", 0%nat, RdLow)]; mkPort 1 "w" 8 [("I1", 0%nat, WrHigh)]].
Definition reg_w := simple_mem [("I2", inputs_low)] 8 8 1 [mkPort 2 "r" 8 [("I2", 0%nat, RdLow)]; mkPort 3 "w" 8 [("I2", 0%nat, WrHigh)]].
Definition reg_o := simple_mem [("O", outputs_low)] 16 16 1
  [mkPort 4 "r" 16 [("O", 0%nat, RdLow)]; mkPort 5 "w" 16 [("O", 0%nat, WrLow)];
   mkPort 6 "rh" 16 [("O", 0%nat, RdHigh)]; mkPort 7 "wh" 16 [("O", 0%nat, WrHigh)]].
Definition buffer (w : Z) := simple_mem [("I1", inputs_low); ("I2", inputs_low)] 256 w 5
  [mkPort 8 "r" w [("I1", 1%nat, RdLow); ("I2", 1%nat, RdLow)]; mkPort 9 "w" w [("I1", 1%nat, WrHigh); ("I2", 1%nat, WrHigh)]].
Definition external (w : Z) := simple_mem [("I1", [RdLow]); ("I2", [RdLow]); ("O", [RdLow; WrLow])] 4096 w 20
  [mkPort 10 "r" w [("I1", 2%nat, RdLow); ("I2", 2%nat, RdLow); ("O", 1%nat, RdLow)]; mkPort 11 "w" w [("O", 1%nat, WrLow)]].

Definition shared_tm : dict string tmlevels :=
  [("I", [[]; [("FX", 3%Z); ("OX", 4%Z); ("C", 2%Z); ("K", 2%Z)]; []]);
   ("W", [[]; [("FX", 3%Z); ("OX", 4%Z); ("C", 2%Z); ("K", 2%Z)]; []]);
   ("O", [[("FX", 3%Z)]; [("OX", 4%Z); ("C", 2%Z); ("K", 2%Z)]])].
Definition ex_links : links := mkLinks [("I", "I1"); ("W", "I2"); ("O", "O")] [("I1", "I"); ("I2", "W"); ("O", "O")].

Definition shared_ci : inputs :=
  mkInputs ["I"; "W"; "O"] ["I"; "W"] "O" ex_links
    [("I1", [reg_i; buffer 8; external 8]); ("I2", [reg_w; buffer 8; external 8]); ("O", [reg_o; external 8])]
    [reg_i; reg_w; reg_o; buffer 8; external 8] [[("I1", 1%nat); ("I2", 1%nat)]; [("I1", 2%nat); ("I2", 2%nat); ("O", 1%nat)]]
    (plain_map shared_tm) (plain_map shared_tm) (plain_units shared_tm) 48 (1 # 10) 1 48 1.

(** Separate buffers and external read ports for the two inputs. *)
Definition buffer_i := simple_mem [("I1", inputs_low)] 256 8 5
  [mkPort 8 "r" 8 [("I1", 1%nat, RdLow)]; mkPort 9 "w" 8 [("I1", 1%nat, WrHigh)]].
Definition buffer_w := simple_mem [("I2", inputs_low)] 256 8 5
  [mkPort 12 "r" 8 [("I2", 1%nat, RdLow)]; mkPort 13 "w" 8 [("I2", 1%nat, WrHigh)]].
Definition external2 := simple_mem [("I1", [RdLow]); ("I2", [RdLow]); ("O", [RdLow; WrLow])] 4096 8 20
  [mkPort 10 "r1" 8 [("I1", 2%nat, RdLow)]; mkPort 11 "r2" 8 [("I2", 2%nat, RdLow); ("O", 1%nat, RdLow)]; mkPort 14 "w" 8 [("O", 1%nat, WrLow)]].
Definition separate_ci : inputs :=
  mkInputs ["I"; "W"; "O"] ["I"; "W"] "O" ex_links
    [("I1", [reg_i; buffer_i; external2]); ("I2", [reg_w; buffer_w; external2]); ("O", [reg_o; external2])]
    [reg_i; reg_w; reg_o; buffer_i; buffer_w; external2] [[("I1", 2%nat); ("I2", 2%nat); ("O", 1%nat)]]
    (plain_map shared_tm) (plain_map shared_tm) (plain_units shared_tm) 48 (1 # 10) 1 48 1.

Lemma plain_sound op od ps p : In (op, (od, ps)) (plain_map shared_tm) -> In p ps ->
  sound_pattern p /\ forall b, In b (od_bit_unrolled od) -> (0 <= b)%Z.
Proof.
  intros H. vm_compute in H. destruct H as [H|[H|[H|[]]]]; injection H as <- <- <-; intros Hp;
    (split; [|intros b Hb; vm_compute in Hb; repeat (destruct Hb as [<-|Hb]; [lia|]); destruct Hb]);
    vm_compute in Hp; repeat (destruct Hp as [<-|Hp]; [intros [] [] x E; vm_compute in E; injection E as <-; lia|]); destruct Hp.
Qed.

Lemma simple_width d w ops mem_op k b : (0 < w)%Z -> d = widths w ops -> width d mem_op k (Some b) -> (0 < b)%Z.
Proof.
  intros W -> (f & Hf & Hk). apply dget_In in Hf. unfold widths in Hf. apply in_map_iff in Hf. destruct Hf as (x & E & _). injection E as _ <-.
  apply dget_In in Hk. repeat (destruct Hk as [Hk|Hk]; [injection Hk as _ E; destruct (memb _ (snd x)); [now injection E as <-|discriminate]|]). destruct Hk.
Qed.

Lemma shared_sound : sound_inputs shared_ci.
Proof.
  split.
  - intros op od ps p H Hp. exact (proj1 (plain_sound op od ps p H Hp)).
  - intros op uc u H Hu. vm_compute in H. repeat (destruct H as [H|H]; [injection H as <- <-; repeat (destruct Hu as [<-|Hu]; [lia|]); destruct Hu|]). destruct H.
  - intros op ms m mem_op k b H Hm Hw.
    assert (W : exists w ops, (0 < w)%Z /\ ml_bw_max m = widths w ops /\ ml_bw_min m = widths w ops).
    { cbn in H. repeat (destruct H as [H|H]; [injection H as <- <-; repeat (destruct Hm as [<-|Hm]; [eexists _, _; split; [|split; reflexivity]; lia|]); destruct Hm|]). destruct H. }
    destruct W as (w & ops & W & E1 & E2). destruct Hw as [Hw|Hw]; eapply simple_width; try exact Hw; eassumption.
Qed.

Lemma separate_timing : sound_timing separate_ci.
Proof.
  split.
  - intros op od ps p H Hp. exact (proj1 (plain_sound op od ps p H Hp)).
  - intros op od ps b H Hb. vm_compute in H. destruct H as [H|[H|[H|[]]]]; injection H as <- <- <-; vm_compute in Hb; repeat (destruct Hb as [<-|Hb]; [lia|]); destruct Hb.
  - intros op ms m mem_op k b H Hm Hw.
    assert (W : exists w ops, (0 < w)%Z /\ ml_bw_max m = widths w ops).
    { cbn in H. repeat (destruct H as [H|H]; [injection H as <- <-; repeat (destruct Hm as [<-|Hm]; [eexists _, _; split; [|reflexivity]; lia|]); destruct Hm|]). destruct H. }
    destruct W as (w & ops & W & E1). assert (0 < b)%Z by (eapply simple_width; eassumption). lia.
  - intros m pt Hm Hp. cbn in Hm. repeat (destruct Hm as [<-|Hm]; [cbn in Hp; repeat (destruct Hp as [<-|Hp]; [cbn; lia|]); destruct Hp|]). destruct Hm.
Qed.

Lemma separate_few : few_single separate_ci.
Proof.
  intros m pt i j s s' Hm Hp. cbn in Hm. repeat (destruct Hm as [<-|Hm]; [cbn in Hp; repeat (destruct Hp as [<-|Hp];
   [cbn [pt_served]; intros Hi Hj Ps Ps'; destruct i as [|[|[|i]]], j as [|[|[|j]]]; cbn in Hi, Hj; try discriminate; try reflexivity;
     injection Hi as <-; injection Hj as <-; exfalso|]); try destruct Hp|]).
  - destruct Ps' as (op & od & ps & p & H1 & _ & _ & _ & H5). apply H5. apply dget_In in H1. cbn in H1.
    destruct H1 as [H1|[H1|[H1|[]]]]; try discriminate. injection H1 as <-. cbn. tauto.
  - destruct Ps as (op & od & ps & p & H1 & _ & _ & _ & H5). apply H5. apply dget_In in H1. cbn in H1.
    destruct H1 as [H1|[H1|[H1|[]]]]; try discriminate. injection H1 as <-. cbn. tauto.
  - destruct Hm.
Qed.

Lemma ex_links_ok : exists data, NoDup (keys data) /\ make_links data = Ok ex_links.
Proof.
  exists [("I", "I1"); ("W", "I2"); ("O", "O")]. split; [|reflexivity]. repeat (apply NoDup_cons; [cbn; intuition discriminate|]). apply NoDup_nil.
Qed.

Lemma shared_ok_ci : sharing_ok shared_ci.
Proof.
  split.
  - exact ex_links_ok.
  - repeat (apply NoDup_cons; [cbn; intuition discriminate|]). apply NoDup_nil.
  - intros g [<-|[<-|[]]]; repeat (apply NoDup_cons; [cbn; intuition discriminate|]); apply NoDup_nil.
  - intros g g' x [<-|[<-|[]]] [<-|[<-|[]]] Hx Hx'; try reflexivity; cbn in Hx, Hx'; intuition (subst; discriminate).
Qed.

(** Loading times in which both transfers of an input are half shared. *)
Definition half_loading : loading :=
  mkLoading
    [("I", [((0%nat, WrHigh), (5%Q, false)); ((1%nat, RdLow), (5%Q, true)); ((1%nat, WrHigh), (8%Q, true)); ((2%nat, RdLow), (8%Q, false))]);
     ("W", [((0%nat, WrHigh), (1%Q, false)); ((1%nat, RdLow), (1%Q, false)); ((1%nat, WrHigh), (1%Q, false)); ((2%nat, RdLow), (1%Q, false))])]
    [] [] [] [] [].
Definition half_i : list (Q * (bool * bool)) := [(5%Q, (false, true)); (8%Q, (true, false))].
Definition half_w : list (Q * (bool * bool)) := [(1%Q, (false, false)); (1%Q, (false, false))].
Lemma half_links op l : (op, l) = ("I", half_i) \/ (op, l) = ("W", half_w) -> operand_links shared_ci half_loading op l.
Proof.
  intros H. destruct (dget op (lo_on half_loading)) as [d|] eqn:Hd; [|destruct H as [H|H]; injection H as -> ->; discriminate].
  destruct (dget op (plain_map shared_tm)) as [[od ps]|] eqn:Hm; [|destruct H as [H|H]; injection H as -> ->; vm_compute in Hm; discriminate].
  exists d, od, ps. split; [assumption|]. split; [exact Hm|].
  assert (E : length ps = 3%nat) by (destruct H as [H|H]; injection H as -> ->; vm_compute in Hm; injection Hm as <- <-; reflexivity).
  clear Hm. rewrite E. destruct H as [H|H]; injection H as -> ->; injection Hd as <-; (split; [reflexivity|]);
    intros [|[|[|lv]]] x Hx; cbn in Hx; try discriminate; injection Hx as <-; do 4 eexists; repeat split; reflexivity.
Qed.
Definition half_links_i := half_links "I" half_i (or_introl eq_refl).
Definition half_links_w := half_links "W" half_w (or_intror eq_refl).
Lemma half_nonneg x : In x (half_i ++ half_w)%list -> (0 <= fst x)%Q.
Proof. intros [<-|[<-|[<-|[<-|[]]]]]; discriminate. Qed.
