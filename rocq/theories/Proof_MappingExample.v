(** A concrete convolution that meets the hypotheses of the mapping theorems, and two
    others for the refutations. *)
From Coq Require Import QArith.
From Verif Require Import Base Model_Alloc Model_Temporal Model_Decouple Model_SpatialInt Model_DataMove
  Model_Mapping Spec_Alloc Spec_Decouple Spec_SpatialInt Spec_Temporal Spec_Mapping Proof_SpatialInt.
Local Open Scope string_scope.

(** O[k][ox] += W[k][c][fx] * I[c][sx*ox + fx*dl] *)
Definition ex_layer (dl ix : Z) : layer :=
  mkLayer [("I", "I1"); ("W", "I2"); ("O", "O")] [("I", 8); ("W", 8); ("O", 16)] 8
    [("I", ["C"; "IX"]); ("W", ["C"; "K"; "FX"]); ("O", ["K"; "OX"])] [("I", ["K"]); ("W", ["OX"]); ("O", ["C"; "FX"])]
    [("IX", ("OX", "FX"))] [("IX", (1, dl))] [("IX", ix)] ["K"; "C"; "OX"; "FX"].
Definition ex_r : dict string (list string) := [("I", ["C"]); ("W", ["C"; "K"; "FX"]); ("O", ["K"; "OX"])].
Definition ex_ir : dict string (list string) := [("I", ["K"]); ("W", ["OX"]); ("O", ["C"; "FX"])].

Lemma ex_derived dl ix : 0 < dl -> 0 < ix -> derived_ok (ex_layer dl ix).
Proof.
  intros H1 H2.
  assert (Hin : forall p da db, In (p, (da, db)) (l_pr_loop (ex_layer dl ix)) -> p = "IX" /\ da = "OX" /\ db = "FX").
  { intros p da db [H|[]]; injection H as <- <- <-; tauto. }
  split.
  - repeat constructor; cbn; intuition discriminate.
  - intros p ab [H|[]]; injection H as <- <-. cbn. exists 1, dl, ix. split; [reflexivity|]. split; [lia|]. split; [exact H1|]. split; [reflexivity|exact H2].
  - intros p da db H. apply Hin in H. cbn. intuition (subst; intuition discriminate).
  - intros p q x (da & db & H & E) (da' & db' & H' & E'). apply Hin in H, H'.
    destruct H as (-> & _), H' as (-> & _). reflexivity.
Qed.

Definition counts_in (cs : result (dict string opcounts)) (op : string) : opcounts :=
  match cs with
  | Ok cs => match dget op cs with Some c => c | None => mkCounts [] [] [] [] [] end
  | Err _ => mkCounts [] [] [] [] []
  end.

Lemma ex_runs dl ix p da db : In (p, (da, db)) (l_pr_loop (ex_layer dl ix)) -> p = "IX" /\ da = "OX" /\ db = "FX".
Proof. intros [H|[]]; injection H as <- <- <-; tauto. Qed.

(** The unit counts of the three operands are the ones of the spatial mapping. *)
Lemma ex_right_counts dl ix sp op :
  spatial_inputs (ex_layer dl ix) ex_r ex_ir ["I"] ["I"; "W"; "O"] sp ->
  is_ok (build_spatial (ex_layer dl ix) ex_r ex_ir ["I"] ["I"; "W"; "O"] sp) = true ->
  In op ["I"; "W"; "O"] -> exists ls ls' r,
  dget op sp = Some ls /\ dget op ex_r = Some r /\ decoupled_for (ex_layer dl ix) ["I"] op ls ls' /\
  right_counts (ex_layer dl ix) r ls ls' (counts_in (build_spatial (ex_layer dl ix) ex_r ex_ir ["I"] ["I"; "W"; "O"] sp) op).
Proof.
  intros HS Hok Hop.
  destruct (build_spatial (ex_layer dl ix) ex_r ex_ir ["I"] ["I"; "W"; "O"] sp) as [cs|] eqn:E; [clear Hok|discriminate Hok].
  pose proof (build_spatial_sound _ _ _ _ _ _ HS cs E) as H. clear E. cbn [counts_in].
  inversion H as [|? ? ? ? (K1 & A1) H1]; subst. inversion H1 as [|? ? ? ? (K2 & A2) H2]; subst. inversion H2 as [|? ? ? ? (K3 & A3) H3]; subst.
  inversion H3; subst. clear H H1 H2 H3.
  destruct y as [k1 v1], y0 as [k2 v2], y1 as [k3 v3]. cbn [fst snd] in *. subst.
  destruct Hop as [<-|[<-|[<-|[]]]]; assumption.
Qed.

Ltac spatial_tac dl ix :=
  split; [apply ex_derived; lia|]; split; [intros op [<-|[]]; now left|];
  intros op [<-|[<-|[<-|[]]]]; eexists _, _; (split; [reflexivity|]; split; [discriminate|]; split; [reflexivity|]; split;
    [intros x Hx; cbn in Hx; repeat (destruct Hx as [<-|Hx]; [cbn; discriminate|]); destruct Hx|]);
  [ intros _ x Hx; cbn in Hx;
    repeat (destruct Hx as [<-|Hx]; [split; [cbn; discriminate|split; [cbn; intuition discriminate|
      intros p (da & db & H & E); apply ex_runs in H; cbn in E |- *; intuition (subst; intuition discriminate)]]|]);
    destruct Hx
  | intros [H|[]]; discriminate H
  | intros [H|[]]; discriminate H ].

Ltac cycles_tac := split; [split; [reflexivity|split; [
  intros [|[|[|k]]] c H; cbn in H; try discriminate H; injection H as <-; reflexivity|
  intros [|[|[|k]]] c c' H H'; cbn in H, H'; try discriminate H; try discriminate H'; injection H as <-; injection H' as <-;
    (split; [(exists 1; reflexivity) || (exists 2; reflexivity) || (exists 8; reflexivity)|intros _; lia])]]|reflexivity].

Ltac counts_tac C op :=
  let ls := fresh "ls" in let ls' := fresh "ls" in let r := fresh "r" in let E1 := fresh "E" in
  destruct (C op ltac:(cbn; tauto)) as (ls & ls' & r & E1 & ? & ? & ?); injection E1 as <-; exists ls', r; auto.

Ltac nd := repeat (apply NoDup_nil || (apply NoDup_cons; [cbn; intuition discriminate|])).

Ltac good_tac C :=
  split;
  [ apply ex_derived; lia
  | split; [|split]; cbn; nd
  | split; [cbn; tauto|]; split; [cbn; intuition discriminate|]; split; cbn; [intuition (subst; tauto)|intuition (subst; tauto)]
  | intros op oi [H|[H|[H|[]]]]; injection H as <- <-; (split;
      [split; [reflexivity|discriminate]
      |eexists _, _; split; [reflexivity|]; split; [reflexivity|]; split; [nd|];
       split; [reflexivity|]; split; [intros d Hd Hd'; cbn in Hd, Hd'; intuition (subst; discriminate)|];
       split; [intros d Hd; cbn in Hd; split; [cbn; intuition (subst; discriminate)|
         intros p [<-|[]]; intuition (subst; discriminate)]|]; split;
       [intros Hp d x p Hd (da & db & Hx & E); apply ex_runs in Hx; cbn in Hp, Hd; intuition (subst; try discriminate; congruence)|
        intros x Hx; cbn in Hx; repeat (destruct Hx as [<-|Hx]; [cbn; try (right; (tauto || (right; right; split; [tauto|exists "IX"; exists "OX", "FX"; cbn; tauto])))|]); destruct Hx]
      |intros x Hx; cbn in Hx; repeat (destruct Hx as [<-|Hx]; [split; [cbn; discriminate|cbn; intuition discriminate]|]); destruct Hx
      |intros x p Hx [<-|[]]; cbn in Hx; repeat (destruct Hx as [<-|Hx]; [cbn; split; discriminate|]); destruct Hx])
  | let ON := fresh "ON" in
    assert (ON : forall l t, In t l -> l = [1; 1; 1] \/ l = [1; 3; 2] -> 1 <= t) by
      (intros l t Ht [-> | ->]; cbn in Ht; lia);
    intros op oi [H|[H|[H|[]]]]; injection H as <- <-; (split;
      [|cycles_tac|cbn; lia|split; [reflexivity|intros t Ht; eapply ON; [exact Ht|cbn; tauto]]|split; [reflexivity|intros t Ht; eapply ON; [exact Ht|cbn; tauto]]|cbn; tauto]);
    [counts_tac C "I" | counts_tac C "W" | counts_tac C "O"] ].

(** 2 x 2 channels, 4 outputs, kernel of 3; the two output channels side by side. *)
Definition ex_spatial : dict string (list (list (string * Q))) :=
  [("I", [[("K", 2%Q)]; []; []]); ("W", [[]; [("K", 2%Q)]; []]); ("O", [[]; []; [("K", 2%Q)]])].
Definition ex_counts : string -> opcounts :=
  counts_in (build_spatial (ex_layer 1 6) ex_r ex_ir ["I"] ["I"; "W"; "O"] ex_spatial).
Definition ex_ois : dict string opinput :=
  [("I", mkOpinput [[("K", 2%Q)]; []; []] (ex_counts "I") [[("FX", 3); ("OX", 4)]; [("C", 2)]] 1 [12; 24] [1; 1; 1] [1; 1; 1]);
   ("W", mkOpinput [[]; [("K", 2%Q)]; []] (ex_counts "W") [[("FX", 3)]; [("OX", 4); ("C", 2)]] 1 [3; 24] [1; 1; 1] [1; 1; 1]);
   ("O", mkOpinput [[]; []; [("K", 2%Q)]] (ex_counts "O") [[("FX", 3)]; [("OX", 4); ("C", 2)]] 3 [3; 24] [1; 1; 1] [1; 3; 2])].

Lemma ex_good : good_mapping (ex_layer 1 6) ex_r ex_ir ["I"] ["I"; "W"] "O" 24 ex_ois.
Proof.
  assert (S : spatial_inputs (ex_layer 1 6) ex_r ex_ir ["I"] ["I"; "W"; "O"] ex_spatial) by spatial_tac 1 6.
  pose proof (fun op => ex_right_counts 1 6 ex_spatial op S ltac:(vm_compute; reflexivity)) as C.
  good_tac C.
Qed.

(** A dilated kernel of 3 on a single output. *)
Definition dil_spatial : dict string (list (list (string * Q))) :=
  [("I", [[]; []; []]); ("W", [[]; []; []]); ("O", [[]; []; []])].
Definition dil_counts : string -> opcounts :=
  counts_in (build_spatial (ex_layer 2 5) ex_r ex_ir ["I"] ["I"; "W"; "O"] dil_spatial).
Definition dil_ois : dict string opinput :=
  [("I", mkOpinput [[]; []; []] (dil_counts "I") [[("FX", 3)]; [("OX", 1)]] 1 [3; 3] [1; 1; 1] [1; 1; 1]);
   ("W", mkOpinput [[]; []; []] (dil_counts "W") [[("FX", 3)]; [("OX", 1)]] 1 [3; 3] [1; 1; 1] [1; 1; 1]);
   ("O", mkOpinput [[]; []; []] (dil_counts "O") [[("FX", 3)]; [("OX", 1)]] 1 [3; 3] [1; 1; 1] [1; 1; 1])].

Lemma dil_good : good_mapping (ex_layer 2 5) ex_r ex_ir ["I"] ["I"; "W"] "O" 3 dil_ois.
Proof.
  assert (S : spatial_inputs (ex_layer 2 5) ex_r ex_ir ["I"] ["I"; "W"; "O"] dil_spatial) by spatial_tac 2 5.
  pose proof (fun op => ex_right_counts 2 5 dil_spatial op S ltac:(vm_compute; reflexivity)) as C.
  good_tac C.
Qed.

(** 4 outputs side by side, each with the kernel of 3 below. *)
Definition row_spatial : dict string (list (list (string * Q))) :=
  [("I", [[]; [("OX", 4%Q)]; []]); ("W", [[("OX", 4%Q)]; []; []]); ("O", [[]; [("OX", 4%Q)]; []])].
Definition row_counts : string -> opcounts :=
  counts_in (build_spatial (ex_layer 1 6) ex_r ex_ir ["I"] ["I"; "W"; "O"] row_spatial).
Definition row_ois : dict string opinput :=
  [("I", mkOpinput [[]; [("OX", 4%Q)]; []] (row_counts "I") [[("FX", 3)]; [("C", 2)]] 1 [3; 6] [1; 1; 1] [1; 1; 1]);
   ("W", mkOpinput [[("OX", 4%Q)]; []; []] (row_counts "W") [[("FX", 3)]; [("C", 2)]] 1 [3; 6] [1; 1; 1] [1; 1; 1]);
   ("O", mkOpinput [[]; [("OX", 4%Q)]; []] (row_counts "O") [[("FX", 3)]; [("C", 2)]] 1 [3; 6] [1; 1; 1] [1; 1; 1])].

Lemma row_good : good_mapping (ex_layer 1 6) ex_r ex_ir ["I"] ["I"; "W"] "O" 6 row_ois.
Proof.
  assert (S : spatial_inputs (ex_layer 1 6) ex_r ex_ir ["I"] ["I"; "W"; "O"] row_spatial) by spatial_tac 1 6.
  pose proof (fun op => ex_right_counts 1 6 row_spatial op S ltac:(vm_compute; reflexivity)) as C.
  good_tac C.
Qed.

