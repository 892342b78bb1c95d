(** C15: unit counts of a spatial mapping over the memory levels. *)
From Coq Require Import QArith.
From Verif Require Import Base Model_Alloc Model_Decouple Model_SpatialInt Spec_Alloc Spec_Decouple
  Spec_SpatialInt Proof_SpatialInt.
Local Open Scope string_scope.

(** C15.  Whatever the constructor accepts has, for every operand and level, unique
    units times duplicates equal to the product of the unrollings at and above the
    level, and scope and boost equal to the ratios of consecutive levels. *)
Theorem C15_counts :
  forall ly r_dims ir_dims pr_ops operands mapping,
  spatial_inputs ly r_dims ir_dims pr_ops operands mapping ->
  forall counts, build_spatial ly r_dims ir_dims pr_ops operands mapping = Ok counts ->
  Forall2 (fun op kc => fst kc = op /\ exists ls ls' r,
      dget op mapping = Some ls /\ dget op r_dims = Some r /\
      decoupled_for ly pr_ops op ls ls' /\ right_counts ly r ls ls' (snd kc)) operands counts.
Proof. exact build_spatial_sound. Qed.
Print Assumptions C15_counts.

(** C15.  Operands that agree on the number of units are accepted. *)
Theorem C15_accepts :
  forall ly r_dims ir_dims pr_ops operands mapping,
  spatial_inputs ly r_dims ir_dims pr_ops operands mapping ->
  (forall op op' ls ls', In op operands -> In op' operands ->
     dget op mapping = Some ls -> dget op' mapping = Some ls' ->
     (unrolled_from 0 ls == unrolled_from 0 ls')%Q) ->
  exists counts, build_spatial ly r_dims ir_dims pr_ops operands mapping = Ok counts.
Proof. exact build_spatial_accepts. Qed.
Print Assumptions C15_accepts.

(** C15.  Two operands with different whole numbers of units are refused. *)
Theorem C15_rejects :
  forall ly r_dims ir_dims pr_ops operands mapping,
  spatial_inputs ly r_dims ir_dims pr_ops operands mapping ->
  forall op op' ls ls' n m, In op operands -> In op' operands ->
  dget op mapping = Some ls -> dget op' mapping = Some ls' ->
  (unrolled_from 0 ls == inject_Z n)%Q -> (unrolled_from 0 ls' == inject_Z m)%Q -> n <> m ->
  build_spatial ly r_dims ir_dims pr_ops operands mapping = Err AssertionError.
Proof. exact build_spatial_rejects. Qed.
Print Assumptions C15_rejects.

(** C15.  The unique units at the bottom are the data elements of the operand that the
    array works on at once. *)
Theorem C15_unique_elements :
  forall ly rir r op ls ls' pr_ops, derived_ok ly -> NoDup r ->
  (forall d, In d r -> ~ In d (keys (l_pr_loop ly)) /\
     (forall p, In p (keys (l_pr_loop ly)) -> d <> (p ++ "_R") /\ d <> (p ++ "_IR"))) ->
  (In op pr_ops -> forall d x p, In d r -> runs_over ly p x -> fst x <> d) ->
  dget op (l_r_or_pr ly) = Some (r ++ (if in_dec string_dec op pr_ops then keys (l_pr_loop ly) else []))%list ->
  (In op pr_ops -> operand_ok ly rir (concat ls)) -> no_tags ly (concat ls) ->
  decoupled_for ly pr_ops op ls ls' ->
  (iterations_of (data_loops ly r (concat ls')) == tile_elements ly op (concat ls))%Q.
Proof. exact unique_elements. Qed.
Print Assumptions C15_unique_elements.

Definition sp_layer : layer :=
  mkLayer [("I", "I1"); ("W", "I2")] [("I", 8); ("W", 8)] 8
    [("I", ["C"; "IX"]); ("W", ["C"; "K"; "FX"])] [("I", ["K"]); ("W", ["OX"])]
    [("IX", ("OX", "FX"))] [("IX", (1, 1))] [("IX", 10)] ["K"; "C"; "OX"; "FX"].
Definition sp_mapping : dict string (list (list (string * Q))) :=
  [("I", [[("K", 4%Q)]; [("OX", 4%Q); ("FX", 3%Q)]; [("C", 2%Q)]]);
   ("W", [[("OX", 4%Q)]; [("K", 4%Q)]; [("FX", 3%Q); ("C", 2%Q)]])].

Example C15_met :
  spatial_inputs sp_layer [("I", ["C"]); ("W", ["C"; "K"; "FX"])] [("I", ["K"]); ("W", ["OX"])]
    ["I"] ["I"; "W"] sp_mapping /\
  match build_spatial sp_layer [("I", ["C"]); ("W", ["C"; "K"; "FX"])] [("I", ["K"]); ("W", ["OX"])]
    ["I"] ["I"; "W"] sp_mapping with
  | Ok counts => map (fun kc => (fst kc, unit_count (snd kc), map Qred (unit_unique (snd kc)),
                        map Qred (unit_duplicate (snd kc)))) counts =
      [("I", [96; 24; 2]%Z, [12; 12; 2]%Q, [8; 2; 1]%Q); ("W", [96; 24; 6]%Z, [24; 24; 6]%Q, [4; 1; 1]%Q)]
  | _ => False
  end.
Proof.
  assert (Hin : forall p da db, In (p, (da, db)) (l_pr_loop sp_layer) ->
    p = "IX" /\ da = "OX" /\ db = "FX").
  { intros p da db [H|[]]; injection H as <- <- <-; tauto. }
  split; [|vm_compute; reflexivity].
  split; [|split].
  - split.
    + repeat constructor; cbn; intuition discriminate.
    + intros p ab [H|[]]; injection H as <- <-; cbn; eexists _, _, _;
        (split; [reflexivity|split; [reflexivity|split; [reflexivity|split; [reflexivity|reflexivity]]]]).
    + intros p da db H. apply Hin in H. cbn. intuition (subst; intuition discriminate).
    + intros p q x (da & db & H & E) (da' & db' & H' & E'). apply Hin in H, H'.
      destruct H as (-> & _), H' as (-> & _). reflexivity.
  - intros op [<-|[]]. now left.
  - intros op [<-|[<-|[]]]; eexists _, _.
    + split; [reflexivity|]. split; [discriminate|]. split; [reflexivity|]. split.
      * intros x Hx. cbn in Hx. repeat (destruct Hx as [<-|Hx]; [cbn; discriminate|]). destruct Hx.
      * intros _ x Hx. cbn in Hx.
        repeat (destruct Hx as [<-|Hx]; [split; [cbn; discriminate|split; [cbn; intuition discriminate|
          intros p (da & db & H & E); apply Hin in H; cbn in E |- *; intuition (subst; intuition discriminate)]]|]).
        destruct Hx.
    + split; [reflexivity|]. split; [discriminate|]. split; [reflexivity|]. split.
      * intros x Hx. cbn in Hx. repeat (destruct Hx as [<-|Hx]; [cbn; discriminate|]). destruct Hx.
      * intros [H|[]]. discriminate H.
Qed.
