(** C14: decoupling partially relevant loops. *)
From Verif Require Import Base Model_Alloc Model_Decouple Spec_Alloc Spec_Decouple
  Proof_Decouple Proof_DecoupleTotals.
Local Open Scope string_scope.

(** C14.  Decoupling succeeds, leaves operands without derived dimensions alone, and
    splits each loop a derived dimension depends on into its growth of the number of
    derived indices and the remaining reuse, other loops staying in place. *)
Theorem C14_decoupling :
  forall ly, derived_ok ly -> forall rir pr_ops mapping,
  (forall op, In op pr_ops -> exists dims ls, dget op rir = Some dims /\ dget op mapping = Some ls /\
     operand_ok ly dims (concat ls)) ->
  exists out, decouple_pr_loop ly rir pr_ops mapping = Ok out /\ keys out = keys mapping /\
    (forall op ls, dget op mapping = Some ls -> ~ In op pr_ops -> dget op out = Some ls) /\
    (forall op ls, dget op mapping = Some ls -> In op pr_ops ->
       exists ls', dget op out = Some ls' /\ decoupled_levels ly [] ls ls').
Proof. exact decouple_ok. Qed.
Print Assumptions C14_decoupling.

(** C14.  So the iteration count of every level and of the whole stays the same, and
    the data loops of a derived dimension multiply up, level by level, to the number of
    derived indices that the loops below generate. *)
Theorem C14_products_and_telescoping :
  forall ly, derived_ok ly -> forall rir ls os,
  operand_ok ly rir (concat ls) -> no_tags ly (concat ls) ->
  decoupled_levels ly [] ls os ->
  Forall2 (fun l o => (iterations_of o == iterations_of l)%Q) ls os /\
  (iterations_of (concat os) == iterations_of (concat ls))%Q /\
  forall p k, In p (keys (l_pr_loop ly)) ->
    (extent (concat (firstn k os)) (p ++ "_R") == elements_along ly (concat (firstn k ls)) p)%Q.
Proof. exact decoupled_totals. Qed.
Print Assumptions C14_products_and_telescoping.

Definition conv_layer : layer :=
  mkLayer [("I", "I1")] [("I", 8)] 8 [("I", ["C"; "IX"; "IY"])] [("I", ["K"])]
    [("IX", ("OX", "FX")); ("IY", ("OY", "FY"))] [("IX", (1, 1)); ("IY", (2, 1))]
    [("IX", 10); ("IY", 17)] ["K"; "C"; "OX"; "OY"; "FX"; "FY"].
Definition conv_loops : list (list (string * Q)) :=
  [[("FX", 3%Q); ("K", 4%Q); ("OX", 4%Q)]; []; [("FY", 3%Q); ("OX", 2%Q); ("OY", 8%Q); ("C", 2%Q)]].

Example C14_met : derived_ok conv_layer /\ operand_ok conv_layer ["C"; "K"] (concat conv_loops) /\
  no_tags conv_layer (concat conv_loops) /\
  match decouple_pr_loop conv_layer [("I", ["C"; "K"])] ["I"] [("I", conv_loops)] with
  | Ok [(_, ls)] => map (map (fun x => (fst x, Qred (snd x)))) ls =
      [[("IX_R", 3%Q); ("IX_IR", 1%Q); ("K", 4%Q); ("IX_R", 2%Q); ("IX_IR", 2%Q)]; [];
       [("IY_R", 3%Q); ("IY_IR", 1%Q); ("IX_R", (5 # 3)%Q); ("IX_IR", (6 # 5)%Q);
        ("IY_R", (17 # 3)%Q); ("IY_IR", (24 # 17)%Q); ("C", 2%Q)]]
  | _ => False
  end.
Proof.
  assert (Hin : forall p da db, In (p, (da, db)) (l_pr_loop conv_layer) ->
    (p = "IX" /\ da = "OX" /\ db = "FX") \/ (p = "IY" /\ da = "OY" /\ db = "FY")).
  { intros p da db [H|[H|[]]]; injection H as <- <- <-; tauto. }
  split; [|split; [|split; [|vm_compute; reflexivity]]].
  - split.
    + repeat constructor; cbn; intuition discriminate.
    + intros p ab [H|[H|[]]]; injection H as <- <-; cbn; eexists _, _, _;
        (split; [reflexivity|split; [reflexivity|split; [reflexivity|split; [reflexivity|reflexivity]]]]).
    + intros p da db H. apply Hin in H. cbn. intuition (subst; intuition discriminate).
    + intros p q x (da & db & H & E) (da' & db' & H' & E'). apply Hin in H, H'.
      destruct H as [(-> & -> & ->)|(-> & -> & ->)], H' as [(-> & -> & ->)|(-> & -> & ->)]; try reflexivity;
        exfalso; destruct E as [E|E], E' as [E'|E']; congruence.
  - intros x Hx. cbn in Hx.
    repeat (destruct Hx as [<-|Hx]; [split; [cbn; discriminate|split; [cbn; intuition discriminate|
      intros p (da & db & H & E); apply Hin in H; cbn in E |- *; intuition (subst; intuition discriminate)]]|]).
    destruct Hx.
  - intros x p Hx Hp. cbn in Hx, Hp.
    destruct Hp as [<-|[<-|[]]]; repeat (destruct Hx as [<-|Hx]; [cbn; split; discriminate|]); destruct Hx.
Qed.

(** C14.  The hypothesis that no dimension is used by two derived dimensions is
    needed: with IX and IY both computed from OX, a loop of 4 iterations becomes
    loops of 16. *)
Theorem C14_shared_dimension_refuted :
  exists ly rir loops out, operand_ok ly rir (concat loops) /\ no_tags ly (concat loops) /\
    decouple_pr_loop ly [("I", rir)] ["I"] [("I", loops)] = Ok [("I", out)] /\
    (iterations_of (concat loops) == 4)%Q /\ (iterations_of (concat out) == 16)%Q.
Proof.
  exists (mkLayer [("I", "I1")] [("I", 8)] 8 [("I", ["IX"; "IY"])] [("I", [])]
    [("IX", ("OX", "FX")); ("IY", ("OX", "FY"))] [("IX", (1, 1)); ("IY", (1, 1))]
    [("IX", 10); ("IY", 10)] ["OX"; "FX"; "FY"]), [], [[("OX", 4%Q)]].
  eexists. split; [|split; [|split; [vm_compute; reflexivity|split; vm_compute; reflexivity]]].
  - intros x [<-|[]]. split; [cbn; discriminate|]. split; [cbn; intuition discriminate|tauto].
  - intros x p [<-|[]] [<-|[<-|[]]]; cbn; split; discriminate.
Qed.
Print Assumptions C14_shared_dimension_refuted.
