(** Evaluations to draw. *)
From Coq Require Import QArith Ascii.
From Verif Require Import Base Model_DataMove Model_Links Model_Cost Model_Hierarchy Model_Evaluate Model_Cme Model_Chart Spec_Chart Proof_EvalExample.
Local Open Scope string_scope.
Local Open Scope list_scope.
Local Open Scope Z_scope.

Definition evaluated_as (rq : request) (name : string) : plotted :=
  mkPlotted (match prepare rq 100 with
             | Ok ci => match cme_of ci 3 "acc" with Ok e => e | Err _ => empty_cme end
             | Err _ => empty_cme end) name (rq_ops rq) (rq_links rq) (rq_hierarchy rq).
Definition ex_plotted : plotted := evaluated_as ex_request "layer1/layer1.0/conv2/Conv".
(** the same layer on an accelerator with two more memories for the inputs *)
Definition deep_plotted : plotted := evaluated_as (chain_request [8; 8]) "conv2".
(** every memory a different one, or the registers of both inputs one memory used twice *)
Definition all_differ (l : level) : string := String (ascii_of_nat (65 + lv_id l)) "".
Definition registers_same (l : level) : string := if Nat.leb (lv_id l) 1 then "A" else all_differ l.
Definition as_is (l : list string) : list string := l.
Definition no_number (_ : nat) : string := "3".

Lemma evaluated_gives rq ci e name : prepare rq 100 = Ok ci -> cme_of ci 3 "acc" = Ok e -> NoDup (rq_ops rq) -> rq_ops rq <> [] ->
  evaluated_on (rq_hierarchy rq) (evaluated_as rq name) /\ pd_eval (evaluated_as rq name) = e.
Proof.
  intros P C Nd Ne. assert (Q : pd_eval (evaluated_as rq name) = e) by (cbn [pd_eval evaluated_as]; now rewrite P, C).
  split; [|exact Q]. exists rq, 100%nat, ci, 3%nat, "acc". rewrite Q. repeat (split; [assumption || reflexivity|]). reflexivity.
Qed.

Definition ops_differ : NoDup ["I"; "W"; "O"].
Proof. repeat (constructor; [cbn; intuition discriminate|]). constructor. Qed.

Lemma ex_evaluated : evaluated_on (pd_hierarchy ex_plotted) ex_plotted.
Proof.
  assert (X : exists ci e, prepare ex_request 100 = Ok ci /\ cme_of ci 3 "acc" = Ok e) by (do 2 eexists; split; vm_compute; reflexivity).
  destruct X as (ci & e & P & C). refine (proj1 (evaluated_gives ex_request ci e _ P C _ _)); [exact ops_differ|discriminate].
Qed.
Lemma deep_evaluated : evaluated_on (pd_hierarchy deep_plotted) deep_plotted.
Proof.
  assert (X : exists ci e, prepare (chain_request [8; 8]) 100 = Ok ci /\ cme_of ci 3 "acc" = Ok e) by (do 2 eexists; split; vm_compute; reflexivity).
  destruct X as (ci & e & P & C). refine (proj1 (evaluated_gives (chain_request [8; 8]) ci e _ P C _ _)); [exact ops_differ|discriminate].
Qed.
Lemma ids_differ : NoDup (map lv_id (h_list (pd_hierarchy ex_plotted))) /\ NoDup (map lv_id (h_list (pd_hierarchy deep_plotted))).
Proof. split; vm_compute; repeat (constructor; [cbn; intuition discriminate|]); constructor. Qed.
Lemma labels_differ : NoDup (map all_differ (h_list (pd_hierarchy ex_plotted))) /\ NoDup (map all_differ (h_list (pd_hierarchy deep_plotted))).
Proof. split; vm_compute; repeat (constructor; [cbn; intuition discriminate|]); constructor. Qed.
