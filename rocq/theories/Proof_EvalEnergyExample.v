(** C75 on the example of C74. *)
From Coq Require Import QArith.
From Verif Require Import Base Model_Alloc Model_Evaluate Spec_Mapping Spec_EvalEnergy Proof_EvalExample Proof_MappingExample.
Local Open Scope string_scope.
Local Open Scope list_scope.
Local Open Scope Z_scope.

Lemma ex_whole ms : whole_request (ex_request_on ms 1).
Proof.
  intros op su tm Es Et. apply dget_In in Es. apply dget_In in Et. cbn in Es, Et.
  destruct Es as [Es|[Es|[Es|[]]]]; injection Es as <- <-; destruct Et as [Et|[Et|[Et|[]]]]; try discriminate Et; injection Et as <-;
    intros x Ix; cbn in Ix; repeat (destruct Ix as [<-|Ix]; [eexists; cbn [snd]; reflexivity|]); destruct Ix.
Qed.

(** Only the output channels are unrolled. *)
Lemma ex_apart op su lv : dget op (rq_spatial ex_request) = Some su -> no_overlap (rq_layer ex_request) (rq_pr ex_request) op su lv.
Proof.
  intros E I l x p N Ix (da & db & Hp & Hx). destruct I as [<-|[]]. injection E as <-. apply (ex_runs 1 6) in Hp. destruct Hp as (_ & -> & ->).
  apply nth_error_In in N. cbn in N. destruct N as [<-|[<-|[<-|[]]]]; cbn in Ix; destruct Ix as [<-|[]] || destruct Ix; destruct Hx; discriminate.
Qed.
