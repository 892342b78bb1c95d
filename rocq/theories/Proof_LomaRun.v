From Verif Require Import Base Model_Loma Spec_Loma Proof_LomaFactors.

Lemma flat_map_ok_In {O M} (alloc : O -> result M) os m :
  In m (flat_map (fun o => match alloc o with Ok m => [m] | Err _ => [] end) os) <->
  exists o, In o os /\ alloc o = Ok m.
Proof.
  rewrite in_flat_map. split; intros (o & Ho & H); exists o; split; auto.
  - destruct (alloc o); [destruct H as [<-|[]]; auto|destruct H].
  - rewrite H. now left.
Qed.

Lemma loma_run_spec {O M} (alloc : O -> result M) os :
  (forall o e, In o os -> alloc o = Err e -> e = MemoryHierarchyTooSmall \/ e = MemoryTooSmall) ->
  fst (loma_run alloc os)
    = flat_map (fun o => match alloc o with Ok m => [m] | Err _ => [] end) os /\
  (snd (loma_run alloc os) = None <-> exists o m, In o os /\ alloc o = Ok m) /\
  (snd (loma_run alloc os) = Some NoValidLoopOrdering <->
     forall o, In o os -> exists e, alloc o = Err e) /\
  (forall e, snd (loma_run alloc os) = Some e -> e = NoValidLoopOrdering).
Proof.
  intros Hsk. unfold loma_run. rewrite run_loop_spec.
  2:{ intros o e Ho E. destruct (Hsk o e Ho E) as [->| ->]; reflexivity. }
  cbn [fst snd orb]. split; [reflexivity|].
  destruct (existsb (fun o => is_ok (alloc o)) os) eqn:E.
  - apply existsb_exists in E. destruct E as (o & Ho & Eo).
    destruct (alloc o) as [m|e] eqn:Ea; [|discriminate].
    repeat split; intros; try discriminate; eauto.
    destruct (H o Ho) as (e & Ee). congruence.
  - repeat split; intros; try discriminate; try congruence.
    + destruct H as (o & m & Ho & Eo).
      assert (existsb (fun o => is_ok (alloc o)) os = true); [|congruence].
      apply existsb_exists. exists o. now rewrite Eo.
    + destruct (alloc o) as [m|e] eqn:Ea; [|now exists e].
      assert (existsb (fun o => is_ok (alloc o)) os = true); [|congruence].
      apply existsb_exists. exists o. now rewrite Ea.
Qed.
