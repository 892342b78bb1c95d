(** C26 and C27: adding and multiplying evaluations. *)
From Coq Require Import QArith.
From Verif Require Import Base Model_DataMove Model_Cost Model_Latency Model_Cme Spec_DataMove Spec_Cme
  Proof_Cme Proof_CmeLaws Proof_CmeMore Proof_CostExample.
Local Open Scope string_scope.

(** ** C26 *)

(** The sum, for whichever order sets of operands are visited in: every number, the layers
    and the accelerator are those of the sum. *)
Theorem C26_sum :
  forall order, (forall l, Permutation (order l) l) ->
  forall a b r, well_formed a -> well_formed b -> cme_add order a b = Ok r -> sum_of a b r /\ well_formed r.
Proof. exact add_sum. Qed.
Print Assumptions C26_sum.

(** Two evaluations can be added exactly when no cycle count of the sum is zero and the
    accelerators' names are related. *)
Theorem C26_defined :
  forall order, (forall l, Permutation (order l) l) ->
  forall a b, well_formed a -> well_formed b ->
  (exists r, cme_add order a b = Ok r) <-> (nonzero_sum a b /\ compatible (ev_acc a) (ev_acc b)).
Proof. exact add_iff. Qed.
Print Assumptions C26_defined.

Theorem C26_defined_positive :
  forall order, (forall l, Permutation (order l) l) ->
  forall a b, well_formed a -> well_formed b -> positive a -> positive b -> ev_acc a = ev_acc b -> ev_acc a <> None ->
  exists r, cme_add order a b = Ok r /\ positive r /\ ev_acc r = ev_acc a.
Proof. exact add_total. Qed.
Print Assumptions C26_defined_positive.

Theorem C26_commutative :
  forall order order', (forall l, Permutation (order l) l) -> (forall l, Permutation (order' l) l) ->
  forall a b r, well_formed a -> well_formed b -> cme_add order a b = Ok r ->
  exists r', cme_add order' b a = Ok r' /\ same_numbers r r' /\ ev_acc r = ev_acc r' /\ Permutation (layer_ids r) (layer_ids r').
Proof. exact add_comm_laws. Qed.
Print Assumptions C26_commutative.

Theorem C26_associative :
  forall order order', (forall l, Permutation (order l) l) -> (forall l, Permutation (order' l) l) ->
  forall a b c ab bc r r', well_formed a -> well_formed b -> well_formed c ->
  cme_add order a b = Ok ab -> cme_add order ab c = Ok r -> cme_add order' b c = Ok bc -> cme_add order' a bc = Ok r' ->
  same_numbers r r' /\ layer_ids r = layer_ids r' /\ ev_acc r = ev_acc r'.
Proof. exact add_assoc_laws. Qed.
Print Assumptions C26_associative.

(** The empty evaluation changes nothing, on either side. *)
Theorem C26_identity :
  forall order, (forall l, Permutation (order l) l) ->
  forall a, well_formed a -> ev_acc a <> None -> nonzero a ->
  (exists r, cme_add order empty_cme a = Ok r /\ same_numbers r a /\ layer_ids r = layer_ids a /\ ev_acc r = ev_acc a) /\
  (exists r, cme_add order a empty_cme = Ok r /\ same_numbers r a /\ layer_ids r = layer_ids a /\ ev_acc r = ev_acc a).
Proof. exact add_empty. Qed.
Print Assumptions C26_identity.

(** Except that it cannot be added to itself. *)
Theorem C26_empty_empty :
  forall order, (forall l, Permutation (order l) l) -> cme_add order empty_cme empty_cme = Err ZeroDivisionError.
Proof. exact add_empty_empty. Qed.
Print Assumptions C26_empty_empty.

(** The breakdown of a sum adds up to its energy. *)
Theorem C26_adds_up :
  forall order, (forall l, Permutation (order l) l) ->
  forall a b r, well_formed a -> well_formed b -> cme_add order a b = Ok r -> adds_up a -> adds_up b -> adds_up r.
Proof. exact adds_up_sum. Qed.
Print Assumptions C26_adds_up.

(** What evaluating a layer gives can be added. *)
Theorem C26_evaluations :
  forall ci i name e, NoDup (in_ops ci) -> cme_of ci i name = Ok e ->
  well_formed e /\ right_utils e /\ adds_up e /\ ev_layers e = inl i /\ ev_acc e = Some name /\ nonzero e.
Proof. exact cme_of_ok. Qed.
Print Assumptions C26_evaluations.

(** With different accelerators one grouping may fail while the other succeeds. *)
Theorem C26_grouping_refuted :
  exists a b c bc r, well_formed a /\ well_formed b /\ well_formed c /\ positive a /\ positive b /\ positive c /\
  cme_add (fun l => l) a b = Err ValueError /\
  cme_add (fun l => l) b c = Ok bc /\ cme_add (fun l => l) a bc = Ok r.
Proof.
  exists (mkEval [] [] [] 0 0 0 0 0 1 1 1 1 1 None (inr []) (Some "ab")), (mkEval [] [] [] 0 0 0 0 0 1 1 1 1 1 None (inr []) (Some "ac")),
    (mkEval [] [] [] 0 0 0 0 0 1 1 1 1 1 None (inr []) (Some "a")).
  do 2 eexists.
  do 3 (split; [constructor; cbn; try apply NoDup_nil; try tauto; try discriminate; intros; contradiction|]).
  do 3 (split; [repeat split; reflexivity|]).
  split; [reflexivity|]. split; vm_compute; reflexivity.
Qed.
Print Assumptions C26_grouping_refuted.

(** ** C27 *)

Theorem C27_multiple :
  forall a n, well_formed a -> nonzero a -> n <> 0%Z ->
  exists r, cme_mul a n = Ok r /\ multiple_of n a r /\ well_formed r.
Proof. exact cme_mul_ok. Qed.
Print Assumptions C27_multiple.

Theorem C27_one : forall a r, multiple_of 1 a r -> same_numbers r a.
Proof. exact multiple_1. Qed.
Print Assumptions C27_one.

Theorem C27_utilizations :
  forall a n r, n <> 0%Z -> nonzero a -> right_utils a -> multiple_of n a r ->
  exists s u0 u1 u2 s' v0 v1 v2, ev_utils a = Some (s, u0, u1, u2) /\ ev_utils r = Some (s', v0, v1, v2) /\
    (s' == s /\ v0 == u0 /\ v1 == u1 /\ v2 == u2)%Q.
Proof. exact mul_utils. Qed.
Print Assumptions C27_utilizations.

Theorem C27_distributes :
  forall n a b ab r an bn r', sum_of a b ab -> multiple_of n ab r -> multiple_of n a an -> multiple_of n b bn ->
  sum_of an bn r' -> same_numbers r r'.
Proof. exact multiple_sum. Qed.
Print Assumptions C27_distributes.

Theorem C27_repeated_addition :
  forall n a an r r', multiple_of n a an -> multiple_of (n + 1) a r -> sum_of an a r' -> same_numbers r r'.
Proof. exact multiple_succ. Qed.
Print Assumptions C27_repeated_addition.

(** Zero times is not possible. *)
Theorem C27_zero : forall a, well_formed a -> cme_mul a 0 = Err ZeroDivisionError.
Proof. exact cme_mul_zero. Qed.
Print Assumptions C27_zero.

(** * The hypotheses are met *)

Example C26_C27_met :
  exists a b r m, cme_of shared_ci 0 "acc" = Ok a /\ cme_of separate_ci 1 "acc" = Ok b /\ cme_add (fun l => l) a b = Ok r /\
    cme_mul r 3 = Ok m /\ layer_ids r = [0; 1]%nat /\ (ev_l2 r == ev_l2 a + 67)%Q /\ (ev_l2 m == 3 * ev_l2 r)%Q /\
    (0 < ev_l2 a)%Q /\ keys (ev_bd r) = ["I"; "W"; "O"].
Proof. do 4 eexists. do 4 (split; [vm_compute; reflexivity|]). repeat split; vm_compute; reflexivity. Qed.
