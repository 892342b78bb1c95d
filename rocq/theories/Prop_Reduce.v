(** C28 and C29: stages that reduce a sequence of evaluations. *)
From Coq Require Import QArith.
From Verif Require Import Base Model_DataMove Model_Cost Model_Latency Model_Cme Spec_DataMove Spec_Cme
  Proof_Cme Proof_CmeLaws Proof_CmeMore Proof_Reduce Proof_CostExample.
Local Open Scope string_scope.

(** ** C28 *)

(** The first of the evaluations with the least energy, among those with the least
    latency; all evaluations are passed on when asked for. *)
Theorem C28_energy :
  forall X keep (l : list (eval * X)), l <> [] -> (forall e x, In (e, x) l -> exists i, ev_layers e = inl i) ->
  exists b, minimal_stage less_energy keep l = Ok (b, if keep then l else []) /\ first_best energy_le (map fst l) b.
Proof. exact @minimal_energy. Qed.
Print Assumptions C28_energy.

Theorem C28_latency :
  forall X keep (l : list (eval * X)), l <> [] -> (forall e x, In (e, x) l -> exists i, ev_layers e = inl i) ->
  exists b, minimal_stage less_latency keep l = Ok (b, if keep then l else []) /\ first_best latency_le (map fst l) b.
Proof. exact @minimal_latency. Qed.
Print Assumptions C28_latency.

Theorem C28_edp :
  forall X keep (l : list (eval * X)), l <> [] -> (forall e x, In (e, x) l -> exists i, ev_layers e = inl i) ->
  exists b, minimal_stage less_edp keep l = Ok (b, if keep then l else []) /\ first_best edp_le (map fst l) b.
Proof. exact @minimal_edp. Qed.
Print Assumptions C28_edp.

Theorem C28_empty :
  forall X keep, minimal_stage less_energy keep (@nil (eval * X)) = Err AssertionError /\
  minimal_stage less_latency keep (@nil (eval * X)) = Err AssertionError /\ minimal_stage less_edp keep (@nil (eval * X)) = Err AssertionError.
Proof. exact @minimal_all_empty. Qed.
Print Assumptions C28_empty.

(** Sums are not accepted. *)
Theorem C28_cumulative :
  forall less X keep (l : list (eval * X)) e x ids, In (e, x) l -> ev_layers e = inr ids -> minimal_stage less keep l = Err AssertionError.
Proof. exact @minimal_cumulative. Qed.
Print Assumptions C28_cumulative.

(** ** C29 *)

(** Every number of the total is the sum over the sequence; the evaluations are passed on. *)
Theorem C29_total :
  forall order, (forall l, Permutation (order l) l) ->
  forall X (l : list (eval * X)), (forall e x, In (e, x) l -> well_formed e) ->
  forall t all, sum_stage order l = Ok (t, all) ->
  all = l /\ well_formed t /\ summed (map fst l) t /\ (l <> [] -> right_utils t) /\
  ((forall e x, In (e, x) l -> adds_up e) -> adds_up t) /\
  (forall e x, In (e, x) l -> exists i, ev_layers e = inl i).
Proof. exact @sum_stage_spec. Qed.
Print Assumptions C29_total.

Theorem C29_defined :
  forall order, (forall l, Permutation (order l) l) ->
  forall X (l : list (eval * X)) name,
  (forall e x, In (e, x) l -> well_formed e /\ positive e /\ ev_acc e = Some name /\ exists i, ev_layers e = inl i) ->
  exists t, sum_stage order l = Ok (t, l) /\ (l <> [] -> positive t /\ ev_acc t = Some name).
Proof. exact @sum_stage_total. Qed.
Print Assumptions C29_defined.

(** The order does not matter. *)
Theorem C29_order :
  forall l l' t t', Permutation l l' -> summed l t -> summed l' t' ->
  same_numbers t t' /\ Permutation (layer_ids t) (layer_ids t').
Proof. exact summed_perm. Qed.
Print Assumptions C29_order.

(** * The hypotheses are met *)

Example C28_C29_met :
  exists a b t, cme_of shared_ci 0 "acc" = Ok a /\ cme_of separate_ci 1 "acc" = Ok b /\
    minimal_stage less_latency true [(a, 10%nat); (b, 20%nat)] = Ok (b, [(a, 10%nat); (b, 20%nat)]) /\
    (ev_energy a == ev_energy b)%Q /\ minimal_stage less_energy false [(a, 10%nat); (b, 20%nat); (a, 30%nat)] = Ok (b, []) /\
    sum_stage (fun l => l) [(a, 10%nat); (b, 20%nat)] = Ok (t, [(a, 10%nat); (b, 20%nat)]) /\
    positive a /\ positive b /\ layer_ids t = [0; 1]%nat.
Proof. do 3 eexists. do 6 (split; [vm_compute; reflexivity|]). repeat split; vm_compute; reflexivity. Qed.
