(** C16: reduction of a user spatial mapping.  C54: the ranking of spatial mappings. *)
From Coq Require Import QArith.
From Verif Require Import Base Model_SpatialMap Spec_SpatialMap Proof_SpatialMap.
Local Open Scope string_scope.

(** C16.  The validity check decides what a user asks of a mapping. *)
Theorem C16_validity :
  forall oa_sizes maxu sizes sm, dicts sm -> NoDup (keys sizes) ->
  (forall o, In o (keys sm) <-> In o (keys oa_sizes)) ->
  is_valid (Some oa_sizes) maxu sizes sm = Ok true <-> mapping_fits oa_sizes maxu sizes sm.
Proof. exact is_valid_iff. Qed.
Print Assumptions C16_validity.

(** C16.  Reduction ends in a mapping that fits whatever set elements Python picks, and that
    passes the validity check if it covers every array dimension (a template that the
    generator still has to fill need not); what
    it keeps are the requested unrollings of known dimensions, capped by the maxima;
    and it drops none of these on an array dimension and of a layer dimension that the
    capped unrollings do not exceed. *)
Theorem C16_reduce :
  forall order1 order2 pick_dim pick_oa,
  orders order1 -> orders order2 -> picks_dim pick_dim -> picks_oa pick_oa ->
  forall oa_sizes sizes maxu sm, reduce_inputs oa_sizes maxu sizes sm ->
  exists sm', check_and_reduce order1 order2 pick_dim pick_oa oa_sizes maxu sizes sm = Ok sm' /\
    keys sm' = keys sm /\ dicts sm' /\
    mapping_fits oa_sizes maxu sizes sm' /\
    ((forall o, In o (keys oa_sizes) -> In o (keys sm)) -> is_valid (Some oa_sizes) maxu sizes sm' = Ok true) /\
    (forall o d x, unrolled sm' o d x -> capped maxu sizes sm o d x) /\
    (forall o d x s z, capped maxu sizes sm o d x -> dget o oa_sizes = Some s -> dget d sizes = Some z ->
       (forall m, NoDup (keys m) -> (forall d' x', dget d' m = Some x' <-> capped maxu sizes sm o d' x') ->
          (qprod (values m) <= s)%Q) ->
       (forall lim, dicts lim -> keys lim = keys sm ->
          (forall o' d' x', unrolled lim o' d' x' <-> capped maxu sizes sm o' d' x') ->
          (unrolled_total lim d <= z)%Q) ->
       unrolled sm' o d x).
Proof. exact reduce_ok. Qed.
Print Assumptions C16_reduce.

(** C16.  A valid mapping is left alone. *)
Theorem C16_valid_unchanged :
  forall order1 order2 pick_dim pick_oa, orders order1 -> orders order2 ->
  forall oa_sizes sizes maxu sm, dicts sm -> NoDup (keys sizes) ->
  (forall o, In o (keys sm) <-> In o (keys oa_sizes)) ->
  is_valid (Some oa_sizes) maxu sizes sm = Ok true ->
  check_and_reduce order1 order2 pick_dim pick_oa oa_sizes maxu sizes sm = Ok sm.
Proof. exact reduce_valid_unchanged. Qed.
Print Assumptions C16_valid_unchanged.

Definition sm_ex : dict string (dict string Q) :=
  [("D1", [("K", 16%Q); ("Z", 2%Q); ("C", 4%Q)]); ("D2", [("K", 8%Q); ("OX", 4%Q)])].
Definition sm_sizes : dict string Q := [("K", 32%Q); ("C", 8%Q); ("OX", 3%Q)].
Definition sm_oa : dict string Q := [("D1", 32%Q); ("D2", 16%Q)].
Definition sm_max : dict string (dict string Q) :=
  [("D1", [("K", 32%Q); ("C", 8%Q); ("OX", 3%Q)]); ("D2", [("K", 16%Q); ("C", 8%Q); ("OX", 3%Q)])].
Definition first_dim (_ : string) (m : dict string Q) : string := hd "" (keys m).
Definition first_oa (d : string) (sm : dict string (dict string Q)) : string :=
  hd "" (keys (filter (fun om => dmem d (snd om)) sm)).

(** The example is not valid as given (unknown Z, OX and both array dimensions exceeded)
    and loses K. *)
Example C16_met :
  reduce_inputs sm_oa sm_max sm_sizes sm_ex /\ orders (@rev string) /\ picks_dim first_dim /\ picks_oa first_oa /\
  check_and_reduce (@rev string) (@rev string) first_dim first_oa sm_oa sm_max sm_sizes sm_ex =
    Ok [("D1", [("C", 4%Q)]); ("D2", [("OX", 3%Q)])].
Proof.
  assert (Hu : forall o d u, unrolled sm_ex o d u -> In (o, d, u)
    [("D1", "K", 16%Q); ("D1", "Z", 2%Q); ("D1", "C", 4%Q); ("D2", "K", 8%Q); ("D2", "OX", 4%Q)]).
  { intros o d u (m & Ho & Hd). apply dget_In in Ho, Hd. destruct Ho as [[= <- <-]|[[= <- <-]|[]]]; cbn in Hd;
      intuition (subst; match goal with H : (_, _) = (_, _) |- _ => injection H as <- <- end; cbn; tauto). }
  split; [|split; [|split; [|split; [|vm_compute; reflexivity]]]].
  - split.
    + split; [repeat constructor; cbn; intuition discriminate|].
      intros o m [[= <- <-]|[[= <- <-]|[]]]; repeat constructor; cbn; intuition discriminate.
    + repeat constructor; cbn; intuition discriminate.
    + cbn. tauto.
    + intros o d u H Hk. apply Hu in H. cbn in H, Hk.
      repeat (destruct H as [[= <- <- <-]|H];
        [first [exfalso; intuition discriminate
               |eexists _, _; split; [reflexivity|split; [reflexivity|discriminate]]]|]). destruct H.
    + intros o d u H. apply Hu in H. cbn in H. repeat (destruct H as [[= <- <- <-]|H]; [discriminate|]). destruct H.
    + intros o s H. apply dget_In in H. cbn in H. repeat (destruct H as [[= <- <-]|H]; [discriminate|]). destruct H.
    + intros o s H. apply dget_In in H. cbn in H. repeat (destruct H as [[= <- <-]|H]; [discriminate|]). destruct H.
  - intros l. apply Permutation_rev.
  - intros o m Hm. destruct m as [|[d u] m]; [easy|]. now left.
  - intros d sm [Hk _] (o & u & m & Ho & Hd). unfold first_oa.
    destruct (filter (fun om => dmem d (snd om)) sm) as [|[o1 m1] l] eqn:E.
    + exfalso. assert (Hi : In (o, m) (filter (fun om => dmem d (snd om)) sm)).
      { apply filter_In. split; [now apply dget_In|]. cbn. unfold dmem. now rewrite Hd. }
      rewrite E in Hi. destruct Hi.
    + assert (Hi : In (o1, m1) (filter (fun om => dmem d (snd om)) sm)) by (rewrite E; now left).
      apply filter_In in Hi as [H1 H2]. cbn in H2. apply dmem_keys, key_dget in H2 as (v & Ev).
      exists v, m1. split; [now apply In_dget|exact Ev].
Qed.

(** C54.  The indicator that ranks generated mappings is, for whole unrollings, the
    hardware utilization plus utilization over the largest unrolling of a layer
    dimension minus one; it lies between the utilization and its double. *)
Theorem C54_indicator_partial :
  forall sm n, dicts sm -> sm_whole sm -> (exists o m, In (o, m) sm /\ m <> []) ->
  (qprod (map snd (concat (map snd sm))) == inject_Z n)%Q ->
  exists mx v, performance_indicator sm = Ok v /\
    (exists d, In d (map fst (concat (map snd sm))) /\ (mx == unrolled_total sm d)%Q) /\
    (forall d, In d (map fst (concat (map snd sm))) -> (unrolled_total sm d <= mx)%Q) /\
    (v == inject_Z n + (inject_Z n / mx - 1))%Q /\ (inject_Z n <= v < 2 * inject_Z n)%Q.
Proof. exact indicator_ok. Qed.
Print Assumptions C54_indicator_partial.

(** C54.  But a mapping using fewer units can rank above one using more, contrary to
    what the code's documentation promises: 2 x 2 x 2 (8 units) beats 9 units. *)
Theorem C54_more_units_rank_higher_refuted :
  exists a b n m, dicts a /\ dicts b /\ sm_whole a /\ sm_whole b /\
    (qprod (map snd (concat (map snd a))) == inject_Z n)%Q /\
    (qprod (map snd (concat (map snd b))) == inject_Z m)%Q /\ (m < n)%Z /\
    exists v w, performance_indicator a = Ok v /\ performance_indicator b = Ok w /\ (v < w)%Q.
Proof.
  exists [("D1", [("K", 9%Q)])], [("D1", [("K", 2%Q)]); ("D2", [("C", 2%Q)]); ("D3", [("OX", 2%Q)])], 9%Z, 8%Z.
  split; [|split; [|split; [|split; [|split; [reflexivity|split; [reflexivity|split; [reflexivity|]]]]]]].
  - split; [repeat constructor; cbn; intuition discriminate|].
    intros o m H. cbn in H. repeat (destruct H as [[= <- <-]|H]; [repeat constructor; cbn; intuition discriminate|]). destruct H.
  - split; [repeat constructor; cbn; intuition discriminate|].
    intros o m H. cbn in H. repeat (destruct H as [[= <- <-]|H]; [repeat constructor; cbn; intuition discriminate|]). destruct H.
  - intros o m d u H Hd. cbn in H. destruct H as [[= <- <-]|[]]. destruct Hd as [[= <- <-]|[]]. exists 9%Z. split; [discriminate|reflexivity].
  - intros o m d u H Hd. exists 2%Z. split; [discriminate|]. cbn in H.
    repeat (destruct H as [[= <- <-]|H]; [destruct Hd as [[= <- <-]|[]]; reflexivity|]). destruct H.
  - eexists _, _. split; [vm_compute; reflexivity|]. split; [vm_compute; reflexivity|]. reflexivity.
Qed.
Print Assumptions C54_more_units_rank_higher_refuted.
