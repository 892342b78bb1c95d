(** C17 and C18: conversion of a user spatial mapping. *)
From Coq Require Import QArith.
From Verif Require Import Base Model_SpatialMap Model_Convert Spec_SpatialMap Spec_Convert Proof_Convert Proof_Limited.
Local Open Scope string_scope.

(** C17.  For every operand, each array dimension belongs to one level, the lowest
    serving it or the extra top one; every level multiplies the unrollings of its array
    dimensions; and per layer dimension the product over the levels is the one of the
    user mapping, hence the same for all operands. *)
Theorem C17_distribution :
  forall levels_of usm, dicts usm ->
  Forall2 (fun ol ol' => fst ol' = fst ol /\ length (snd ol') = S (length (snd ol)) /\
      (forall i loops, nth_error (snd ol') i = Some loops -> level_right (at_home (snd ol) i usm) loops) /\
      (forall d, (over_levels (snd ol') d == unrolled_total usm d)%Q))
    levels_of (mapping_per_mem_lvl levels_of usm).
Proof. exact mapping_per_mem_lvl_ok. Qed.
Print Assumptions C17_distribution.

Definition cv_user : dict string (dict string Q) :=
  [("D1", [("OX", 5%Q); ("K", 2%Q)]); ("D2", [("K", 4%Q)]); ("D3", [("C", 3%Q)])].

Example C17_met : dicts cv_user /\
  mapping_per_mem_lvl [("I", [["D2"]; []; ["D1"; "D2"]]); ("O", [["D1"; "D2"]; ["D3"]])] cv_user =
    [("I", [[("K", 4%Q)]; []; [("OX", 5%Q); ("K", 2%Q)]; [("C", 3%Q)]]);
     ("O", [[("OX", 5%Q); ("K", 8%Q)]; [("C", 3%Q)]; []])].
Proof.
  split; [|reflexivity]. split; [repeat constructor; cbn; intuition discriminate|].
  intros o m H. cbn in H. repeat (destruct H as [[= <- <-]|H]; [repeat constructor; cbn; intuition discriminate|]). destruct H.
Qed.

(** C18.  A limited unrolling is positive, at most the requested one and at most the
    array dimension, for any mapping. *)
Theorem C18_bounds :
  forall sizes oa_sizes o d u user lim d' x, (0 < u)%Q ->
  (forall s, dget o oa_sizes = Some s -> 1 <= s) -> (forall l, dget d sizes = Some l -> 1 <= l) ->
  (forall o' m' d' u', In (o', m') lim -> In (d', u') m' -> (0 < u')%Q) ->
  limited sizes oa_sizes o (d, u) user lim true = Ok (Some (d', x)) ->
  d' = d /\ (0 < x <= u)%Q /\ exists s, dget o oa_sizes = Some s /\ (x <= inject_Z s)%Q.
Proof. exact limited_bounds. Qed.
Print Assumptions C18_bounds.

(** C18.  For a valid mapping, limiting succeeds, keeps all unrollings but the first
    largest of each layer dimension, and lowers that one so that, with the unrollings
    before it, a whole number of iterations covers the layer exactly; the whole-number
    variant rounds it down, to 1 at least. *)
Theorem C18_limited :
  forall sizes oa_sizes user, valid_user sizes oa_sizes user ->
  exists lim lim_int, limit_mapping sizes oa_sizes user = Ok (lim, lim_int) /\
    keys lim = keys (filter (fun om => match snd om with [] => false | _ => true end) user) /\
    keys lim_int = keys lim /\
    (forall o d u, unrolled user o d u -> exists x y, unrolled lim o d x /\ unrolled lim_int o d y /\
       limited_to sizes user o d u x /\
       ((~ first_largest user o d /\ y = u) \/ (first_largest user o d /\ rounded_down x y))) /\
    (forall o d x, unrolled lim o d x -> exists u, unrolled user o d u) /\
    (forall o d y, unrolled lim_int o d y -> exists u, unrolled user o d u).
Proof. exact limit_mapping_ok. Qed.
Print Assumptions C18_limited.

(** C18.  If no later array dimension unrolls the layer dimension, its whole unrolling
    times a whole number of iterations is the layer size. *)
Theorem C18_exact_partial :
  forall sizes oa_sizes user, valid_user sizes oa_sizes user ->
  forall lim lim_int o d, limit_mapping sizes oa_sizes user = Ok (lim, lim_int) ->
  first_largest user o d ->
  (forall before m after, user = (before ++ (o, m) :: after)%list ->
     forall o' m', In (o', m') after -> ~ In d (keys m')) ->
  exists l t, dget d sizes = Some l /\ 1 <= t /\ (unrolled_total lim d * inject_Z t == inject_Z l)%Q.
Proof. exact limit_exact. Qed.
Print Assumptions C18_exact_partial.

(** C18.  With a later array dimension this fails: 10 over 4 and then 2 is unrolled by
    20/3, which no whole number of iterations covers. *)
Theorem C18_exact_refuted :
  exists sizes oa_sizes user lim lim_int, valid_user sizes oa_sizes user /\
    limit_mapping sizes oa_sizes user = Ok (lim, lim_int) /\ dget "K" sizes = Some 10 /\
    forall t, ~ (unrolled_total lim "K" * inject_Z t == inject_Z 10)%Q.
Proof.
  exists [("K", 10)], [("D1", 4); ("D2", 2)], [("D1", [("K", 4%Q)]); ("D2", [("K", 2%Q)])].
  eexists _, _. split; [|split; [vm_compute; reflexivity|split; [reflexivity|]]].
  - assert (Hu : forall o d u, unrolled [("D1", [("K", 4%Q)]); ("D2", [("K", 2%Q)])] o d u ->
      (o = "D1" /\ d = "K" /\ u = 4%Q) \/ (o = "D2" /\ d = "K" /\ u = 2%Q)).
    { intros o d u (m & Ho & Hd). apply dget_In in Ho, Hd. destruct Ho as [[= <- <-]|[[= <- <-]|[]]];
        destruct Hd as [[= <- <-]|[]]; tauto. }
    split.
    + split; [repeat constructor; cbn; intuition discriminate|].
      intros o m [[= <- <-]|[[= <- <-]|[]]]; repeat constructor; cbn; tauto.
    + intros o m d u [[= <- <-]|[[= <- <-]|[]]] [[= <- <-]|[]]; [exists 4|exists 2]; split; (lia || reflexivity).
    + intros o d u H. apply Hu in H as [(-> & -> & ->)|(-> & -> & ->)]; eexists; split; (reflexivity || discriminate).
    + intros o d u H. apply Hu in H as [(-> & -> & ->)|(-> & -> & ->)]; eexists; split; (reflexivity || discriminate).
    + intros d l H. apply dget_In in H. destruct H as [[= <- <-]|[]]. discriminate.
  - intros t H. assert (E : (unrolled_total [("D1", [("K", 10 # 3)]); ("D2", [("K", 2)])] "K" == 20 # 3)%Q) by reflexivity.
    rewrite E in H. unfold Qeq, Qmult, inject_Z in H. cbn [Qnum Qden] in H. lia.
Qed.
Print Assumptions C18_exact_refuted.

(** C18.  A mapping that splits 15 over 4, covering it in 4 rather than 3.75 steps. *)
Example C18_met :
  valid_user [("OX", 15); ("K", 16); ("C", 3)] [("D1", 16); ("D2", 8); ("D3", 4)]
    [("D1", [("OX", 4%Q); ("K", 2%Q)]); ("D2", [("K", 4%Q)]); ("D3", [("C", 3%Q)])] /\
  first_largest [("D1", [("OX", 4%Q); ("K", 2%Q)]); ("D2", [("K", 4%Q)]); ("D3", [("C", 3%Q)])] "D1" "OX" /\
  match limit_mapping [("OX", 15); ("K", 16); ("C", 3)] [("D1", 16); ("D2", 8); ("D3", 4)]
          [("D1", [("OX", 4%Q); ("K", 2%Q)]); ("D2", [("K", 4%Q)]); ("D3", [("C", 3%Q)])] with
  | Ok (lim, lim_int) =>
      map (fun om => map (fun du => (fst du, Qred (snd du))) (snd om)) lim =
        [[("OX", (15 # 4)%Q); ("K", 2%Q)]; [("K", 4%Q)]; [("C", 3%Q)]] /\
      map (fun om => map (fun du => (fst du, Qred (snd du))) (snd om)) lim_int =
        [[("OX", 3%Q); ("K", 2%Q)]; [("K", 4%Q)]; [("C", 3%Q)]]
  | Err _ => False
  end.
Proof.
  assert (Hu : forall o d u, unrolled [("D1", [("OX", 4%Q); ("K", 2%Q)]); ("D2", [("K", 4%Q)]); ("D3", [("C", 3%Q)])] o d u ->
    In (o, d, u) [("D1", "OX", 4%Q); ("D1", "K", 2%Q); ("D2", "K", 4%Q); ("D3", "C", 3%Q)]).
  { intros o d u (m & Ho & Hd). apply dget_In in Ho, Hd. cbn in Ho.
    repeat (destruct Ho as [[= <- <-]|Ho]; [cbn in Hd;
      repeat (destruct Hd as [[= <- <-]|Hd]; [cbn; tauto|]); destruct Hd|]). destruct Ho. }
  split; [|split; [|vm_compute; split; reflexivity]].
  - split.
    + split; [repeat constructor; cbn; intuition discriminate|].
      intros o m H. cbn in H. repeat (destruct H as [[= <- <-]|H]; [repeat constructor; cbn; intuition discriminate|]). destruct H.
    + intros o m d u Ho Hd. cbn in Ho.
      repeat (destruct Ho as [[= <- <-]|Ho]; [cbn in Hd;
        repeat (destruct Hd as [[= <- <-]|Hd]; [eexists; split; [|unfold inject_Z; reflexivity]; lia|]); destruct Hd|]). destruct Ho.
    + intros o d u H. apply Hu in H. cbn in H.
      repeat (destruct H as [[= <- <- <-]|H]; [eexists; split; (reflexivity || discriminate)|]). destruct H.
    + intros o d u H. apply Hu in H. cbn in H.
      repeat (destruct H as [[= <- <- <-]|H]; [eexists; split; (reflexivity || discriminate)|]). destruct H.
    + intros d l H. apply dget_In in H. cbn in H. repeat (destruct H as [[= <- <-]|H]; [vm_compute; discriminate|]). destruct H.
  - eexists [], _, _, _. split; [reflexivity|]. split; [reflexivity|]. split; [intros ? ? ? []|].
    intros o m u H Hd. cbn in H. repeat (destruct H as [[= <- <-]|H]; [discriminate|]). destruct H.
Qed.
