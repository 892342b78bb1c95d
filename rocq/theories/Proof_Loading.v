(** Proofs about on- and off-loading (C39). *)
From Coq Require Import QArith Lqa Qminmax.
From Verif Require Import Base Model_DataMove Model_Mapping Model_Links Model_Cost Model_Latency Spec_Mapping Spec_Cost Spec_Latency
  Proof_AllocSearch Proof_Bandwidth Proof_Links Proof_Energy.

Lemma qmax_Qmax x y : (qmax x y == Qmax x y)%Q.
Proof.
  unfold qmax. destruct (Qle_bool x y) eqn:B.
  - apply Qle_bool_iff in B. now rewrite Q.max_r.
  - assert (y <= x)%Q by (apply Qlt_le_weak, Qnot_le_lt; intros H; apply Qle_bool_iff in H; congruence). now rewrite Q.max_l.
Qed.
Lemma qmax_cases x y : ((x <= y)%Q /\ (qmax x y == y)%Q) \/ ((y <= x)%Q /\ (qmax x y == x)%Q).
Proof.
  unfold qmax. destruct (Qle_bool x y) eqn:B; [left; apply Qle_bool_iff in B; split; [assumption|reflexivity]|right; split; [|reflexivity]].
  apply Qlt_le_weak, Qnot_le_lt. intros H. apply Qle_bool_iff in H. congruence.
Qed.
Lemma qmin_cases x y : ((x <= y)%Q /\ (qmin x y == x)%Q) \/ ((y <= x)%Q /\ (qmin x y == y)%Q).
Proof.
  unfold qmin. destruct (Qle_bool x y) eqn:B; [left; apply Qle_bool_iff in B; split; [assumption|reflexivity]|right; split; [|reflexivity]].
  apply Qlt_le_weak, Qnot_le_lt. intros H. apply Qle_bool_iff in H. congruence.
Qed.

Definition alone_link (x : Q * (bool * bool)) : bool := negb (fst (snd x)) && negb (snd (snd x)).
Definition both_link (x : Q * (bool * bool)) : bool := fst (snd x) && snd (snd x).
Definition total_of (f : Q * (bool * bool) -> bool) (l : list (Q * (bool * bool))) : Q := qsum (map fst (filter f l)).
Definition last_half (h : Q) (l : list (Q * (bool * bool))) : Q := fold_left (fun h x => if half_shared x then fst x else h) l h.

Lemma last_half_proper l : forall h h', (h == h')%Q -> (last_half h l == last_half h' l)%Q.
Proof.
  unfold last_half. induction l as [|x l IH]; intros h h' E; [exact E|]. cbn [fold_left]. apply IH. destruct (half_shared x); [reflexivity|assumption].
Qed.

Definition part_step (st : loading) (op : string) (parts : Q * Q * Q) (lv : nat) : result (Q * Q * Q) :=
  (let '(i, h, s) := parts in
   d <- dgetr op (lo_on st) ;;
   e1 <- dgetr (lv, WrHigh) d ;;
   e2 <- dgetr (S lv, RdLow) d ;;
   let longest := qmax (fst e1) (fst e2) in
   if negb (snd e1) && negb (snd e2) then Ok ((i + longest)%Q, h, s)
   else if snd e1 && snd e2 then Ok (i, h, (s + longest)%Q)
   else Ok (i, longest, s))%result.

Lemma parts_fold (st : loading) op d : dget op (lo_on st) = Some d -> forall l k i h s,
  (forall lv x, nth_error l lv = Some x ->
    exists c1 s1 c2 s2, dget ((k + lv)%nat, WrHigh) d = Some (c1, s1) /\ dget (S (k + lv), RdLow) d = Some (c2, s2) /\
      (fst x == Qmax c1 c2)%Q /\ snd x = (s1, s2)) ->
  exists i' h' s', rfold (part_step st op) (i, h, s) (seq k (length l)) = Ok (i', h', s') /\
    (i' == i + total_of alone_link l)%Q /\ (s' == s + total_of both_link l)%Q /\ (h' == last_half h l)%Q.
Proof.
  intros D l. induction l as [|x l IH]; intros k i h s H.
  - exists i, h, s. cbn. repeat split; ring.
  - cbn [length seq rfold]. destruct (H 0%nat x eq_refl) as (c1 & s1 & c2 & s2 & E1 & E2 & Et & Es). rewrite Nat.add_0_r in E1, E2.
    assert (FS : part_step st op (i, h, s) k =
      if negb s1 && negb s2 then Ok ((i + qmax c1 c2)%Q, h, s) else if s1 && s2 then Ok (i, h, (s + qmax c1 c2)%Q) else Ok (i, qmax c1 c2, s)).
    { unfold part_step, dgetr. rewrite D. cbn [of_option rbind]. rewrite E1. cbn [of_option rbind]. rewrite E2. reflexivity. }
    rewrite FS. clear FS.
    assert (H' : forall lv y, nth_error l lv = Some y -> exists c1 s1 c2 s2, dget ((S k + lv)%nat, WrHigh) d = Some (c1, s1) /\ dget (S (S k + lv), RdLow) d = Some (c2, s2) /\ (fst y == Qmax c1 c2)%Q /\ snd y = (s1, s2)).
    { intros lv y Hy. destruct (H (S lv) y Hy) as (a & b & c & e & X). exists a, b, c, e. replace (S k + lv)%nat with (k + S lv)%nat by lia. exact X. }
    assert (Q := qmax_Qmax c1 c2). unfold total_of, last_half. cbn [filter fold_left].
    unfold alone_link at 1, both_link at 1, half_shared at 2. rewrite Es. cbn [fst snd]. destruct s1, s2; cbn [negb andb xorb].
    + destruct (IH (S k) i h (s + qmax c1 c2)%Q H') as (i' & h' & s' & R & I1 & S1 & H1). exists i', h', s'. split; [exact R|].
      cbn [map]. rewrite qsum_cons. unfold total_of, last_half in *. rewrite I1, S1, H1, Et, Q. repeat split; ring.
    + destruct (IH (S k) i (qmax c1 c2) s H') as (i' & h' & s' & R & I1 & S1 & H1). exists i', h', s'. split; [exact R|]. split; [exact I1|]. split; [exact S1|].
      rewrite H1. apply last_half_proper. now rewrite Q, Et.
    + destruct (IH (S k) i (qmax c1 c2) s H') as (i' & h' & s' & R & I1 & S1 & H1). exists i', h', s'. split; [exact R|]. split; [exact I1|]. split; [exact S1|].
      rewrite H1. apply last_half_proper. now rewrite Q, Et.
    + destruct (IH (S k) (i + qmax c1 c2)%Q h s H') as (i' & h' & s' & R & I1 & S1 & H1). exists i', h', s'. split; [exact R|].
      cbn [map]. rewrite qsum_cons. unfold total_of, last_half in *. rewrite I1, S1, H1, Et, Q. repeat split; ring.
Qed.

Lemma parts_ok ci st op l : operand_links ci st op l ->
  exists i h s, loading_parts ci st op = Ok (i, h, s) /\
    (i == total_of alone_link l)%Q /\ (s == total_of both_link l)%Q /\ (h == last_half 0 l)%Q.
Proof.
  intros (d & od & ps & D & M & L & H). unfold loading_parts, levels_of. unfold dgetr at 1. rewrite M. cbn [of_option rbind snd].
  destruct (parts_fold st op d D l 0 0 0 0) as (i & h & s & R & I1 & S1 & H1).
  { intros lv x Hx. destruct (H lv x Hx) as (c1 & s1 & c2 & s2 & X). exists c1, s1, c2, s2. exact X. }
  rewrite L in R. exists i, h, s. split; [exact R|]. rewrite I1, S1, H1. repeat split; ring.
Qed.

Lemma total_split l : (total_of alone_link l + total_of both_link l + total_of half_shared l == qsum (map fst l))%Q.
Proof.
  unfold total_of. induction l as [|[t [a b]] l IH]; [reflexivity|]. cbn [filter map]. rewrite qsum_cons, <- IH.
  unfold alone_link at 1, both_link at 1, half_shared at 1. cbn [fst snd]. destruct a, b; cbn [negb andb xorb map]; rewrite ?qsum_cons; cbn [fst]; ring.
Qed.

Lemma half_bounds l : (forall x, In x l -> (0 <= fst x)%Q) -> forall h, (0 <= h)%Q ->
  (0 <= last_half h l)%Q /\ (last_half h l <= h + total_of half_shared l)%Q.
Proof.
  unfold last_half, total_of. induction l as [|x l IH]; intros N h Hh; [cbn; split; lra|]. cbn [fold_left filter].
  assert (Nx := N x (or_introl eq_refl)). assert (N' : forall y, In y l -> (0 <= fst y)%Q) by (intros; apply N; now right).
  destruct (half_shared x).
  - destruct (IH N' (fst x) Nx) as (A & B). cbn [map]. rewrite qsum_cons. split; [exact A|]. lra.
  - apply IH; assumption.
Qed.
Lemma half_none l : filter half_shared l = [] -> forall h, last_half h l = h.
Proof.
  unfold last_half. induction l as [|x l IH]; intros H h; [reflexivity|]. cbn [filter] in H. cbn [fold_left]. destruct (half_shared x); [discriminate|]. now apply IH.
Qed.
Lemma half_one l : (length (filter half_shared l) <= 1)%nat -> (last_half 0 l == total_of half_shared l)%Q.
Proof.
  unfold total_of. induction l as [|x l IH]; intros H; [reflexivity|]. cbn [filter] in *. unfold last_half. cbn [fold_left]. fold (last_half (if half_shared x then fst x else 0%Q) l).
  destruct (half_shared x).
  - cbn [length] in H. destruct (filter half_shared l) eqn:E; [|cbn in H; lia]. rewrite (half_none l E). cbn [map]. rewrite qsum_cons. cbn. ring.
  - now apply IH.
Qed.
Lemma total_nonneg f l : (forall x, In x l -> (0 <= fst x)%Q) -> (0 <= total_of f l)%Q.
Proof.
  intros N. apply qsum_nonneg. intros x Hx. apply in_map_iff in Hx. destruct Hx as (y & <- & Hy). apply filter_In in Hy. now apply N.
Qed.

(** Two input operands *)
Lemma onloading_two ci st a b rest la lb lrest : in_inputs ci = a :: b :: rest ->
  operand_links ci st a la -> operand_links ci st b lb -> Forall2 (operand_links ci st) rest lrest ->
  (forall x, In x (la ++ lb) -> (0 <= fst x)%Q) ->
  exists on, onloading ci st = Ok on /\ (0 <= on)%Q /\ (on <= qsum (map fst la) + qsum (map fst lb))%Q /\
    ((length (filter half_shared la) <= 1)%nat -> (qsum (map fst la) <= on)%Q) /\
    ((length (filter half_shared lb) <= 1)%nat -> (qsum (map fst lb) <= on)%Q).
Proof.
  intros Ei La Lb Lr N. destruct (parts_ok ci st a la La) as (i1 & h1 & s1 & R1 & I1 & S1 & H1).
  destruct (parts_ok ci st b lb Lb) as (i2 & h2 & s2 & R2 & I2 & S2 & H2).
  assert (Rest : exists q, rmap (loading_parts ci st) rest = Ok q).
  { clear -Lr. induction Lr as [|o l rest lrest H F IH]; [now exists []|]. destruct IH as (q & E). destruct (parts_ok ci st o l H) as (i & h & s & R & _).
    exists ((i, h, s) :: q). cbn [rmap]. now rewrite R, E. }
  destruct Rest as (q & Rq). unfold onloading. rewrite Ei. cbn [rmap]. rewrite R1. cbn [rbind]. rewrite R2. cbn [rbind]. rewrite Rq. cbn [rbind].
  eexists. split; [reflexivity|].
  assert (Na : forall x, In x la -> (0 <= fst x)%Q) by (intros; apply N; apply in_or_app; now left).
  assert (Nb : forall x, In x lb -> (0 <= fst x)%Q) by (intros; apply N; apply in_or_app; now right).
  assert (A1 := total_nonneg alone_link la Na). assert (A2 := total_nonneg both_link la Na).
  assert (B1 := total_nonneg alone_link lb Nb). assert (B2 := total_nonneg both_link lb Nb).
  destruct (half_bounds la Na 0 (Qle_refl 0)) as (A3 & A4). destruct (half_bounds lb Nb 0 (Qle_refl 0)) as (B3 & B4).
  assert (TA := total_split la). assert (TB := total_split lb).
  rewrite <- I1 in A1, TA. rewrite <- S1 in A2, TA. rewrite <- H1 in A3, A4. rewrite <- I2 in B1, TB. rewrite <- S2 in B2, TB. rewrite <- H2 in B3, B4.
  assert (HA := half_one la). assert (HB := half_one lb). rewrite <- H1 in HA. rewrite <- H2 in HB.
  set (p1 := (s1 + qmax (s2 + h2 + i2) (h1 + i1))%Q). set (p2 := (s2 + qmax (s1 + h1 + i1) (h2 + i2))%Q).
  assert (P1 : (s1 + (s2 + h2 + i2) <= p1 /\ s1 + (h1 + i1) <= p1 /\ p1 <= s1 + h1 + i1 + (s2 + h2 + i2))%Q).
  { subst p1. destruct (qmax_cases (s2 + h2 + i2) (h1 + i1)) as [(X & Y)|(X & Y)]; rewrite Y; lra. }
  assert (P2 : (s2 + (s1 + h1 + i1) <= p2 /\ s2 + (h2 + i2) <= p2 /\ p2 <= s1 + h1 + i1 + (s2 + h2 + i2))%Q).
  { subst p2. destruct (qmax_cases (s1 + h1 + i1) (h2 + i2)) as [(X & Y)|(X & Y)]; rewrite Y; lra. }
  clearbody p1 p2.
  assert (M : ((qmin p1 p2 == p1)%Q \/ (qmin p1 p2 == p2)%Q)) by (destruct (qmin_cases p1 p2) as [(_ & Y)|(_ & Y)]; tauto).
  destruct M as [M|M]; rewrite M; (split; [lra|]; split; [lra|]; split; [intros L; specialize (HA L); lra|intros L; specialize (HB L); lra]).
Qed.

(** One input operand *)
Lemma onloading_one ci st a la : in_inputs ci = [a] -> operand_links ci st a la ->
  exists on, onloading ci st = Ok on /\ (on == qsum (map fst (filter (fun x => negb (fst (snd x)) && negb (snd (snd x))) la)))%Q.
Proof.
  intros Ei La. destruct (parts_ok ci st a la La) as (i1 & h1 & s1 & R1 & I1 & _). unfold onloading. rewrite Ei. cbn [rmap]. rewrite R1. cbn [rbind].
  exists i1. split; [reflexivity|exact I1].
Qed.

(** Off-loading *)
Lemma offloading_ok ci st d od ps ts : dget (in_out ci) (lo_off st) = Some d -> dget (in_out ci) (in_map ci) = Some (od, ps) ->
  length ts = (length ps - 1)%nat ->
  (forall lv t, nth_error ts lv = Some t -> exists c1 s1 c2 s2, dget (lv, RdHigh) d = Some (c1, s1) /\ dget (S lv, WrLow) d = Some (c2, s2) /\ (t == Qmax c1 c2)%Q) ->
  exists off, offloading ci st = Ok off /\ (off == qsum ts)%Q.
Proof.
  intros D M L H. unfold offloading, levels_of. unfold dgetr at 1. rewrite M. cbn [of_option rbind snd]. rewrite <- L. clear L M od ps.
  assert (G : forall ts k, (forall lv t, nth_error ts lv = Some t -> exists c1 s1 c2 s2, dget ((k + lv)%nat, RdHigh) d = Some (c1, s1) /\ dget (S (k + lv), WrLow) d = Some (c2, s2) /\ (t == Qmax c1 c2)%Q) ->
    exists l, rmap (fun lv => d <- dgetr (in_out ci) (lo_off st) ;; e1 <- dgetr (lv, RdHigh) d ;; e2 <- dgetr (S lv, WrLow) d ;; Ok (qmax (fst e1) (fst e2)))%result (seq k (length ts)) = Ok l /\ (qsum l == qsum ts)%Q).
  { clear ts H. induction ts as [|t ts IH]; intros k H; [exists []; split; reflexivity|].
    destruct (IH (S k)) as (l & E & S).
    { intros lv x Hx. destruct (H (S lv) x Hx) as (a & b & c & e & X). exists a, b, c, e. replace (S k + lv)%nat with (k + S lv)%nat by lia. exact X. }
    destruct (H 0%nat t eq_refl) as (c1 & s1 & c2 & s2 & E1 & E2 & Et). rewrite Nat.add_0_r in E1, E2.
    exists (qmax c1 c2 :: l). cbn [length seq rmap]. unfold dgetr at 1. rewrite D. cbn [of_option rbind]. unfold dgetr at 1. rewrite E1. cbn [of_option rbind].
    unfold dgetr at 1. rewrite E2. cbn [of_option rbind fst]. rewrite E. cbn [rbind]. split; [reflexivity|]. rewrite !qsum_cons, S, Et, qmax_Qmax. reflexivity. }
  destruct (G ts 0%nat) as (l & E & S).
  { intros lv t Ht. destruct (H lv t Ht) as (a & b & c & e & X). exists a, b, c, e. exact X. }
  rewrite E. cbn [rbind]. exists (qsum l). split; [reflexivity|exact S].
Qed.
