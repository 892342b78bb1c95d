(** Proofs about the balanced reduction of loading cycles (C37). *)
From Coq Require Import QArith Lqa.
From Verif Require Import Base Model_Generation Model_Latency Proof_Bandwidth Proof_Generation.

Definition ei (e : bal_entry) : nat := fst (fst (snd e)).
Definition em (e : bal_entry) : Q := snd (fst (snd e)).
Definition er (e : bal_entry) : Q := snd (snd e).
Definition ec (e : bal_entry) : Q := fst e.

Definition same_entry (e e' : bal_entry) : Prop := ei e' = ei e /\ em e' = em e /\ (ec e' + er e' == ec e + er e)%Q.

Lemma same_refl e : same_entry e e.
Proof. repeat split; reflexivity. Qed.
Lemma same_trans a b c : same_entry a b -> same_entry b c -> same_entry a c.
Proof. intros (H1 & H2 & H3) (G1 & G2 & G3). repeat split; [congruence..|]. now rewrite G3, H3. Qed.
Lemma lower_same d e : same_entry e (lower d e).
Proof. destruct e as [c [[i m] r]]. repeat split. cbn. ring. Qed.

Lemma F2_refl {A} (R : A -> A -> Prop) l : (forall x, R x x) -> Forall2 R l l.
Proof. intros H. induction l; constructor; auto. Qed.
Lemma F2_trans {A} (R : A -> A -> Prop) : (forall a b c, R a b -> R b c -> R a c) ->
  forall l1 l2 l3, Forall2 R l1 l2 -> Forall2 R l2 l3 -> Forall2 R l1 l3.
Proof.
  intros T l1 l2 l3 F. revert l3. induction F as [|a b l1 l2 H F IH]; intros l3 G; inversion G; subst; constructor; eauto.
Qed.

Definition step (d : Q) (k : nat) (es : list bal_entry) : list bal_entry := (map (lower d) (firstn k es) ++ skipn k es)%list.

Lemma step_rel (R : bal_entry -> bal_entry -> Prop) d k es : (forall e, R e (lower d e)) -> (forall e, R e e) -> Forall2 R es (step d k es).
Proof.
  intros L E. unfold step. revert k. induction es as [|e es IH]; intros [|k]; cbn; constructor; auto; try apply F2_refl; auto.
Qed.
Lemma step_length d k es : length (step d k es) = length es.
Proof. unfold step. rewrite app_length, map_length, <- app_length, firstn_skipn. reflexivity. Qed.
Lemma step_nth d k es j : (k <= j)%nat -> nth_error (step d k es) j = nth_error es j.
Proof.
  unfold step. revert k es. induction j as [|j IH]; intros [|k] es H; try reflexivity; [lia|].
  destruct es as [|e es]; [reflexivity|]. cbn. apply IH. lia.
Qed.
Lemma step_sum d k es : (k <= length es)%nat ->
  (qsum (map er (step d k es)) == qsum (map er es) + inject_Z (Z.of_nat k) * d)%Q.
Proof.
  unfold step. revert k. induction es as [|e es IH]; intros k H; cbn in H.
  - assert (k = O) by lia. subst. cbn. ring.
  - destruct k as [|k]; [cbn [firstn skipn map app]; change (inject_Z (Z.of_nat 0)) with 0%Q; ring|].
    cbn [firstn skipn map app]. rewrite !qsum_cons, IH by lia. rewrite Nat2Z.inj_succ, <- Z.add_1_r, inject_Z_plus.
    destruct e as [c [[i m] r]]. cbn [lower er snd]. change (inject_Z 1) with 1%Q. ring.
Qed.

Definition kq (i : nat) : Q := inject_Z (Z.of_nat (S i)).
Lemma kq_pos i : (0 < kq i)%Q.
Proof. unfold kq. change 0%Q with (inject_Z 0). rewrite <- Zlt_Qlt. lia. Qed.

Lemma loop_S i n s es : reduce_loop i (S n) s es =
  match nth_error es i with
  | None => es
  | Some e => if Qle_bool ((ec e - em e) * kq i) s
              then reduce_loop (S i) n (s - (ec e - em e) * kq i)%Q (step (ec e - em e)%Q (S i) es)
              else step (s / kq i)%Q (S i) es
  end.
Proof. cbn [reduce_loop]. destruct (nth_error es i) as [[c [[j m] r]]|]; reflexivity. Qed.

Lemma loop_rel n : forall i s es, Forall2 same_entry es (reduce_loop i n s es).
Proof.
  induction n as [|n IH]; intros i s es; [apply F2_refl, same_refl|]. rewrite loop_S.
  destruct (nth_error es i) as [e|]; [|apply F2_refl, same_refl]. destruct (Qle_bool _ _).
  - eapply F2_trans; [exact same_trans|apply (step_rel _ (ec e - em e)%Q (S i)); [apply lower_same|apply same_refl]|apply IH].
  - apply step_rel; [apply lower_same|apply same_refl].
Qed.

Lemma loop_sum n : forall i s es, (0 <= s)%Q -> (qsum (map er (reduce_loop i n s es)) <= qsum (map er es) + s)%Q.
Proof.
  induction n as [|n IH]; intros i s es S0; [cbn [reduce_loop]; lra|]. rewrite loop_S.
  destruct (nth_error es i) as [e|] eqn:E; [|lra].
  assert (L : (S i <= length es)%nat) by (apply nth_error_Some; congruence).
  assert (K := kq_pos i). destruct (Qle_bool _ _) eqn:B.
  - apply Qle_bool_iff in B. eapply Qle_trans; [apply IH; lra|]. rewrite step_sum by exact L. fold (kq i). lra.
  - rewrite step_sum by exact L. fold (kq i). setoid_replace (kq i * (s / kq i))%Q with s by (field; lra). lra.
Qed.

Lemma loop_mono n : forall i s es, (0 <= s)%Q ->
  (forall j e, (i <= j)%nat -> nth_error es j = Some e -> (em e <= ec e)%Q) ->
  Forall2 (fun e e' => er e <= er e')%Q es (reduce_loop i n s es).
Proof.
  assert (Ler : forall d e, (0 <= d)%Q -> (er e <= er (lower d e))%Q).
  { intros d [c [[j m] r]] D. cbn. lra. }
  assert (Tr : forall a b c : bal_entry, (er a <= er b)%Q -> (er b <= er c)%Q -> (er a <= er c)%Q) by (intros; lra).
  induction n as [|n IH]; intros i s es S0 G; [apply F2_refl; intros; lra|]. rewrite loop_S.
  destruct (nth_error es i) as [e|] eqn:E; [|apply F2_refl; intros; lra].
  assert (Ge := G i e (le_n _) E). assert (K := kq_pos i). destruct (Qle_bool _ _) eqn:B.
  - apply Qle_bool_iff in B. eapply F2_trans; [exact Tr|apply (step_rel _ (ec e - em e)%Q (S i)); [intros x; apply Ler; lra|intros; lra]|].
    apply IH; [lra|]. intros j x Hj Hx. rewrite step_nth in Hx by lia. apply (G j x); [lia|assumption].
  - apply step_rel; [|intros; lra]. intros x. apply Ler. apply Qle_shift_div_l; [assumption|]. rewrite Qmult_0_l. exact S0.
Qed.

(** * Back in the original order *)

Definition keyed (cs ms : list Q) : list bal_entry := combine cs (map (fun im => (fst im, snd im, 0%Q)) (combine (seq 0 (length cs)) ms)).

Lemma keyed_from cs : forall ms k, (length cs <= length ms)%nat ->
  let l : list bal_entry := combine cs (map (fun im => (fst im, snd im, 0%Q)) (combine (seq k (length cs)) ms)) in
  map ei l = seq k (length cs) /\
  (forall e, In e l -> exists j, ei e = (k + j)%nat /\ nth_error cs j = Some (ec e) /\ nth_error ms j = Some (em e) /\ er e = 0%Q).
Proof.
  induction cs as [|c cs IH]; intros ms k L; [split; [reflexivity|intros e []]|].
  destruct ms as [|m ms]; [cbn in L; lia|]. cbn in L. destruct (IH ms (S k)) as (I1 & I2); [lia|].
  cbn zeta in *. cbn [length seq combine map fst snd]. split; [cbn [map]; now rewrite I1|].
  intros e [<-|He].
  - exists O. cbn. repeat split. lia.
  - destruct (I2 e He) as (j & E1 & E2 & E3 & E4). exists (S j). repeat split; [lia|assumption..].
Qed.

Lemma keyed_spec cs ms : (length cs <= length ms)%nat ->
  map ei (keyed cs ms) = seq 0 (length cs) /\
  (forall e, In e (keyed cs ms) -> nth_error cs (ei e) = Some (ec e) /\ nth_error ms (ei e) = Some (em e) /\ er e = 0%Q).
Proof.
  intros L. destruct (keyed_from cs ms 0 L) as (A & B). split; [exact A|]. intros e He.
  destruct (B e He) as (j & E1 & E2 & E3 & E4). cbn in E1. rewrite E1. tauto.
Qed.

Definition at_index (es : list bal_entry) (j : nat) : option bal_entry := find (fun e => Nat.eqb (ei e) j) es.

Lemma find_entry es e : NoDup (map ei es) -> In e es -> at_index es (ei e) = Some e.
Proof.
  induction es as [|x es IH]; intros N I; [destruct I|]. cbn in N. apply NoDup_cons_iff in N. destruct N as [N1 N].
  unfold at_index. cbn [find]. destruct (Nat.eqb_spec (ei x) (ei e)) as [E|E].
  - destruct I as [<-|I]; [reflexivity|]. elim N1. rewrite E. now apply in_map.
  - destruct I as [<-|I]; [congruence|]. now apply IH.
Qed.

Lemma in_at_index es j e : at_index es j = Some e -> In e es /\ ei e = j.
Proof. intros H. apply find_some in H. destruct H as [H E]. apply Nat.eqb_eq in E. tauto. Qed.

(** What the result says of each entry *)
Record balanced (cs ms : list Q) (s : Q) (es' : list bal_entry) : Prop := {
  b_idx : Permutation (seq 0 (length cs)) (map ei es');
  b_val : forall e', In e' es' -> exists c m, nth_error cs (ei e') = Some c /\ nth_error ms (ei e') = Some m /\ (ec e' + er e' == c)%Q;
  b_sum : (qsum (map er es') <= s)%Q;
  b_pos : (forall j c m, nth_error cs j = Some c -> nth_error ms j = Some m -> (m <= c)%Q) -> forall e', In e' es' -> (0 <= er e')%Q }.

Lemma F2_same_idx es es' : Forall2 same_entry es es' -> map ei es' = map ei es.
Proof. induction 1 as [|e e' es es' (H & _) F IH]; [reflexivity|]. cbn. congruence. Qed.

Lemma qsum_zero l : (forall x, In x l -> x = 0%Q) -> (qsum l == 0)%Q.
Proof.
  induction l as [|x l IH]; intros H; [reflexivity|]. rewrite qsum_cons, IH by (intros; apply H; now right).
  rewrite (H x) by now left. reflexivity.
Qed.

Lemma loop_balanced cs ms s : (length cs <= length ms)%nat -> (0 <= s)%Q ->
  balanced cs ms s (reduce_loop 0 (length cs) s (sort_desc (keyed cs ms))).
Proof.
  intros L S0. destruct (keyed_spec cs ms L) as (KI & KV). assert (P := sort_perm (keyed cs ms)).
  assert (SV : forall e, In e (sort_desc (keyed cs ms)) -> nth_error cs (ei e) = Some (ec e) /\ nth_error ms (ei e) = Some (em e) /\ er e = 0%Q).
  { intros e He. apply KV. now apply (Permutation_in _ (Permutation_sym P)). }
  assert (R := loop_rel (length cs) 0 s (sort_desc (keyed cs ms))). constructor.
  - rewrite (F2_same_idx _ _ R), <- KI. now apply Permutation_map.
  - intros e' He'. destruct (Forall2_in_r _ _ _ _ R He') as (e & He & E1 & E2 & E3). destruct (SV e He) as (V1 & V2 & V3).
    exists (ec e), (em e). rewrite E1. split; [assumption|]. split; [assumption|]. rewrite E3, V3. ring.
  - eapply Qle_trans; [apply loop_sum; exact S0|]. rewrite qsum_zero; [lra|]. intros x Hx. apply in_map_iff in Hx.
    destruct Hx as (e & <- & He). now apply SV.
  - intros G e' He'. assert (M := loop_mono (length cs) 0 s (sort_desc (keyed cs ms)) S0).
    assert (M' := M (fun j e _ Hj => G _ _ _ (proj1 (SV e (nth_error_In _ _ Hj))) (proj1 (proj2 (SV e (nth_error_In _ _ Hj)))))).
    destruct (Forall2_in_r _ _ _ _ M' He') as (e & He & E). destruct (SV e He) as (_ & _ & V3). rewrite V3 in E. exact E.
Qed.

Definition at_result (f : bal_entry -> Q) (es' : list bal_entry) (n : nat) : list Q :=
  map (fun j => match at_index es' j with Some e => f e | None => 0%Q end) (seq 0 n).

Lemma result_at f es' n j x : nth_error (at_result f es' n) j = Some x -> Permutation (seq 0 n) (map ei es') ->
  exists e, In e es' /\ ei e = j /\ f e = x.
Proof.
  unfold at_result. intros H P. rewrite nth_error_map in H. destruct (nth_error (seq 0 n) j) as [j'|] eqn:E; [|discriminate]. cbn in H.
  assert (J : j' = j).
  { assert (Hj : (j < n)%nat) by (rewrite <- (seq_length n 0); apply nth_error_Some; congruence).
    apply nth_error_nth with (d := O) in E. rewrite seq_nth in E by exact Hj. lia. }
  subst j'. assert (I : In j (map ei es')) by (eapply Permutation_in; [exact P|eapply nth_error_In; exact E]).
  apply in_map_iff in I. destruct I as (e & Ej & Ie).
  assert (N : NoDup (map ei es')) by (eapply Permutation_NoDup; [exact P|apply seq_NoDup]).
  assert (F := find_entry es' e N Ie). rewrite Ej in F. rewrite F in H. injection H as <-. eauto.
Qed.

Lemma result_sum f es' n : Permutation (seq 0 n) (map ei es') -> (qsum (at_result f es' n) == qsum (map f es'))%Q.
Proof.
  intros P. unfold at_result. rewrite (qsum_perm _ _ (Permutation_map _ P)). rewrite map_map.
  assert (N : NoDup (map ei es')) by (eapply Permutation_NoDup; [exact P|apply seq_NoDup]).
  rewrite (map_ext_in _ f); [reflexivity|]. intros e He. now rewrite find_entry.
Qed.

Lemma reduce_eq cs ms s : (0 < s)%Q -> cs <> [] -> (length cs <= length ms)%nat ->
  reduce_balanced cs ms s =
    (let es' := reduce_loop 0 (length cs) s (sort_desc (keyed cs ms)) in Ok (at_result ec es' (length cs), at_result er es' (length cs))).
Proof.
  intros S0 C L. unfold reduce_balanced. assert (B : Qle_bool s 0 = false).
  { destruct (Qle_bool s 0) eqn:B; [|reflexivity]. apply Qle_bool_iff in B. lra. }
  rewrite B. destruct cs as [|c cs]; [congruence|]. cbn [orb].
  assert (L' : (length ms <? length (c :: cs))%nat = false) by (apply Nat.ltb_ge; exact L). rewrite L'.
  cbn zeta. fold (keyed (c :: cs) ms). unfold at_result, at_index. apply f_equal, f_equal2; apply map_ext; intros j.
  - change (fun e : bal_entry => Nat.eqb (fst (fst (snd e))) j) with (fun e => Nat.eqb (ei e) j).
    destruct (find _ _) as [[c' [[i m] r]]|]; reflexivity.
  - change (fun e : bal_entry => Nat.eqb (fst (fst (snd e))) j) with (fun e => Nat.eqb (ei e) j).
    destruct (find _ _) as [[c' [[i m] r]]|]; reflexivity.
Qed.

Lemma reduce_trivial cs ms s : (s <= 0)%Q \/ cs = [] -> reduce_balanced cs ms s = Ok (cs, map (fun _ => 0%Q) cs).
Proof.
  intros H. unfold reduce_balanced. destruct (Qle_bool s 0) eqn:B; [reflexivity|]. destruct cs; [reflexivity|].
  destruct H as [H|H]; [|discriminate]. apply Qle_bool_iff in H. congruence.
Qed.

Lemma reduce_ok cs ms s : (length cs <= length ms)%nat ->
  exists rs ds, reduce_balanced cs ms s = Ok (rs, ds) /\ length rs = length cs /\ length ds = length cs /\
    (forall j c r d, nth_error cs j = Some c -> nth_error rs j = Some r -> nth_error ds j = Some d -> (r + d == c)%Q) /\
    ((0 <= s)%Q -> (qsum ds <= s)%Q) /\
    ((forall j c m, nth_error cs j = Some c -> nth_error ms j = Some m -> (m <= c)%Q) -> forall d, In d ds -> (0 <= d)%Q).
Proof.
  intros L. destruct (Qlt_le_dec 0 s) as [S0|S0].
  - destruct cs as [|c0 cs0] eqn:Ecs.
    + rewrite reduce_trivial by now right. exists [], []. repeat split; try reflexivity; [intros [|] ? ? ? H; discriminate|intros; cbn; lra|intros _ d []].
    + rewrite <- Ecs in *. rewrite reduce_eq by (try assumption; subst; discriminate). cbn zeta.
      destruct (loop_balanced cs ms s L) as [I V S P]; [lra|]. set (es' := reduce_loop _ _ _ _) in *.
      do 2 eexists. split; [reflexivity|]. unfold at_result at 1 2. rewrite !map_length, seq_length. split; [reflexivity|]. split; [reflexivity|].
      split; [|split].
      * intros j c r d Hc Hr Hd. destruct (result_at _ _ _ _ _ Hr I) as (e & Ie & Ej & <-). destruct (result_at _ _ _ _ _ Hd I) as (e2 & Ie2 & Ej2 & <-).
        assert (N : NoDup (map ei es')) by (eapply Permutation_NoDup; [exact I|apply seq_NoDup]).
        assert (e2 = e).
        { assert (F := find_entry es' e N Ie). assert (F2 := find_entry es' e2 N Ie2). rewrite Ej in F. rewrite Ej2 in F2. congruence. }
        subst e2. destruct (V e Ie) as (c' & m & V1 & _ & V3). rewrite Ej in V1. rewrite V1 in Hc. injection Hc as <-. exact V3.
      * intros _. now rewrite result_sum.
      * intros G d Hd. apply In_nth_error in Hd. destruct Hd as [j Hd]. destruct (result_at _ _ _ _ _ Hd I) as (e & Ie & _ & <-). now apply P.
  - rewrite reduce_trivial by now left. do 2 eexists. split; [reflexivity|]. rewrite map_length. split; [reflexivity|]. split; [reflexivity|].
    split; [|split].
    + intros j c r d Hc Hr Hd. rewrite nth_error_map, Hr in Hd. cbn in Hd. injection Hd as <-. rewrite Hr in Hc. injection Hc as <-. ring.
    + intros H. rewrite qsum_zero; [assumption|]. intros x Hx. apply in_map_iff in Hx. now destruct Hx as (? & <- & _).
    + intros _ d Hd. apply in_map_iff in Hd. destruct Hd as (? & <- & _). apply Qle_refl.
Qed.

(** One entry alone is lowered to its minimum, or by the surplus. *)
Lemma reduce_one c m s : (0 < s)%Q ->
  exists r d, reduce_balanced [c] [m] s = Ok ([r], [d]) /\ (d == c - r)%Q /\ (((c - m <= s)%Q /\ r == m)%Q \/ ((s < c - m)%Q /\ (r == c - s)%Q)).
Proof.
  intros S0. rewrite reduce_eq; [|assumption|discriminate|cbn; lia]. cbn zeta.
  unfold keyed. cbn [length seq combine map fst snd sort_desc insert_desc]. rewrite loop_S. cbn [nth_error].
  cbn [ec em er fst snd]. change (kq 0) with 1%Q. destruct (Qle_bool _ _) eqn:B.
  - apply Qle_bool_iff in B. do 2 eexists. split; [reflexivity|]. cbn. split; [ring|]. left. split; [|ring]. lra.
  - assert (B' : (s < c - m)%Q).
    { apply Qnot_le_lt. intros H. assert (X : Qle_bool ((c - m) * 1) s = true) by (apply Qle_bool_iff; lra). congruence. }
    do 2 eexists. split; [reflexivity|]. cbn. split; [field|]. right. split; [exact B'|]. field.
Qed.

(** A surplus within the gap of the longest entry lowers that entry only, to its minimum at most. *)
Lemma loop_nothing n i s es : (s == 0)%Q -> (forall j e, (i <= j)%nat -> nth_error es j = Some e -> (em e <= ec e)%Q) ->
  Forall2 (fun e e' => (er e' == er e)%Q /\ (ec e' == ec e)%Q /\ em e' = em e /\ ei e' = ei e) es (reduce_loop i n s es).
Proof.
  intros S0 G. assert (M := loop_mono n i s es ltac:(lra) G). assert (T := loop_sum n i s es ltac:(lra)). assert (R := loop_rel n i s es).
  set (es' := reduce_loop i n s es) in *. clearbody es'. clear G.
  assert (X : forall a b : list bal_entry, Forall2 (fun e e' => er e <= er e')%Q a b -> (qsum (map er a) <= qsum (map er b))%Q).
  { induction 1; [apply Qle_refl|]. cbn [map]. rewrite !qsum_cons. lra. }
  revert T. induction R as [|e e' es es' (H1 & H2 & H3) R IH]; intros T; [constructor|].
  inversion M as [|? ? ? ? Me M']; subst. cbn [map] in T. rewrite !qsum_cons in T. assert (Xr := X _ _ M').
  constructor.
  - assert (er e' == er e)%Q by lra. repeat split; try assumption. lra.
  - apply IH; [assumption|]. lra.
Qed.

Lemma reduce_within cs ms s rs ds : (length cs <= length ms)%nat ->
  (forall j c m, nth_error cs j = Some c -> nth_error ms j = Some m -> (m <= c)%Q) ->
  (forall j c m, nth_error cs j = Some c -> nth_error ms j = Some m -> (forall c', In c' cs -> (c' <= c)%Q) -> (s <= c - m)%Q) ->
  reduce_balanced cs ms s = Ok (rs, ds) ->
  forall j r m, nth_error rs j = Some r -> nth_error ms j = Some m -> (m <= r)%Q.
Proof.
  intros L G W E. destruct (Qlt_le_dec 0 s) as [S0|S0].
  2:{ rewrite reduce_trivial in E by now left. injection E as <- <-. intros j r m Hr Hm. eauto. }
  destruct cs as [|c0 cs0] eqn:Ecs.
  { rewrite reduce_trivial in E by now right. injection E as <- <-. intros [|j] r m Hr; discriminate. }
  rewrite <- Ecs in *. rewrite reduce_eq in E by (try assumption; subst; discriminate). cbn zeta in E.
  destruct (loop_balanced cs ms s L) as [I V S P]; [lra|]. set (es' := reduce_loop _ _ _ _) in *. injection E as <- <-.
  intros j r m Hr Hm. destruct (result_at _ _ _ _ _ Hr I) as (e' & Ie' & Ej & <-).
  destruct (keyed_spec cs ms L) as (KI & KV). assert (Pm := sort_perm (keyed cs ms)). assert (So := sort_sorted (keyed cs ms)).
  assert (SV : forall e, In e (sort_desc (keyed cs ms)) -> nth_error cs (ei e) = Some (ec e) /\ nth_error ms (ei e) = Some (em e) /\ er e = 0%Q).
  { intros e He. apply KV. now apply (Permutation_in _ (Permutation_sym Pm)). }
  assert (SG : forall e, In e (sort_desc (keyed cs ms)) -> (em e <= ec e)%Q).
  { intros e He. destruct (SV e He) as (A & B & _). eapply G; eassumption. }
  assert (AllC : forall c', In c' cs -> exists e, In e (sort_desc (keyed cs ms)) /\ ec e = c').
  { intros c' Hc. apply In_nth_error in Hc. destruct Hc as [q Hq].
    assert (Iq : In q (map ei (keyed cs ms))).
    { rewrite KI. apply in_seq. split; [lia|]. cbn. apply nth_error_Some. congruence. }
    apply in_map_iff in Iq. destruct Iq as (e & Eq & Ie). exists e. split; [now apply (Permutation_in _ Pm)|].
    destruct (KV e Ie) as (A & _). rewrite Eq in A. congruence. }
  subst es'. destruct (length cs) as [|n] eqn:Ln; [subst; discriminate|].
  remember (sort_desc (keyed cs ms)) as es eqn:Ees. clear Ees.
  destruct es as [|e0 es]; [cbn in Ie'; destruct Ie'|].
  rewrite loop_S in Ie'. cbn [nth_error] in Ie'. change (kq 0) with 1%Q in Ie'.
  inversion So as [|? ? So' Fo]; subst. rewrite Forall_forall in Fo.
  destruct (SV e0 (or_introl eq_refl)) as (A0 & B0 & R0).
  assert (S1 : (s <= ec e0 - em e0)%Q).
  { eapply W; [exact A0|exact B0|]. intros c' Hc. destruct (AllC c' Hc) as (e & Ie & <-). destruct Ie as [<-|Ie]; [apply Qle_refl|].
    apply (Fo e Ie). }
  assert (G0 := SG e0 (or_introl eq_refl)).
  assert (Fin : exists e, In e (step (if Qle_bool ((ec e0 - em e0) * 1) s then (ec e0 - em e0)%Q else (s / 1)%Q) 1 (e0 :: es)) /\
     (ec e' == ec e)%Q /\ em e' = em e /\ ei e' = ei e).
  { destruct (Qle_bool _ _) eqn:B.
    - apply Qle_bool_iff in B. assert (Nt := loop_nothing n 1 (s - (ec e0 - em e0) * 1)%Q (step (ec e0 - em e0)%Q 1 (e0 :: es)) ltac:(lra)).
      assert (Nt' := Nt (fun j e Hj He => SG e (nth_error_In _ _ (eq_trans (eq_sym (step_nth _ _ _ _ Hj)) He)))).
      destruct (Forall2_in_r _ _ _ _ Nt' Ie') as (e & Ie & _ & X1 & X2 & X3). exists e. tauto.
    - exists e'. repeat split; try reflexivity. exact Ie'. }
  destruct Fin as (e & Ie & X1 & X2 & X3). rewrite X1. unfold step in Ie. cbn [firstn skipn map app] in Ie.
  assert (Hm2 : nth_error ms (ei e) = Some (em e) -> m = em e) by (rewrite <- X3, Hm; congruence).
  destruct Ie as [<-|Ie].
  - destruct e0 as [c [[i0 m0] r0]]. cbn [lower ec em ei fst snd] in *. rewrite (Hm2 B0). destruct (Qle_bool _ _) eqn:B; [lra|].
    setoid_replace (s / 1)%Q with s by field. lra.
  - destruct (SV e (or_intror Ie)) as (_ & B1 & _). rewrite (Hm2 B1). apply SG. now right.
Qed.
