(** Orderings whose entries are loops of prime-power size on both sides of a wildcard. *)
From Coq Require Import Lia Permutation Znumtheory.
From Verif Require Proof_Salsa.
From Verif Require Import Base Model_Loma Model_Perm Model_Alloc Model_Layer Model_TemporalStage
  Spec_Loma Spec_Perm Spec_Layer Spec_LomaCount Spec_PinStage
  Proof_Window Proof_LomaLoops Proof_LomaFactors Proof_Ordering Proof_TemporalStage Proof_LomaRun
  Proof_LomaPinLimit Proof_LomaPinPower.
Open Scope string_scope.
Open Scope list_scope.
Open Scope Z_scope.

Definition given_entry (l : string * Z) : string * option Z := (fst l, Some (snd l)).

Definition pos_of (len : Z) (b : bool) (c : nat) : Z := if b then Z.of_nat c - len else Z.of_nat c.

Lemma pos_of_inj len b c c' : pos_of len b c = pos_of len b c' -> c = c'.
Proof. unfold pos_of. destruct b; lia. Qed.

(** Entries with a size are added one after the other. *)
Lemma fold_given len b ps : forall l a qs,
  (forall c, (a <= c < a + length l)%nat -> ~ In (pos_of len b c) (keys qs)) ->
  fold_left (constraints_step len) (combine (seq a (length l)) (map given_entry l)) (b, ps, qs)
  = (b, ps, qs ++ combine (map (pos_of len b) (seq a (length l))) l).
Proof.
  induction l as [|[d n] l IH]; intros a qs H.
  - cbn. now rewrite app_nil_r.
  - cbn [length seq map combine fold_left].
    change (constraints_step len (b, ps, qs) (a, given_entry (d, n))) with (b, ps, dset (pos_of len b a) (d, n) qs).
    rewrite Proof_Window.dset_fresh by (apply H; cbn; lia).
    rewrite IH; [now rewrite <- app_assoc|].
    intros c Hc Hi. unfold keys in Hi. rewrite map_app in Hi. apply in_app_or in Hi. destruct Hi as [Hi|Hi].
    + apply (H c); [cbn; lia|exact Hi].
    + destruct Hi as [E|[]]. cbn in E. apply pos_of_inj in E. lia.
Qed.

Lemma keys_combine (l : list Z) (v : list (string * Z)) : length l = length v -> keys (combine l v) = l.
Proof.
  revert v. induction l as [|x l IH]; destruct v; intros H; cbn in *; try lia; try reflexivity.
  unfold keys in *. cbn. f_equal. apply IH. lia.
Qed.

Lemma values_combine (l : list Z) (v : list (string * Z)) : length l = length v -> values (combine l v) = v.
Proof.
  revert v. induction l as [|x l IH]; destruct v; intros H; cbn in *; try lia; try reflexivity.
  unfold values in *. cbn. f_equal. apply IH. lia.
Qed.

Lemma combine_app' {A B} (a1 : list A) (b1 : list B) a2 b2 : length a1 = length b1 ->
  combine (a1 ++ a2) (b1 ++ b2) = combine a1 b1 ++ combine a2 b2.
Proof. revert b1. induction a1; destruct b1; cbn; intros H; try lia; [reflexivity|]. f_equal. apply IHa1. lia. Qed.

Lemma pinned_around inner outer : inner ++ outer <> [] ->
  pinned_sizes (get_constraints (map given_entry inner ++ (wildcard, None) :: map given_entry outer))
  = Some (inner ++ outer).
Proof.
  intros Hne. unfold get_constraints. set (o := map given_entry inner ++ _). set (len := Z.of_nat (length o)).
  assert (Lo : length o = (length inner + S (length outer))%nat)
    by (unfold o; rewrite app_length; cbn; now rewrite !map_length).
  assert (E : combine (seq 0 (length o)) o
    = combine (seq 0 (length inner)) (map given_entry inner)
      ++ (length inner, (wildcard, None)) :: combine (seq (S (length inner)) (length outer)) (map given_entry outer)).
  { rewrite Lo, seq_app. unfold o. rewrite combine_app' by (now rewrite seq_length, map_length). reflexivity. }
  rewrite E, fold_left_app, fold_given by (intros c _ []). cbn [fold_left].
  cbn [app]. set (qi := combine _ inner).
  change (constraints_step len (false, [], qi) (length inner, (wildcard, None))) with (true, @nil (Z * string), qi).
  rewrite fold_given.
  - unfold pinned_sizes.
    set (qs := _ ++ _).
    assert (V : values qs = inner ++ outer).
    { unfold qs, values. rewrite map_app. f_equal; apply values_combine; now rewrite map_length, seq_length. }
    destruct qs as [|q qs]; [exfalso; apply Hne; now rewrite <- V|]. now rewrite V.
  - intros c Hc. unfold qi. rewrite keys_combine by (now rewrite map_length, seq_length).
    intros Hi. apply in_map_iff in Hi. destruct Hi as (c' & E' & _). unfold pos_of, len in E'. lia.
Qed.

Lemma around_meets inner rest outer :
  meets (map given_entry inner ++ (wildcard, None) :: map given_entry outer) (inner ++ rest ++ outer).
Proof.
  set (o := map given_entry inner ++ _).
  assert (Lo : length o = (length inner + S (length outer))%nat)
    by (unfold o; rewrite app_length; cbn; now rewrite !map_length).
  intros i e Hi Hw. destruct (Nat.lt_ge_cases i (length inner)) as [Hlt|Hge].
  - unfold o in Hi. rewrite nth_error_app1 in Hi by (now rewrite map_length).
    rewrite nth_error_map in Hi. destruct (nth_error inner i) as [x|] eqn:Ex; [|discriminate].
    injection Hi as <-. exists x. split; [|split].
    + split; [reflexivity|]. cbn. congruence.
    + intros _. now rewrite nth_error_app1.
    + intros Nb. exfalso. apply Nb. intros j e Hj He. unfold o in He.
      rewrite nth_error_app1 in He by (rewrite map_length; lia). rewrite nth_error_map in He.
      destruct (nth_error inner j); [|discriminate]. injection He as <-. unfold is_wild, given_entry. congruence.
  - assert (Li : (i < length o)%nat) by (apply nth_error_Some; congruence).
    unfold o in Hi. rewrite nth_error_app2 in Hi by (now rewrite map_length). rewrite map_length in Hi.
    destruct (i - length inner)%nat as [|k] eqn:Ek.
    + injection Hi as <-. exfalso. now apply Hw.
    + cbn in Hi. rewrite nth_error_map in Hi. destruct (nth_error outer k) as [x|] eqn:Ex; [|discriminate].
      injection Hi as <-. assert (Lk : (k < length outer)%nat) by (apply nth_error_Some; congruence).
      exists x. split; [|split].
      * split; [reflexivity|]. cbn. congruence.
      * intros B. exfalso. apply (B (length inner) (wildcard, None)); [lia| |reflexivity].
        unfold o. rewrite nth_error_app2 by (now rewrite map_length). now rewrite map_length, Nat.sub_diag.
      * intros _. rewrite !rev_app_distr, <- app_assoc, nth_error_app1 by (rewrite rev_length; lia).
        rewrite (nth_error_nth' (rev outer) x) by (rewrite rev_length; lia). f_equal.
        rewrite rev_nth by lia. replace (length outer - S (length o - 1 - i))%nat with k by lia.
        now apply nth_error_nth.
Qed.

Lemma pinned_entries inner outer o : inner ++ outer <> [] -> entries inner outer o ->
  pinned_sizes (get_constraints o) = Some (inner ++ outer).
Proof.
  intros Hne [->|[-> ->]]; [now apply pinned_around|].
  rewrite app_nil_r in *. unfold get_constraints. change (map _ inner) with (map given_entry inner).
  rewrite map_length, fold_given by (intros c _ []). cbn [app]. unfold pinned_sizes.
  set (qs := combine _ inner).
  assert (V : values qs = inner) by (apply values_combine; now rewrite map_length, seq_length).
  destruct qs as [|q qs]; [exfalso; apply Hne; now rewrite <- V|]. now rewrite V.
Qed.

Lemma entries_meet inner rest outer o : entries inner outer o -> meets o (inner ++ rest ++ outer).
Proof.
  intros [->|[-> ->]]; [apply around_meets|].
  intros i e Hi _. rewrite nth_error_map in Hi. destruct (nth_error inner i) as [x|] eqn:Ex; [|discriminate].
  injection Hi as <-. exists x. split; [split; [reflexivity|cbn; congruence]|]. split.
  - intros _. rewrite nth_error_app1; [exact Ex|]. apply nth_error_Some. congruence.
  - intros N. exfalso. apply N. intros j e _ He. rewrite nth_error_map in He.
    destruct (nth_error inner j); [|discriminate]. injection He as <-. unfold is_wild. congruence.
Qed.

Lemma nth_error_prefix {A} (l : list A) : forall p, (forall i x, nth_error l i = Some x -> nth_error p i = Some x) ->
  exists q, p = l ++ q.
Proof.
  induction l as [|a l IH]; intros p H; [now exists p|].
  pose proof (H 0%nat a eq_refl) as H0. destruct p as [|b p]; [discriminate|]. injection H0 as ->.
  destruct (IH p) as (q & ->); [intros i x Hi; exact (H (S i) x Hi)|]. now exists q.
Qed.

Lemma nth_error_rev {A} (l : list A) k x : nth_error l k = Some x ->
  nth_error (rev l) (length l - 1 - k) = Some x.
Proof.
  intros H. assert (Lk : (k < length l)%nat) by (apply nth_error_Some; congruence).
  rewrite (nth_error_nth' (rev l) x) by (rewrite rev_length; lia). f_equal.
  rewrite rev_nth by lia. replace (length l - S (length l - 1 - k))%nat with k by lia. now apply nth_error_nth.
Qed.

Lemma fits_given x y : fits (given_entry x) y -> y = x.
Proof. destruct x, y. intros [A B]. cbn in *. rewrite A. f_equal. now apply B. Qed.

Lemma meet_entries inner outer o p : entries inner outer o -> (length inner + length outer <= length p)%nat ->
  meets o p -> exists rest, p = inner ++ rest ++ outer.
Proof.
  intros Ho Lp M.
  assert (Hin : exists q, p = inner ++ q).
  { apply nth_error_prefix. intros i x Hi.
    assert (Li : (i < length inner)%nat) by (apply nth_error_Some; congruence).
    assert (He : forall j, (j < length inner)%nat -> nth_error o j = nth_error (map given_entry inner) j).
    { intros j Hj. destruct Ho as [->|[_ ->]]; [|reflexivity]. rewrite nth_error_app1; [reflexivity|now rewrite map_length]. }
    destruct (M i (given_entry x)) as (y & Fy & By & _).
    - rewrite He by exact Li. rewrite nth_error_map, Hi. reflexivity.
    - unfold is_wild, given_entry. congruence.
    - apply fits_given in Fy. subst y. apply By. intros j e Hj He'. rewrite He in He' by lia.
      rewrite nth_error_map in He'. destruct (nth_error inner j); [|discriminate]. injection He' as <-.
      unfold is_wild, given_entry. congruence. }
  destruct Hin as (q & ->). rewrite app_length in Lp.
  destruct Ho as [Ho|[-> _]]; [|exists q; now rewrite app_nil_r].
  assert (Lo : length o = (length inner + S (length outer))%nat)
    by (rewrite Ho, app_length; cbn; now rewrite !map_length).
  assert (Hout : exists r, rev q = rev outer ++ r).
  { apply nth_error_prefix. intros i x Hi.
    assert (Li : (i < length outer)%nat) by (rewrite <- rev_length; apply nth_error_Some; congruence).
    pose proof (nth_error_rev _ _ _ Hi) as Hk. rewrite rev_involutive, rev_length in Hk.
    set (k := (length outer - 1 - i)%nat) in *.
    destruct (M (length inner + S k)%nat (given_entry x)) as (y & Fy & _ & By).
    - rewrite Ho, nth_error_app2 by (rewrite map_length; lia). rewrite map_length.
      replace (length inner + S k - length inner)%nat with (S k) by lia. cbn. rewrite nth_error_map, Hk. reflexivity.
    - unfold is_wild, given_entry. congruence.
    - apply fits_given in Fy. subst y.
      assert (NB : ~ before_wild o (length inner + S k)).
      { intros B. apply (B (length inner) ("*", None)); [lia| |reflexivity].
        rewrite Ho, nth_error_app2 by (now rewrite map_length). now rewrite map_length, Nat.sub_diag. }
      specialize (By NB). replace (length o - 1 - (length inner + S k))%nat with i in By by (unfold k; lia).
      rewrite rev_app_distr, nth_error_app1 in By by (rewrite rev_length; lia). exact By. }
  destruct Hout as (r & Hr). exists (rev r). f_equal. rewrite <- (rev_involutive q), Hr, rev_app_distr, rev_involutive.
  reflexivity.
Qed.

(** The stage allocates the pinned loops with every order of the others between them. *)
Lemma stage_entries factorint : factorint_ok factorint ->
  forall lim layer_sizes unrolled ly spatial mt tops nodes (o : ordering) loops inner outer ts P,
  NoDup (keys layer_sizes) -> (forall d n, In (d, n) layer_sizes -> 1 <= n) ->
  (forall d s, In (d, s) unrolled -> (1 <= s)%Q) ->
  get_temporal_loops layer_sizes unrolled = Ok loops ->
  entries inner outer o -> inner ++ outer = powers ts -> ts <> [] ->
  (forall d p m, In (d, p, m) ts -> prime p /\ 1 <= m /\
     (p ^ exponents false ts d p | size_or_1 d loops) /\
     (2 <= m -> (p ^ (exponents true ts d p + 1) | size_or_1 d loops) /\
                occurs (powers ts) d (p ^ m) <= 1)) ->
  (exists d, loop_product d (inner ++ outer) <> size_or_1 d loops) ->
  (forall d, In d (keys loops) -> loops_on (inner ++ outer) d <= P) ->
  (forall l, lim = Some l -> Z.of_nat (length loops) * (P + 1) <= l) ->
  exists rest,
    (forall d, loop_product d (inner ++ rest ++ outer) = size_or_1 d loops) /\
    (forall l, lim = Some l -> Z.of_nat (length (inner ++ rest ++ outer)) <= l) /\
    ((forall p e, Permutation p rest ->
        allocator_run ly spatial mt tops (inner ++ p ++ outer) nodes = Err e ->
        e = MemoryHierarchyTooSmall \/ e = MemoryTooSmall) ->
     exists enough, forall fuel, (enough <= fuel)%nat ->
       let '(mappings, error) := temporal_stage factorint lim layer_sizes unrolled ly spatial mt tops nodes fuel o in
       (forall m, In m mappings <-> exists p, Permutation p rest /\
          allocator_run ly spatial mt tops (inner ++ p ++ outer) nodes = Ok m) /\
       (error = None \/ error = Some NoValidLoopOrdering) /\
       (error = None <-> mappings <> [])).
Proof.
  intros Hfac lim layer unrolled ly spatial mt tops nodes o loops inner outer ts P
    Hnd Hsz Hsp Hl Ho Hio Hts0 Hts Hleft HP Hlim.
  destruct (temporal_loops_cover layer unrolled Hnd Hsz Hsp) as (loops' & E' & Hnd' & Hgt & Hcov).
  rewrite Hl in E'. injection E' as <-.
  assert (Hne : loops <> []).
  { intros ->. destruct ts as [|[[d p] m] ts]; [congruence|].
    destruct (Hts d p m (or_introl eq_refl)) as (Pp & Hm & Hd & _). change (size_or_1 d []) with 1 in Hd.
    pose proof (exponents_nonneg false ts) as Hn. pose proof (prime_ge_2 p Pp) as P2.
    assert (1 <= exponents false ((d, p, m) :: ts) d p).
    { rewrite exponents_cons. rewrite String.eqb_refl, Z.eqb_refl. cbn [andb negb orb].
      assert (0 <= exponents false ts d p); [|lia]. apply Hn. intros d' p' m' Hi.
      destruct (Hts d' p' m' (or_intror Hi)) as (? & ? & _). now split. }
    assert (p ^ 1 <= p ^ exponents false ((d, p, m) :: ts) d p) by (apply Z.pow_le_mono_r; lia).
    apply Z.divide_pos_le in Hd; lia. }
  assert (HP' : forall d, In d (keys loops) -> loops_on (powers ts) d <= P) by (now rewrite <- Hio).
  destruct (power_pins_with_limit factorint Hfac loops Hnd' (fun d n H => proj1 (Hgt d n H)) ts Hts P (keys layer) lim Hne HP' Hlim)
    as (st & lpfs & E & Hprod & Hlen & Hocc).
  assert (HP0 : 0 <= P).
  { destruct loops as [|[d n] tl]; [congruence|]. specialize (HP d (or_introl eq_refl)).
    unfold loops_on in HP. lia. }
  assert (Hu : update_min_lpf_factor lim loops = lim).
  { destruct lim as [l|]; [|reflexivity]. cbn. specialize (Hlim l eq_refl).
    destruct (Z.ltb_spec l (Z.of_nat (length loops))) as [H|H]; [exfalso; nia|reflexivity]. }
  destruct (split_off (powers ts) lpfs Hocc) as (rest & Hr).
  assert (Hperm : Permutation (inner ++ rest ++ outer) lpfs).
  { rewrite <- Hio in Hr. symmetry. rewrite Hr, <- app_assoc. apply Permutation_app_head. apply Permutation_app_comm. }
  assert (Hpin : pinned_sizes (get_constraints o) = Some (powers ts)).
  { rewrite <- Hio. apply pinned_entries; [|exact Ho]. rewrite Hio. destruct ts; [congruence|discriminate]. }
  assert (Heng : engine_lpfs factorint (pinned_sizes (get_constraints o)) lim layer unrolled = Ok lpfs).
  { rewrite Hpin. unfold engine_lpfs. rewrite Hl. cbn [rbind]. rewrite Hu, E. reflexivity. }
  assert (Hprod' : forall d, loop_product d (inner ++ rest ++ outer) = size_or_1 d loops).
  { intros d. rewrite <- Hprod. now apply Proof_Salsa.loop_product_perm. }
  assert (Hrest : rest <> []).
  { intros ->. destruct Hleft as (d & Hd). apply Hd. now rewrite <- Hprod'. }
  exists rest. split; [exact Hprod'|]. split.
  { intros l ->. rewrite (Permutation_length Hperm). cbn zeta in Hlen. unfold loop in *. lia. }
  intros Ha.
  assert (Hc : is_complete o loops = Ok false).
  { assert (N1 : forall d n, In (d, n) loops -> n <> 1) by (intros d n Hi; apply Hgt in Hi; lia).
    destruct (complete_spec o loops Hnd' N1) as [C1 C2]. destruct Ho as [Ho|[-> Ho]].
    - apply C1. exists "*". rewrite Ho. apply in_or_app. right. now left.
    - rewrite app_nil_r in *. destruct (C2 inner Ho) as [_ C3].
      destruct C3 as (b & Eb & Hb).
      + intros d Hd H1. apply in_map_iff in Hd. destruct Hd as ([d' s] & <- & Hi). cbn [fst] in H1.
        assert (Hs : forall x, In x inner -> 2 <= snd x).
        { intros x Hx. rewrite Hio in Hx. unfold powers in Hx. apply in_map_iff in Hx.
          destruct Hx as ([[e p] m] & <- & Hx). cbn. destruct (Hts e p m Hx) as (Pp & Hm & _).
          pose proof (prime_ge_2 p Pp). assert (p ^ 1 <= p ^ m) by (apply Z.pow_le_mono_r; lia). lia. }
        assert (Hg : forall l, (forall x, In x l -> 2 <= snd x) -> 1 <= loop_product d' l /\
                   (In (d', s) l -> 2 <= loop_product d' l)).
        { induction l as [|[e n] l IH]; intros Hx; [split; [discriminate|intros []]|].
          destruct IH as [I1 I2]; [intros x Hx'; apply Hx; now right|].
          pose proof (Hx (e, n) (or_introl eq_refl)) as Hn2. cbn [snd] in Hn2.
          unfold loop_product in *. cbn [filter fst]. destruct (eqb e d') eqn:Ee.
          - cbn [map snd]. rewrite zprod_cons. split; [nia|]. intros _. nia.
          - split; [exact I1|]. intros [Ex|Hi']; [|now apply I2]. injection Ex as -> ->.
            rewrite eqb_refl in Ee. discriminate. }
        destruct (Hg inner Hs) as [_ G]. specialize (G Hi). lia.
      + rewrite Eb. f_equal. destruct b; [|reflexivity]. exfalso. destruct Hleft as (d & Hd). apply Hd.
        now apply (proj1 Hb eq_refl). }
  assert (Lo : (length o <= length lpfs)%nat).
  { pose proof (Permutation_length Hperm) as L. unfold loop, ordering in *. rewrite !app_length in L.
    destruct rest as [|r rest]; [congruence|]. cbn [length] in L.
    destruct Ho as [->|[-> ->]]; rewrite ?app_length; cbn [length] in *; rewrite !map_length; lia. }
  assert (Hlne : lpfs <> []).
  { intros ->. apply Permutation_sym, Permutation_nil in Hperm. apply app_eq_nil in Hperm. destruct Hperm as [_ Hp].
    apply app_eq_nil in Hp. tauto. }
  assert (Heq : forall p, Permutation p lpfs /\ meets o p <-> exists q, Permutation q rest /\ p = inner ++ q ++ outer).
  { intros p. split.
    - intros [Hp Hm]. destruct (meet_entries inner outer o p Ho) as (q & ->); [|exact Hm|].
      + pose proof (Permutation_length Hp) as L1. pose proof (Permutation_length Hperm) as L2.
        unfold loop in *. rewrite !app_length in L2. lia.
      + exists q. split; [|reflexivity]. rewrite <- Hperm in Hp.
        apply Permutation_app_inv_l, Permutation_app_inv_r in Hp. exact Hp.
    - intros (q & Hq & ->). split; [rewrite <- Hperm; now rewrite Hq|now apply entries_meet]. }
  pose proof (stage_constrained factorint lim layer unrolled ly spatial mt tops nodes o loops lpfs Hl Hc Heng Hlne Lo)
    as (tried & Ht & enough & Hrun).
  exists enough. intros fuel Hf. rewrite (Hrun fuel Hf).
  destruct (loma_run_spec (fun ordering => allocator_run ly spatial mt tops ordering nodes) tried) as (S1 & S2 & S3 & S4).
  { intros p e Hp. apply Ht, Heq in Hp. destruct Hp as (q & Hq & ->). now apply Ha. }
  destruct (loma_run (fun ordering => allocator_run ly spatial mt tops ordering nodes) tried) as [mappings error].
  cbn [fst snd] in *.
  assert (Mem : forall m, In m mappings <-> exists p, In p tried /\ allocator_run ly spatial mt tops p nodes = Ok m).
  { intros m. rewrite S1, in_flat_map. split; intros (p & Hp & H); exists p; split; auto.
    - destruct (allocator_run _ _ _ _ p _); [destruct H as [<-|[]]; reflexivity|destruct H].
    - rewrite H. now left. }
  split; [|split].
  - intros m. rewrite Mem. split.
    + intros (p & Hp & Hm). apply Ht, Heq in Hp. destruct Hp as (q & Hq & ->). eauto.
    + intros (q & Hq & Hm). exists (inner ++ q ++ outer). split; [|exact Hm]. apply Ht, Heq. eauto.
  - destruct error as [e|]; [right; f_equal; now apply S4|now left].
  - rewrite S2. split.
    + intros (p & m & Hp & Hm). intros En. assert (Hi : In m mappings) by (apply Mem; eauto). rewrite En in Hi. destruct Hi.
    + intros N. destruct mappings as [|m l]; [congruence|]. destruct (proj1 (Mem m) (or_introl eq_refl)) as (p & Hp & Hm). eauto.
Qed.
