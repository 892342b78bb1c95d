From Verif Require Import Base Model_Perm Spec_Perm Proof_PermCore Proof_Perm.
From Coq Require Import OrderedTypeEx OrderedType.
Open Scope result_scope.

(** * (string, Z) loops are totally ordered *)
Lemma string_compare_lt_trans x y z : String.compare x y = Lt -> String.compare y z = Lt ->
  String.compare x z = Lt.
Proof.
  intros H1 H2. apply String_as_OT.cmp_lt in H1, H2. apply String_as_OT.cmp_lt.
  eapply String_as_OT.lt_trans; eauto.
Qed.

Lemma string_compare_refl x : String.compare x x = Eq.
Proof. now apply String_as_OT.cmp_eq. Qed.

Lemma string_compare_eq x y : String.compare x y = Eq -> x = y.
Proof. apply String_as_OT.cmp_eq. Qed.

Lemma string_compare_antisym x y : String.compare y x = CompOpp (String.compare x y).
Proof.
  exact (String.compare_antisym y x).
Qed.

Lemma loop_ltb_irr x : loop_ltb x x = false.
Proof. unfold loop_ltb. rewrite string_compare_refl. apply Z.ltb_irrefl. Qed.

Lemma loop_ltb_trans x y z : loop_ltb x y = true -> loop_ltb y z = true -> loop_ltb x z = true.
Proof.
  unfold loop_ltb. destruct x as [x a], y as [y b], z as [z c]; cbn [fst snd].
  destruct (String.compare x y) eqn:E1; try discriminate;
    destruct (String.compare y z) eqn:E2; try discriminate; intros H1 H2.
  - apply string_compare_eq in E1. subst y. rewrite E2.
    apply Z.ltb_lt in H1, H2. apply Z.ltb_lt. lia.
  - apply string_compare_eq in E1. subst y. now rewrite E2.
  - apply string_compare_eq in E2. subst z. now rewrite E1.
  - now rewrite (string_compare_lt_trans x y z E1 E2).
Qed.

Lemma loop_ltb_tot x y : loop_ltb x y = false -> loop_ltb y x = false -> x = y.
Proof.
  unfold loop_ltb. destruct x as [x a], y as [y b]; cbn [fst snd].
  rewrite (string_compare_antisym x y). destruct (String.compare x y) eqn:E; cbn [CompOpp];
    try discriminate. intros H1 H2. apply string_compare_eq in E. subst y.
  apply Z.ltb_ge in H1, H2. f_equal. lia.
Qed.

(** * C06 *)
Lemma permutations_ok {A} (ltb : A -> A -> bool) :
  (forall x, ltb x x = false) ->
  (forall x y z, ltb x y = true -> ltb y z = true -> ltb x z = true) ->
  (forall x y, ltb x y = false -> ltb y x = false -> x = y) ->
  forall E, E <> [] -> exists V,
    NoDup V /\ (forall p, In p V <-> Permutation p E) /\
    forall fuel, (length V <= fuel)%nat -> permutations ltb fuel E = Ok V.
Proof.
  intros I T O E HE.
  destruct (generator_ok ltb I T O E HE) as (ps & Hnd & Hall & Hf).
  exists ps. repeat split; auto; try (now apply Hall). intros fuel Hfuel.
  unfold permutations. rewrite Hf; [|intros p _; now exists true|exact Hfuel]. f_equal.
  clear. induction ps as [|p ps IH]; cbn; [reflexivity|]. now rewrite IH.
Qed.

(** * C07 *)
Lemma py_index_ok {A} (l : list A) pos : position_in (length l) pos ->
  exists x, py_index l pos = Ok x /\ element_at l pos = Some x.
Proof.
  intros [H1 H2]. unfold py_index, element_at.
  destruct (Z.ltb_spec pos 0) as [Hn|Hn].
  - destruct (Z.leb_spec 0 pos); [lia|]. destruct (Z.ltb_spec (pos + Z.of_nat (length l)) 0); [lia|].
    destruct (Z.leb_spec (Z.of_nat (length l)) (pos + Z.of_nat (length l))); [lia|].
    destruct (Z.leb_spec (- pos) (Z.of_nat (length l))); [|lia]. cbn [orb].
    rewrite (Z.add_comm pos).
    destruct (nth_error l (Z.to_nat (Z.of_nat (length l) + pos))) as [x|] eqn:E; [now exists x|].
    apply nth_error_None in E. lia.
  - destruct (Z.leb_spec 0 pos); [|lia]. destruct (Z.ltb_spec pos 0); [lia|].
    destruct (Z.leb_spec (Z.of_nat (length l)) pos); [lia|]. cbn [orb].
    destruct (nth_error l (Z.to_nat pos)) as [x|] eqn:E; [now exists x|].
    apply nth_error_None in E. lia.
Qed.

Lemma py_index_err {A} (l : list A) pos : ~ position_in (length l) pos ->
  py_index l pos = Err IndexError.
Proof.
  intros H. unfold py_index, position_in in *. destruct (Z.ltb_spec pos 0).
  - destruct (Z.ltb_spec (pos + Z.of_nat (length l)) 0); [reflexivity|].
    destruct (Z.leb_spec (Z.of_nat (length l)) (pos + Z.of_nat (length l))); [reflexivity|lia].
  - destruct (Z.ltb_spec pos 0); [reflexivity|].
    destruct (Z.leb_spec (Z.of_nat (length l)) pos); [reflexivity|lia].
Qed.

Lemma positions_valid_ok ps p : (forall pos d, In (pos, d) ps -> position_in (length p) pos) ->
  exists b, positions_valid ps p = Ok b /\
    (b = true <-> forall pos d, In (pos, d) ps -> dim_at p pos d).
Proof.
  induction ps as [|[pos d] ps IH]; intros H; cbn [positions_valid].
  - exists true. split; [reflexivity|]. split; [intros _ pos d []|reflexivity].
  - destruct (py_index_ok p pos) as ([d' s] & E1 & E2); [apply (H pos d); now left|].
    rewrite E1. cbn [rbind fst]. destruct (eqb_spec d' d) as [->|Hne].
    + destruct IH as (b & Eb & Hb); [intros q e Hin; apply (H q e); now right|].
      exists b. split; [exact Eb|]. rewrite Hb. split.
      * intros G q e [E|Hin]; [injection E as <- <-; now exists s|now apply G].
      * intros G q e Hin. apply G. now right.
    + exists false. split; [reflexivity|]. split; [discriminate|]. intros G.
      destruct (G pos d) as (s' & Es); [now left|]. rewrite E2 in Es. congruence.
Qed.

Lemma positions_sizes_valid_ok ps p :
  (forall pos d s, In (pos, (d, s)) ps -> position_in (length p) pos) ->
  exists b, positions_sizes_valid ps p = Ok b /\
    (b = true <-> forall pos d s, In (pos, (d, s)) ps -> loop_at p pos d s).
Proof.
  induction ps as [|[pos [d s]] ps IH]; intros H; cbn [positions_sizes_valid].
  - exists true. split; [reflexivity|]. split; [intros _ pos d s []|reflexivity].
  - destruct (py_index_ok p pos) as ([d' s'] & E1 & E2); [apply (H pos d s); now left|].
    rewrite E1. cbn [rbind fst snd].
    destruct (eqb_spec d' d) as [->|Hne]; [destruct (Z.eqb_spec s' s) as [->|Hne]|]; cbn [andb].
    + destruct IH as (b & Eb & Hb); [intros q e f Hin; apply (H q e f); now right|].
      exists b. split; [exact Eb|]. rewrite Hb. split.
      * intros G q e f [E|Hin]; [injection E as <- <- <-; exact E2|now apply G].
      * intros G q e f Hin. apply G. now right.
    + exists false. split; [reflexivity|]. split; [discriminate|]. intros G.
      specialize (G pos d s (or_introl eq_refl)). unfold loop_at in G. congruence.
    + exists false. split; [reflexivity|]. split; [discriminate|]. intros G.
      specialize (G pos d s (or_introl eq_refl)). unfold loop_at in G. congruence.
Qed.

Lemma constrained_ok (E : list (string * Z)) ps qs : E <> [] ->
  (forall pos d, In (pos, d) ps -> position_in (length E) pos) ->
  (forall pos d s, In (pos, (d, s)) qs -> position_in (length E) pos) ->
  exists V keep,
    (forall fuel, (length V <= fuel)%nat -> permutations loop_ltb fuel E = Ok V) /\
    (forall fuel, (length V <= fuel)%nat ->
       constrained_permutations loop_ltb fuel E [positions_valid ps; positions_sizes_valid qs]
       = Ok (filter keep V)) /\
    (forall p, In p V <-> Permutation p E) /\
    (forall p, In p V -> (keep p = true <->
       (forall pos d, In (pos, d) ps -> dim_at p pos d) /\
       (forall pos d s, In (pos, (d, s)) qs -> loop_at p pos d s))).
Proof.
  intros HE Hps Hqs. set (cs := all_valid [positions_valid ps; positions_sizes_valid qs]).
  assert (Hc : forall p, Permutation p E -> exists b, cs p = Ok b /\
     (b = true <-> (forall pos d, In (pos, d) ps -> dim_at p pos d) /\
                   (forall pos d s, In (pos, (d, s)) qs -> loop_at p pos d s))).
  { intros p Hp. apply Permutation_length in Hp. unfold cs. cbn [all_valid].
    destruct (positions_valid_ok ps p) as (b1 & E1 & H1); [now rewrite Hp|].
    destruct (positions_sizes_valid_ok qs p) as (b2 & E2 & H2); [now rewrite Hp|].
    rewrite E1. cbn [rbind]. exists (b1 && b2). rewrite <- H1, <- H2. split.
    - destruct b1; [|reflexivity]. rewrite E2. now destruct b2.
    - destruct b1, b2; cbn; intuition congruence. }
  destruct (generator_ok loop_ltb loop_ltb_irr loop_ltb_trans loop_ltb_tot E HE)
    as (V & Hnd & Hall & Hf).
  exists V, (kept cs). split; [|split; [|split]].
  - intros fuel Hfuel. unfold permutations.
    rewrite Hf; [|intros p _; now exists true|exact Hfuel]. f_equal.
    clear. induction V as [|p ps' IH]; cbn; [reflexivity|]. now rewrite IH.
  - intros fuel Hfuel. unfold constrained_permutations. apply Hf; [|exact Hfuel].
    intros p Hp. destruct (Hc p Hp) as (b & Eb & _). now exists b.
  - exact Hall.
  - intros p Hp. apply Hall in Hp. destruct (Hc p Hp) as (b & Eb & Hb).
    unfold kept. now rewrite Eb.
Qed.

(** A pinned position that no ordering has. *)
Lemma constrained_out_of_range (E : list (string * Z)) pos d : E <> [] ->
  ~ position_in (length E) pos -> forall fuel,
  constrained_permutations loop_ltb (S fuel) E [positions_valid [(pos, d)]; positions_sizes_valid []]
  = Err IndexError.
Proof.
  intros HE Hpos fuel. destruct (generator_ok loop_ltb loop_ltb_irr loop_ltb_trans loop_ltb_tot E HE)
    as (V & Hnd & Hall & Hf).
  destruct (init_rel loop_ltb loop_ltb_irr loop_ltb_trans loop_ltb_tot E HE)
    as (hp & h & i & j & p & Ei & Ev & Hp).
  unfold constrained_permutations. rewrite Ei. cbn [rbind loop_from]. rewrite Ev.
  cbn [rbind all_valid positions_valid].
  rewrite py_index_err; [reflexivity|]. now rewrite (Permutation_length Hp).
Qed.
