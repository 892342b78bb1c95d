(** Proofs for the generator of spatial mappings. *)
From Coq Require Import QArith Lqa Sorted.
From Verif Require Import Base Model_SpatialMap Spec_SpatialMap Proof_SpatialMap Proof_AllocSearch
  Model_Generation Spec_Generation Proof_Bandwidth Proof_Capacity.
Local Open Scope Z_scope.
Local Open Scope result_scope.

Lemma F2_length {A B} (R : A -> B -> Prop) l l' : Forall2 R l l' -> length l = length l'.
Proof. induction 1; cbn; congruence. Qed.

(** * Divisors, combinations, products *)
Lemma divisors_In n f : 1 <= n -> In f (divisors n) <-> 1 <= f /\ (f | n).
Proof.
  intros Hn. unfold divisors. rewrite filter_In, in_map_iff, Z.abs_eq by lia. split.
  - intros ((k & <- & Hk) & Hm). apply in_seq in Hk. split; [lia|]. apply Z.mod_divide; [lia|]. now apply Z.eqb_eq.
  - intros [H1 H2]. assert (f <= n) by (apply Z.divide_pos_le; [lia|exact H2]). split.
    + exists (Z.to_nat f). split; [lia|]. apply in_seq. lia.
    + apply Z.eqb_eq. apply Z.mod_divide; [lia|exact H2].
Qed.

Lemma cart_In {A} (ls : list (list A)) (x : list A) : In x (cart ls) <-> Forall2 (fun a l => In a l) x ls.
Proof.
  revert x. induction ls as [|l ls IH]; intros x; cbn [cart].
  - split; [intros [<-|[]]; constructor|]. intros H. inversion H. now left.
  - rewrite in_flat_map. split.
    + intros (a & Ha & H). apply in_map_iff in H as (y & <- & Hy). constructor; [easy|]. now apply IH.
    + intros H. inversion H as [|a ? y ? Ha Hy]; subst. exists a. split; [easy|]. apply in_map. now apply IH.
Qed.

Lemma combinations_In {A} k (l x : list A) : In x (combinations k l) <-> length x = k /\ sublist x l.
Proof.
  revert k x. induction l as [|a l IH]; intros [|k] x; cbn [combinations].
  - split; [intros [<-|[]]; split; [reflexivity|constructor]|]. intros [H _]. destruct x; [now left|discriminate].
  - split; [easy|]. intros [H1 H2]. inversion H2; subst. discriminate.
  - split; [intros [<-|[]]; split; [reflexivity|constructor]|]. intros [H _]. destruct x; [now left|discriminate].
  - rewrite in_app_iff, in_map_iff. split.
    + intros [(y & <- & H)|H]; apply IH in H as [H1 H2].
      * cbn. split; [congruence|now constructor].
      * split; [easy|now constructor].
    + intros [H1 H2]. inversion H2 as [|b y l' H3|b y l' H3]; subst; [discriminate| |].
      * left. exists y. split; [reflexivity|]. apply IH. cbn in H1. split; [congruence|easy].
      * right. now apply IH.
Qed.
Lemma sublist_In {A} (l l' : list A) x : sublist l l' -> In x l -> In x l'.
Proof. induction 1 as [|a l l' H IH|a l l' H IH]; intros Hi; [easy| |right; now apply IH]. destruct Hi as [->|Hi]; [now left|right; now apply IH]. Qed.
Lemma sublist_NoDup {A} (l l' : list A) : sublist l l' -> NoDup l' -> NoDup l.
Proof.
  induction 1 as [|a l l' H IH|a l l' H IH]; intros Hn; [constructor| |]; inversion Hn as [|? ? H1 H2]; subst; [|now apply IH].
  constructor; [|now apply IH]. intros Hi. apply H1. now apply (sublist_In l).
Qed.
Lemma sublist_length {A} (l l' : list A) : sublist l l' -> (length l <= length l')%nat.
Proof. induction 1; cbn; lia. Qed.

(** * Choices *)
Lemma keys_combine {V} (ks : list string) (vs : list V) : length ks = length vs -> keys (combine ks vs) = ks.
Proof.
  revert vs. induction ks as [|k ks IH]; intros [|v vs] H; try easy. unfold keys in *. cbn [combine map fst]. f_equal.
  apply IH. now injection H.
Qed.
Lemma values_combine {V} (ks : list string) (vs : list V) : length ks = length vs -> values (combine ks vs) = vs.
Proof.
  revert vs. induction ks as [|k ks IH]; intros [|v vs] H; try easy. unfold values in *. cbn [combine map snd]. f_equal.
  apply IH. now injection H.
Qed.
Lemma combine_keys_values {V} (m : dict string V) : combine (keys m) (values m) = m.
Proof. induction m as [|[k v] m IH]; [reflexivity|]. unfold keys, values in *. cbn [map combine fst snd]. now rewrite IH. Qed.

Definition pool (mx : dict string Z) (d : string) : list Z :=
  match dget d mx with Some m => non_trivial_divisors m | None => [0] end.

Lemma pool_In mx d f : (forall d x, dget d mx = Some x -> 1 <= x) ->
  In f (pool mx d) <-> (exists x, dget d mx = Some x /\ 1 < f <= x /\ (f | x)) \/ (dget d mx = None /\ f = 0).
Proof.
  intros Hmx. unfold pool. destruct (dget d mx) as [x|] eqn:E.
  - unfold non_trivial_divisors. rewrite filter_In, divisors_In by now apply (Hmx d). split.
    + intros [[H1 H2] H3]. left. exists x. apply andb_true_iff in H3 as [H3 H4]. apply Z.ltb_lt in H3. apply Z.leb_le in H4. easy.
    + intros [(y & [= <-] & H1 & H2)|[H _]]; [|discriminate]. split; [split; [lia|easy]|].
      apply andb_true_iff. split; [apply Z.ltb_lt|apply Z.leb_le]; lia.
  - split; [intros [<-|[]]; now right|]. intros [(x & H & _)|[_ ->]]; [discriminate|now left].
Qed.

Lemma mixed_In mx h m : (forall d x, dget d mx = Some x -> 1 <= x) ->
  In m (mixed_mappings mx h) <-> (2 <= length m)%nat /\ sublist (keys m) h /\
    forall d u, In (d, u) m -> (exists f x, dget d mx = Some x /\ u = inject_Z f /\ 1 < f <= x /\ (f | x)) \/ (dget d mx = None /\ u = inject_Z 0).
Proof.
  intros Hmx. unfold mixed_mappings. rewrite in_flat_map. split.
  - intros (n & Hn & H). apply in_seq in Hn. apply in_flat_map in H as (dims & Hd & H). apply combinations_In in Hd as [Hl Hs].
    apply in_map_iff in H as (fs & <- & H). apply cart_In in H.
    assert (Hlen : length dims = length (map inject_Z fs)).
    { apply F2_length in H. rewrite map_length in *. congruence. }
    split; [|split].
    + rewrite combine_length, <- Hlen, Nat.min_id, Hl. lia.
    + now rewrite keys_combine.
    + intros d u Hi. assert (Hf : exists f, u = inject_Z f /\ In f (pool mx d)).
      { clear - H Hi. revert fs H Hi. induction dims as [|d0 dims IH]; intros fs H Hi; [easy|]. cbn [map] in H. inversion H as [|f ? fs' ? Hf Hfs]; subst.
        cbn [map combine] in Hi. destruct Hi as [[= <- <-]|Hi]; [now exists f|]. now apply (IH fs'). }
      destruct Hf as (f & -> & Hf). apply pool_In in Hf as [(x & E & H1 & H2)|[E ->]]; [|now right|exact Hmx]. left. now exists f, x.
  - intros (Hl & Hs & Hu). exists (length m). split.
    { apply in_seq. apply sublist_length in Hs. unfold keys in Hs. rewrite map_length in Hs. lia. }
    apply in_flat_map. exists (keys m). split; [apply combinations_In; split; [unfold keys; now rewrite map_length|easy]|].
    assert (Hf : exists fs, values m = map inject_Z fs /\ Forall2 (fun f l => In f l) fs (map (pool mx) (keys m))).
    { clear - Hu Hmx. induction m as [|[d u] m IH]; [exists []; split; [reflexivity|constructor]|].
      destruct IH as (fs & E & F); [intros; apply Hu; now right|].
      assert (Hd : exists f, u = inject_Z f /\ In f (pool mx d)).
      { destruct (Hu d u (or_introl eq_refl)) as [(f & x & E1 & -> & H1 & H2)|[E1 ->]].
        - exists f. split; [reflexivity|]. apply pool_In; [exact Hmx|]. left. now exists x.
        - exists 0. split; [reflexivity|]. apply pool_In; [exact Hmx|]. now right. }
      destruct Hd as (f & -> & Hf). exists (f :: fs). split.
      - change (values ((d, inject_Z f) :: m)) with (inject_Z f :: values m). now rewrite E.
      - change (keys ((d, inject_Z f) :: m)) with (d :: keys m). now constructor. }
    destruct Hf as (fs & E & F). apply in_map_iff. exists fs. split; [|now apply cart_In]. rewrite <- E. apply combine_keys_values.
Qed.

Lemma single_choice mix h mx s m : (forall d x, dget d mx = Some x -> 1 <= x) ->
  In m (single_oa_mappings mix h mx s) <-> choice mix h mx s m.
Proof.
  intros Hmx. unfold single_oa_mappings, choice. rewrite in_app_iff.
  assert (H1 : In m (flat_map (fun d => match dget d mx with Some m => map (fun f => [(d, inject_Z f)]) (rev (divisors m)) | None => [] end) h) <->
    exists d f x, In d h /\ dget d mx = Some x /\ 1 <= f /\ (f | x) /\ m = [(d, inject_Z f)]).
  { rewrite in_flat_map. split.
    - intros (d & Hd & H). destruct (dget d mx) as [x|] eqn:E; [|easy]. apply in_map_iff in H as (f & <- & H).
      apply in_rev in H. apply divisors_In in H as [Ha Hb]; [|now apply (Hmx d)]. now exists d, f, x.
    - intros (d & f & x & Hd & E & Ha & Hb & ->). exists d. split; [easy|]. rewrite E. apply in_map_iff. exists f. split; [reflexivity|].
      apply -> in_rev. apply divisors_In; [now apply (Hmx d)|easy]. }
  rewrite H1. destruct mix.
  - rewrite filter_In, mixed_In by exact Hmx.
    assert (Hg : negb (qgt (utilization m) (inject_Z s)) = true <-> (qprod (values m) <= inject_Z s)%Q).
    { unfold utilization. destruct (qgt_spec (qprod (values m)) (inject_Z s)); cbn; split; intros; try easy; lra. }
    rewrite Hg. intuition.
  - split; [intros [H|[]]; now left|]. intros [H|[H _]]; [now left|discriminate].
Qed.

(** * Locations *)
Lemma number_spec {A} (dflt : A) (gens : list (list A)) : forall pre,
  Forall2 (fun ls g => (forall l, In l ls -> In (nth l (pre ++ concat gens) dflt) g /\ (length pre <= l < length (pre ++ concat gens))%nat) /\
                       (forall m, In m g -> exists l, In l ls /\ nth l (pre ++ concat gens) dflt = m))
    (number (length pre) gens) gens.
Proof.
  induction gens as [|g gens IH]; intros pre; cbn [number]; constructor.
  - cbn [concat]. split.
    + intros l Hl. apply in_seq in Hl. split; [|rewrite !app_length; lia].
      rewrite app_nth2 by lia. rewrite app_nth1 by lia. apply nth_In. lia.
    + intros m Hm. destruct (In_nth _ _ dflt Hm) as (i & Hi & E). exists (length pre + i)%nat. split; [apply in_seq; lia|].
      rewrite app_nth2 by lia. replace (length pre + i - length pre)%nat with i by lia. now rewrite app_nth1.
  - specialize (IH (pre ++ g)%list). rewrite app_length in IH. cbn [concat]. rewrite app_assoc. revert IH. apply F2_impl.
    intros ls g' [H1 H2]. split; [|exact H2]. intros l Hl. destruct (H1 l Hl) as [H3 H4]. split; [exact H3|lia].
Qed.

Lemma number_NoDup {A} (gens : list (list A)) : forall start locs, Forall2 (fun l ls => In l ls) locs (number start gens) ->
  NoDup locs /\ forall l, In l locs -> (start <= l)%nat.
Proof.
  induction gens as [|g gens IH]; intros start locs H; cbn [number] in H; inversion H as [|l ? locs' ? Hl Hr]; subst; [split; [constructor|easy]|].
  apply in_seq in Hl. apply IH in Hr as [H1 H2]. split.
  - constructor; [|exact H1]. intros Hi. apply H2 in Hi. lia.
  - intros l' [<-|Hi]; [lia|]. apply H2 in Hi. lia.
Qed.

Lemma load_combine h ks locs : load h (combine ks locs) = combine ks (map (fun l => nth l h []) locs).
Proof. revert locs. induction ks as [|k ks IH]; intros [|l locs]; try reflexivity. unfold load in *. cbn [combine map fst snd]. now rewrite IH. Qed.

Lemma candidates_locs ks (gens : list (list (dict string Q))) : length ks = length gens ->
  (forall locs, In locs (cart (number 0 gens)) ->
     exists ms, load (concat gens) (combine ks locs) = combine ks ms /\ Forall2 (fun m g => In m g) ms gens /\
       length locs = length ks /\ NoDup locs /\ forall l, In l locs -> (l < length (concat gens))%nat) /\
  (forall ms, Forall2 (fun m g => In m g) ms gens ->
     exists locs, In locs (cart (number 0 gens)) /\ load (concat gens) (combine ks locs) = combine ks ms).
Proof.
  intros Hl. assert (Hn := number_spec (A := dict string Q) [] gens []). cbn [app length] in Hn.
  assert (Hlen : length (number 0 gens) = length gens) by exact (F2_length _ _ _ Hn). split.
  - intros locs H. apply cart_In in H. destruct (number_NoDup gens 0 locs H) as [Hnd _].
    exists (map (fun l => nth l (concat gens) []) locs). split; [apply load_combine|].
    assert (Hll : length locs = length (number 0 gens)) by exact (F2_length _ _ _ H).
    split; [|split; [congruence|split; [exact Hnd|]]].
    + clear - H Hn. revert Hn H. generalize (number 0 gens). generalize (concat gens). intros h ns Hn. revert locs.
      induction Hn as [|ls g ns' gens' [H1 H2] F IH]; intros locs H; inversion H as [|x ? xs ? Hx Hxs]; subst; cbn [map]; [exact (Forall2_nil _)|]. constructor; [now apply H1|now apply IH].
    + clear - H Hn. revert Hn H. generalize (number 0 gens). generalize (concat gens). intros h ns Hn. revert locs.
      induction Hn as [|ls g ns' gens' [H1 H2] F IH]; intros locs H; inversion H as [|x ? xs ? Hx Hxs]; subst; [easy|].
      intros l [<-|Hi]; [now apply H1|now apply (IH xs)].
  - intros ms H.
    assert (G : exists locs, Forall2 (fun l ls => In l ls) locs (number 0 gens) /\ map (fun l => nth l (concat gens) []) locs = ms).
    { clear - H Hn. revert Hn. generalize (number 0 gens). generalize (concat gens). intros h ns Hn. revert ms H.
      induction Hn as [|ls g ns' gens' [H1 H2] F IH]; intros ms H; inversion H as [|x ? xs ? Hx Hxs]; subst; [exists []; split; [constructor|reflexivity]|].
      destruct (IH xs Hxs) as (locs & L1 & L2). destruct (H2 x Hx) as (l & Hl & E). exists (l :: locs). split; [now constructor|].
      cbn [map]. now rewrite E, L2. }
    destruct G as (locs & G1 & <-). exists locs. split; [now apply cart_In|apply load_combine].
Qed.

(** * Sorting *)
Lemma insert_perm {A} (x : Q * A) l : Permutation (x :: l) (insert_desc x l).
Proof.
  induction l as [|y l IH]; [apply Permutation_refl|]. cbn [insert_desc]. destruct (qgt (fst y) (fst x)); [|apply Permutation_refl].
  etransitivity; [apply perm_swap|]. now constructor.
Qed.
Lemma sort_perm {A} (l : list (Q * A)) : Permutation l (sort_desc l).
Proof. induction l as [|x l IH]; [constructor|]. cbn [sort_desc]. etransitivity; [|apply insert_perm]. now constructor. Qed.
Definition desc {A} (a b : Q * A) : Prop := (fst b <= fst a)%Q.
Lemma insert_sorted {A} (x : Q * A) l : StronglySorted desc l -> StronglySorted desc (insert_desc x l).
Proof.
  induction 1 as [|y l Hs IH Hf]; cbn [insert_desc]; [repeat constructor|].
  destruct (qgt_spec (fst y) (fst x)) as [H|H].
  - constructor; [exact IH|]. rewrite Forall_forall in *. intros z Hz. apply (Permutation_in _ (Permutation_sym (insert_perm x l))) in Hz.
    destruct Hz as [<-|Hz]; [unfold desc; lra|now apply Hf].
  - constructor; [now constructor|]. constructor; [unfold desc; lra|]. rewrite Forall_forall in *. intros z Hz. apply Hf in Hz. unfold desc in *. lra.
Qed.
Lemma sort_sorted {A} (l : list (Q * A)) : StronglySorted desc (sort_desc l).
Proof. induction l as [|x l IH]; [constructor|]. cbn [sort_desc]. now apply insert_sorted. Qed.

Lemma firstn_sorted {A} n (l : list (Q * A)) : StronglySorted desc l ->
  StronglySorted desc (firstn n l) /\ forall x, In x l -> In x (firstn n l) \/ forall y, In y (firstn n l) -> desc y x.
Proof.
  revert l. induction n as [|n IH]; intros l Hs; cbn [firstn]; [split; [constructor|]; intros; now right|].
  destruct Hs as [|a l Hs Hf]; [split; [constructor|easy]|]. destruct (IH l Hs) as [I1 I2]. rewrite Forall_forall in Hf. split.
  - constructor; [exact I1|]. apply Forall_forall. intros y Hy. apply Hf. rewrite <- (firstn_skipn n l). apply in_or_app. now left.
  - intros x [->|Hx]; [left; now left|]. destruct (I2 x Hx) as [H|H]; [left; now right|]. right. intros y [<-|Hy]; [now apply Hf|now apply H].
Qed.

(** * Validity of a candidate *)
Lemma is_valid_total oa maxu sizes sm : (forall o, In o (keys sm) <-> In o (keys oa)) -> (forall o, In o (keys oa) -> In o (keys maxu)) ->
  exists b, is_valid (Some oa) maxu sizes sm = Ok b.
Proof.
  intros Hk Hm. unfold is_valid.
  replace (forallb (fun o => dmem o oa) (keys sm)) with true by (symmetry; apply forallb_forall; intros o Ho; apply dmem_keys; now apply Hk).
  replace (forallb (fun o => dmem o sm) (keys oa)) with true by (symmetry; apply forallb_forall; intros o Ho; apply dmem_keys; now apply Hk).
  cbn [negb]. assert (H : exists b, oa_valid maxu oa sm = Ok b).
  { assert (Hk' : forall o, In o (keys sm) -> In o (keys oa)) by (intros o; apply Hk). clear Hk.
    induction sm as [|[o m] sm IH]; [now exists true|]. cbn [oa_valid].
    assert (Ho : In o (keys oa)) by (apply Hk'; now left).
    destruct (key_dget o maxu (Hm o Ho)) as (lim & El). destruct (key_dget o oa Ho) as (s & Es).
    assert (Hc : exists b, match m with [] => Ok true | _ => lim <- dgetr o maxu ;; Ok (dims_valid lim m) end = Ok b).
    { destruct m; [now exists true|]. unfold dgetr. rewrite El. cbn [of_option rbind]. eauto. }
    destruct Hc as (b & ->). cbn [rbind]. destruct b; [|now exists false]. unfold dgetr. rewrite Es. cbn [of_option rbind].
    destruct (qgt (utilization m) s); [now exists false|]. apply IH. intros o' Ho'. apply Hk'. now right. }
  destruct H as (b & ->). cbn [rbind]. destruct b; [|now exists false]. destruct (negb _); eauto.
Qed.

Lemma rfilter_ok {A} (f : A -> result bool) l : (forall x, In x l -> exists b, f x = Ok b) ->
  exists l', rfilter f l = Ok l' /\ forall x, In x l' <-> In x l /\ f x = Ok true.
Proof.
  induction l as [|x l IH]; intros H; [exists []; split; [reflexivity|]; cbn; tauto|].
  destruct (H x (or_introl eq_refl)) as (b & Eb). destruct IH as (l' & E & Hl); [intros; apply H; now right|].
  cbn [rfilter]. rewrite Eb. cbn [rbind]. rewrite E. cbn [rbind]. eexists. split; [reflexivity|].
  intros y. destruct b; cbn [In]; rewrite Hl; (split; [|]).
  - intros [->|[H1 H2]]; [split; [now left|easy]|split; [now right|easy]].
  - intros [[->|H1] H2]; [now left|right; easy].
  - intros [H1 H2]. split; [now right|easy].
  - intros [[->|H1] H2]; [congruence|easy].
Qed.

(** * The objects *)
Definition obj_low (m m' : dict string Q) : Prop := lowered_oa m m' \/ m' = m.
Definition hlow (h h' : list (dict string Q)) : Prop :=
  (length h <= length h')%nat /\ forall l, (l < length h)%nat -> obj_low (nth l h []) (nth l h' []).

Lemma obj_low_trans a b c : obj_low a b -> obj_low b c -> obj_low a c.
Proof. intros [H| ->] [H'| ->]; [left; eapply lowered_oa_trans; eassumption|now left|now left|now right]. Qed.
Lemma hlow_refl h : hlow h h. Proof. split; [lia|]. intros. now right. Qed.
Lemma hlow_trans a b c : hlow a b -> hlow b c -> hlow a c.
Proof. intros [H1 H2] [H3 H4]. split; [lia|]. intros l Hl. eapply obj_low_trans; [now apply H2|apply H4; lia]. Qed.
Lemma hlow_app h ms : hlow h (h ++ ms).
Proof. split; [rewrite app_length; lia|]. intros l Hl. right. now rewrite app_nth1. Qed.

Lemma set_nth_length {A} n (x : A) l : length (set_nth n x l) = length l.
Proof. revert n. induction l as [|y l IH]; intros [|n]; cbn; try reflexivity. now rewrite IH. Qed.
Lemma nth_set_nth {A} n (x d : A) l k : (n < length l)%nat -> nth k (set_nth n x l) d = if (k =? n)%nat then x else nth k l d.
Proof.
  revert n k. induction l as [|y l IH]; intros [|n] [|k] H; cbn in *; try lia; try reflexivity. apply IH. lia.
Qed.

Definition store1 (sm : dict string (dict string Q)) (h : list (dict string Q)) (ol : string * nat) :=
  match dget (fst ol) sm with Some m => set_nth (snd ol) m h | None => h end.

Lemma store_spec sm c : forall h, NoDup (map snd c) -> (forall o l, In (o, l) c -> (l < length h)%nat) ->
  length (store h c sm) = length h /\
  (forall o l m, In (o, l) c -> dget o sm = Some m -> nth l (store h c sm) [] = m) /\
  (forall l, ~ In l (map snd c) -> nth l (store h c sm) [] = nth l h []).
Proof.
  induction c as [|[o l] c IH]; intros h Hnd Hl; [split; [reflexivity|]; split; [easy|reflexivity]|].
  inversion Hnd as [|? ? H1 H2]; subst. cbn [map snd] in *. unfold store. cbn [fold_left fst snd]. fold (store1 sm h (o, l)).
  assert (Hlen : length (store1 sm h (o, l)) = length h) by (unfold store1; cbn; destruct (dget o sm); [apply set_nth_length|reflexivity]).
  change (fold_left _ c ?x) with (store x c sm).
  destruct (IH (store1 sm h (o, l)) H2) as (I1 & I2 & I3); [intros; rewrite Hlen; eapply Hl; right; eassumption|].
  change (match dget o sm with Some m => set_nth l m h | None => h end) with (store1 sm h (o, l)).
  assert (Hll : (l < length h)%nat) by (apply (Hl o); now left).
  split; [congruence|]. split.
  - intros o' l' m [[= <- <-]|Hi] E; [|now apply (I2 o')]. rewrite I3 by exact H1. unfold store1. cbn [fst snd]. rewrite E.
    rewrite nth_set_nth by exact Hll. now rewrite Nat.eqb_refl.
  - intros k Hk. rewrite I3 by (intros H; apply Hk; now right). unfold store1. cbn [fst snd]. destruct (dget o sm) as [m|]; [|reflexivity].
    rewrite nth_set_nth by exact Hll. destruct (Nat.eqb_spec k l) as [->|]; [|reflexivity]. exfalso. apply Hk. now left.
Qed.

Lemma load_low h h' c : hlow h h' -> (forall o l, In (o, l) c -> (l < length h)%nat) -> sm_whole (load h c) -> lowered (load h c) (load h' c).
Proof.
  intros [_ H] Hl Hw. induction c as [|[o l] c IH]; [constructor|]. unfold load in *. cbn [map fst snd] in *. constructor.
  - split; [reflexivity|]. cbn [snd]. destruct (H l) as [Ho|Ho]; [apply (Hl o); now left|exact Ho|]. rewrite Ho.
    apply lowered_oa_refl. intros d u Hi. apply (Hw o (nth l h []) d u); [now left|easy].
  - apply IH; [intros; eapply Hl; right; eassumption|]. intros o' m d u Ho. apply (Hw o' m d u). now right.
Qed.

Lemma load_eq h h' c : (forall o l, In (o, l) c -> nth l h' [] = nth l h []) -> load h' c = load h c.
Proof. intros H. unfold load. apply map_ext_in. intros [o l] Hi. cbn [fst snd]. apply (f_equal (pair o)). now apply (H o). Qed.

(** * Limiting the selected candidates *)
Section Finish.
  Variable dim_order : list string -> list string.
  Variable layer : gen_layer.
  Variable mems : list inner_mem.
  Hypothesis Hord : orders dim_order.
  Variables (t : dict string (dict string Q)) (fill : list string).
  Hypothesis Hmems : mems_complete layer mems (keys t ++ fill).
  Hypothesis Hholds : holds_one layer mems.

  Definition cand (h : list (dict string Q)) (locs : list nat) : dict string (dict string Q) :=
    (t ++ load h (combine fill locs))%list.
  Definition sel_ok (h0 : list (dict string Q)) (locs : list nat) : Prop :=
    length locs = length fill /\ NoDup locs /\ (forall l, In l locs -> (l < length h0)%nat) /\
    dicts (cand h0 locs) /\ sm_whole (cand h0 locs).
  Definition step (st : list (dict string Q) * list (list (string * nat))) (locs : list nat) :=
    let '(h, done) := st in
    let c := (combine (keys t) (seq (length h) (length t)) ++ combine fill locs)%list in
    let h1 := (h ++ values t)%list in
    sm <- limit_capacity layer dim_order mems (load h1 c) ;; Ok (store h1 c sm, (done ++ [c])%list).

  Local Notation fate := (Spec_Generation.fate dim_order layer mems).

  Lemma load_fresh (h : list (dict string Q)) ks vs : length ks = length vs -> load (h ++ vs) (combine ks (seq (length h) (length vs))) = combine ks vs.
  Proof.
    intros Hl. rewrite load_combine. f_equal.
    assert (G : forall pre, map (fun l => nth l (pre ++ vs) []) (seq (length pre) (length vs)) = vs).
    { clear. induction vs as [|v vs IH]; intros pre; [reflexivity|]. cbn [length seq map]. rewrite app_nth2, Nat.sub_diag by lia. cbn [nth]. f_equal.
      specialize (IH (pre ++ [v])%list). rewrite app_length, <- app_assoc in IH. cbn [length app] in IH. rewrite Nat.add_1_r in IH. exact IH. }
    apply G.
  Qed.
  Lemma load_app h a b : load h (a ++ b) = (load h a ++ load h b)%list.
  Proof. apply map_app. Qed.
  Lemma in_combine_seq {A} (ks : list A) o l a n : In (o, l) (combine ks (seq a n)) -> (a <= l < a + n)%nat.
  Proof. intros H. apply in_combine_r in H. now apply in_seq in H. Qed.
  Lemma lowered_app a b a' b' : lowered a a' -> lowered b b' -> lowered (a ++ b) (a' ++ b').
  Proof. apply Forall2_app. Qed.
  Lemma snd_combine {A B} (l : list A) (l' : list B) : length l = length l' -> map snd (combine l l') = l'.
  Proof. revert l'. induction l as [|x l IH]; intros [|y l'] H; try easy. cbn [combine map snd]. f_equal. apply IH. now injection H. Qed.

  Lemma step_ok h0 h done locs : sel_ok h0 locs -> hlow h0 h ->
    exists h' c y, step (h, done) locs = Ok (h', done ++ [c])%list /\ hlow h h' /\
      lowered (cand h0 locs) (load (h ++ values t) c) /\
      limit_capacity layer dim_order mems (load (h ++ values t) c) = Ok y /\
      load h' c = y /\ sm_whole y /\ (forall o l, In (o, l) c -> (l < length h')%nat) /\
      ((forall l, (l < length h0)%nat -> nth l h [] = nth l h0 []) -> fits_capacity layer mems (cand h0 locs) ->
         y = cand h0 locs /\ forall l, (l < length h)%nat -> nth l h' [] = nth l h []).
  Proof.
    intros (S1 & S2 & S3 & S4 & S5) Hh. unfold step.
    set (c := (combine (keys t) (seq (length h) (length t)) ++ combine fill locs)%list).
    set (h1 := (h ++ values t)%list).
    assert (Hkt : length (keys t) = length (values t)) by (unfold keys, values; now rewrite !map_length).
    assert (Hvt : length (values t) = length t) by (unfold values; now rewrite map_length).
    assert (Eload : load h1 c = (t ++ load h (combine fill locs))%list).
    { unfold c. rewrite load_app. f_equal.
      - unfold h1. rewrite <- Hvt, load_fresh by exact Hkt. apply combine_keys_values.
      - apply load_eq. intros o l Hi. apply in_combine_r in Hi. unfold h1. rewrite app_nth1; [reflexivity|]. destruct Hh. apply S3 in Hi. lia. }
    assert (Hwt : sm_whole t) by (intros o m d u Ho; apply (S5 o m d u); apply in_or_app; now left).
    assert (Hwf : sm_whole (load h0 (combine fill locs))) by (intros o m d u Ho; apply (S5 o m d u); apply in_or_app; now right).
    assert (L0 : lowered (cand h0 locs) (load h1 c)).
    { rewrite Eload. apply lowered_app; [now apply lowered_refl|]. apply load_low; [exact Hh| |exact Hwf].
      intros o l Hi. apply in_combine_r in Hi. now apply S3. }
    assert (Hkc : keys (load h1 c) = (keys t ++ fill)%list).
    { rewrite (lowered_keys _ _ L0). unfold cand. unfold keys at 1. rewrite map_app. f_equal.
      rewrite load_combine. apply keys_combine. now rewrite map_length. }
    destruct (limit_capacity_ok layer dim_order Hord mems (load h1 c)) as (y & Ey & Ly & Sy & _ & _).
    { now rewrite Hkc. } { exact Hholds. } { eapply lowered_dicts; eassumption. } { eapply lowered_whole; eassumption. }
    assert (Hsnd : map snd c = (seq (length h) (length t) ++ locs)%list).
    { unfold c. rewrite map_app, !snd_combine; [reflexivity|congruence|rewrite seq_length; congruence]. }
    assert (Hndc : NoDup (map snd c)).
    { rewrite Hsnd. apply NoDup_app_intro; [apply seq_NoDup|exact S2|]. intros l H1 H2. apply in_seq in H1. apply S3 in H2. destruct Hh. lia. }
    assert (Hlc : forall o l, In (o, l) c -> (l < length h1)%nat).
    { intros o l Hi. apply (in_map snd) in Hi. rewrite Hsnd in Hi. cbn in Hi. unfold h1. rewrite app_length, Hvt.
      apply in_app_or in Hi as [Hi|Hi]; [apply in_seq in Hi; lia|]. apply S3 in Hi. destruct Hh. lia. }
    destruct (store_spec y c h1 Hndc Hlc) as (T1 & T2 & T3).
    assert (Hfst : map fst c = keys y).
    { rewrite (lowered_keys _ _ Ly). unfold load, keys. rewrite map_map. now apply map_ext. }
    assert (Hny : NoDup (keys y)).
    { rewrite (lowered_keys _ _ Ly), (lowered_keys _ _ L0). apply S4. }
    assert (Eload' : load (store h1 c y) c = y).
    { assert (G : forall o l m, In ((o, l), m) (combine c (values y)) -> nth l (store h1 c y) [] = m).
      { intros o l m Hi. apply (T2 o).
        - now apply in_combine_l in Hi.
        - apply In_dget; [exact Hny|]. clear - Hi Hfst. revert Hfst Hi. generalize c. clear. induction y as [|[k v] y IH]; intros [|[o' l'] c] H Hi; try easy.
          unfold keys in H. cbn [map fst] in H. injection H as -> H. cbn [combine] in Hi. destruct Hi as [[= -> -> ->]|Hi]; [now left|right]. now apply (IH c). }
      clear - G Hfst. revert G. generalize (store h1 c y). intros h' G. revert y Hfst G. generalize c. clear. intros c.
      induction c as [|[o l] c IH]; intros [|[k v] y] H G; try easy. unfold keys in H. cbn [map fst] in H. injection H as -> H.
      unfold load in *. cbn [map fst snd]. rewrite (G k l v (or_introl eq_refl)). f_equal. apply IH; [exact H|]. intros; eapply G; right; eassumption. }
    assert (Hlow : hlow h1 (store h1 c y)).
    { split; [lia|]. intros l Hl. destruct (in_dec Nat.eq_dec l (map snd c)) as [Hi|Hn]; [|right; now apply T3].
      apply in_map_iff in Hi as ([o l'] & E & Hi). cbn in E. subst l'. left.
      assert (Ho : dget o (load h1 c) = Some (nth l h1 [])).
      { apply In_dget; [rewrite <- (lowered_keys _ _ Ly); exact Hny|]. apply in_map_iff. now exists (o, l). }
      destruct (lowered_dget _ _ _ _ Ly Ho) as (m' & Em & Lm). rewrite (T2 o l m' Hi Em). exact Lm. }
    exists (store h1 c y), c, y. rewrite Ey. cbn [rbind]. split; [reflexivity|].
    split; [eapply hlow_trans; [apply hlow_app|exact Hlow]|]. split; [exact L0|]. split; [reflexivity|]. split; [exact Eload'|].
    split; [eapply lowered_whole; exact Ly|]. split; [intros o l Hi; rewrite T1; now apply (Hlc o)|].
    intros Hsame Hfit.
    assert (Ec : load h1 c = cand h0 locs).
    { rewrite Eload. unfold cand. f_equal. apply load_eq. intros o l Hi. apply in_combine_r in Hi. now apply Hsame, S3. }
    assert (Ey' : y = load h1 c) by (apply Sy; rewrite Ec; exact Hfit).
    split; [congruence|]. intros l Hl. transitivity (nth l h1 []); [|unfold h1; now rewrite app_nth1].
    destruct (in_dec Nat.eq_dec l (map snd c)) as [Hi|Hn]; [|now apply T3].
    apply in_map_iff in Hi as ([o l'] & E & Hi). cbn in E. subst l'. apply (T2 o l); [exact Hi|].
    rewrite Ey'. apply In_dget; [rewrite <- (lowered_keys _ _ Ly); exact Hny|]. apply in_map_iff. now exists (o, l).
  Qed.

  Lemma finish_ok h0 : forall sel h done cds, (forall locs, In locs sel -> sel_ok h0 locs) -> hlow h0 h ->
    Forall2 (fun cd c => fate cd (load h c) /\ sm_whole (load h c) /\ forall o l, In (o, l) c -> (l < length h)%nat) cds done ->
    exists hf done', rfold step (h, done) sel = Ok (hf, done') /\ hlow h hf /\
      Forall2 (fun cd c => fate cd (load hf c) /\ sm_whole (load hf c)) (cds ++ map (cand h0) sel)%list done' /\
      ((forall l, (l < length h0)%nat -> nth l h [] = nth l h0 []) -> (forall locs, In locs sel -> fits_capacity layer mems (cand h0 locs)) ->
         map (load hf) done' = (map (load h) done ++ map (cand h0) sel)%list).
  Proof.
    induction sel as [|locs sel IH]; intros h done cds Hs Hh Hd.
    - exists h, done. split; [reflexivity|]. split; [apply hlow_refl|]. cbn [map]. rewrite !app_nil_r. split; [|intros; reflexivity].
      revert Hd. apply F2_impl. tauto.
    - destruct (step_ok h0 h done locs (Hs locs (or_introl eq_refl)) Hh) as (h' & c & y & E & L & Lc & Ey & Ely & Hw & Hl & Hsame).
      cbn [rfold]. rewrite E. cbn [rbind].
      destruct (IH h' (done ++ [c])%list (cds ++ [cand h0 locs])%list) as (hf & done' & E' & L' & F' & S').
      + intros; apply Hs; now right.
      + eapply hlow_trans; eassumption.
      + apply Forall2_app.
        * revert Hd. apply F2_impl. intros cd c0 ((x & z & F1 & F2 & F3) & F4 & F5).
          assert (Lz : lowered (load h c0) (load h' c0)) by (now apply load_low). split; [|split].
          -- exists x, z. split; [exact F1|]. split; [exact F2|]. eapply lowered_trans; eassumption.
          -- now apply (lowered_whole (load h c0)).
          -- intros o l Hi. apply F5 in Hi. destruct L. lia.
        * constructor; [|constructor]. rewrite Ely. split; [|split; [exact Hw|exact Hl]].
          exists (load (h ++ values t) c), y. split; [exact Lc|]. split; [exact Ey|]. now apply lowered_refl.
      + exists hf, done'. split; [exact E'|]. split; [eapply hlow_trans; eassumption|]. split.
        * rewrite <- app_assoc in F'. exact F'.
        * intros Hs1 Hf. destruct (Hsame Hs1 (Hf locs (or_introl eq_refl))) as [Hy Hkeep].
          rewrite S'.
          -- rewrite map_app, <- app_assoc. cbn [map app]. f_equal; [|f_equal; congruence].
             apply map_ext_in. intros c0 Hc0. apply load_eq. intros o l Hi. apply Hkeep.
             destruct (Forall2_in_r _ _ _ _ Hd Hc0) as (cd & _ & _ & _ & Hb). now apply (Hb o).
          -- intros l Hlt. rewrite Hkeep; [now apply Hs1|]. destruct Hh. lia.
          -- intros; apply Hf; now right.
  Qed.
End Finish.

(** * Lowering keeps a mapping valid *)
Section Fits.
  Local Open Scope Q_scope.
  Lemma dget_lowered m m' d u : lowered_oa m m' -> dget d m' = Some u -> exists v, dget d m = Some v /\ u <= v /\ whole1 u.
  Proof.
    induction 1 as [|[k x] [k' x'] m m' (H1 & H2 & H3) F IH]; [discriminate|]. cbn [fst snd dget] in *. subst k'.
    destruct (eqb_spec d k); [intros [= <-]; now exists x|exact IH].
  Qed.
  Lemma dget_lowered_none m m' d : lowered_oa m m' -> dget d m' = None <-> dget d m = None.
  Proof.
    induction 1 as [|[k x] [k' x'] m m' (H1 & H2 & H3) F IH]; [tauto|]. cbn [fst snd dget] in *. subst k'.
    destruct (eqb_spec d k); [split; discriminate|exact IH].
  Qed.
  Lemma lowered_dget' sm sm' o m' : lowered sm sm' -> dget o sm' = Some m' -> exists m, dget o sm = Some m /\ lowered_oa m m'.
  Proof.
    induction 1 as [|[o1 x] [o2 x'] sm sm' [H1 H2] F IH]; [discriminate|]. cbn [fst snd dget] in *. subst o2.
    destruct (eqb_spec o o1); [intros [= <-]; eauto|exact IH].
  Qed.
  Lemma lowered_values m m' : lowered_oa m m' -> 1 <= qprod (values m') /\ qprod (values m') <= qprod (values m).
  Proof.
    induction 1 as [|[k x] [k' x'] m m' (H1 & H2 & H3) F [IH1 IH2]]; [unfold qprod; cbn; lra|].
    change (values ((k, x) :: m)) with (x :: values m). change (values ((k', x') :: m')) with (x' :: values m').
    rewrite !qprod_cons. cbn [snd] in *. apply whole1_ge in H3. nra.
  Qed.
  Lemma lowered_total sm sm' d : lowered sm sm' -> 1 <= unrolled_total sm' d /\ unrolled_total sm' d <= unrolled_total sm d.
  Proof.
    induction 1 as [|[o m] [o' m'] sm sm' [H1 H2] F [IH1 IH2]]; [cbn; lra|]. cbn [unrolled_total snd] in *.
    destruct (dget d m') as [u|] eqn:E.
    - destruct (dget_lowered _ _ _ _ H2 E) as (v & -> & Hv & Hw). apply whole1_ge in Hw. nra.
    - apply (dget_lowered_none _ _ _ H2) in E. rewrite E. nra.
  Qed.
  Lemma fits_lowered oa maxu sizes sm sm' : mapping_fits oa maxu sizes sm -> lowered sm sm' -> mapping_fits oa maxu sizes sm'.
  Proof.
    intros [F1 F2 F3 F4] L. split.
    - intros o d u (m' & Eo & Ed). destruct (lowered_dget' _ _ _ _ L Eo) as (m & Em & Lm).
      destruct (dget_lowered _ _ _ _ Lm Ed) as (v & Ev & Hv & _). destruct (F1 o d v) as (lim & x & A & B & C); [now exists m|].
      exists lim, x. split; [easy|]. split; [easy|]. lra.
    - intros o m' Eo. destruct (lowered_dget' _ _ _ _ L Eo) as (m & Em & Lm). destruct (F2 o m Em) as (s & Es & Hs).
      exists s. split; [easy|]. destruct (lowered_values _ _ Lm). lra.
    - intros o d u (m' & Eo & Ed). destruct (lowered_dget' _ _ _ _ L Eo) as (m & Em & Lm).
      destruct (dget_lowered _ _ _ _ Lm Ed) as (v & Ev & Hv & _). apply (F3 o d v). now exists m.
    - intros d s Es. destruct (lowered_total sm sm' d L). assert (H' := F4 d s Es). lra.
  Qed.
  Lemma unrolled_total_app a b d : unrolled_total (a ++ b) d == unrolled_total a d * unrolled_total b d.
  Proof. induction a as [|[o m] a IH]; cbn [app unrolled_total]; [lra|]. rewrite IH. lra. Qed.
End Fits.

Lemma dget_qsizes d (m : dict string Z) : dget d (qsizes m) = option_map inject_Z (dget d m).
Proof. induction m as [|[k v] m IH]; [reflexivity|]. cbn [qsizes map dget fst snd]. destruct (eqb d k); [reflexivity|exact IH]. Qed.
Lemma keys_qsizes (m : dict string Z) : keys (qsizes m) = keys m.
Proof. unfold keys, qsizes. now rewrite map_map. Qed.
Lemma dget_qmaxs o (m : dict string (dict string Z)) : dget o (qmaxs m) = option_map qsizes (dget o m).
Proof. induction m as [|[k v] m IH]; [reflexivity|]. cbn [qmaxs map dget fst snd]. destruct (eqb o k); [reflexivity|exact IH]. Qed.
Lemma keys_qmaxs (m : dict string (dict string Z)) : keys (qmaxs m) = keys m.
Proof. unfold keys, qmaxs. now rewrite map_map. Qed.
Lemma dget_app {V} (o : string) (a b : dict string V) : dget o (a ++ b)%list = match dget o a with Some v => Some v | None => dget o b end.
Proof. induction a as [|[k v] a IH]; [reflexivity|]. cbn [app dget]. destruct (eqb o k); [reflexivity|exact IH]. Qed.

Lemma whole1_inject k : 1 <= k -> whole1 (inject_Z k).
Proof. intros H. exists k. split; [exact H|reflexivity]. Qed.

Section Generate.
  Variables order1 order2 dim_order : list string -> list string.
  Variable pick_dim : string -> dict string Q -> string.
  Variable pick_oa : string -> dict string (dict string Q) -> string.
  Hypothesis Ho1 : orders order1.
  Hypothesis Ho2 : orders order2.
  Hypothesis Hdo : orders dim_order.
  Hypothesis Hpd : picks_dim pick_dim.
  Hypothesis Hpo : picks_oa pick_oa.
  Variable layer : gen_layer.
  Variable mems : list inner_mem.
  Variable oa_sizes : dict string Z.
  Variable mix : bool.
  Variable hints : dict string (list string).
  Variable provided : dict string (dict string Q).
  Hypothesis Hin : gen_inputs layer mems oa_sizes hints provided.

  (** The maxima are at least one, for all dimensions of the layer. *)
  Lemma zmax_ok : exists zmax, get_max_unrolling layer mems oa_sizes = Ok zmax /\ keys zmax = keys oa_sizes /\
    forall o, In o (keys oa_sizes) -> exists mx, dget o zmax = Some mx /\ keys mx = keys (gl_sizes layer) /\ forall d x, dget d mx = Some x -> 1 <= x.
  Proof.
    destruct (max_unrolling_ok layer mems oa_sizes (gi_oa _ _ _ _ _ Hin) (gi_mems _ _ _ _ _ Hin)) as (zmax & E & K & F).
    exists zmax. split; [exact E|]. split; [exact K|]. intros o Ho.
    assert (Hone := gi_oa_one _ _ _ _ _ Hin). assert (Hnd := gi_oa _ _ _ _ _ Hin). assert (Hsz := gi_size_one _ _ _ _ _ Hin).
    assert (Hnds := gi_sizes _ _ _ _ _ Hin). assert (Hpass := gi_passes _ _ _ _ _ Hin).
    destruct (key_dget o zmax) as (mx & Em); [now rewrite K|]. exists mx. split; [exact Em|].
    apply dget_In in Em. destruct (Forall2_in_r _ _ _ _ F Em) as ([o' s] & Hi & H1 & H2). cbn [fst snd] in *. subst o'.
    apply (In_dget o s) in Hi; [|exact Hnd]. apply Hone in Hi.
    split.
    - clear - H2. induction H2 as [|[d z] [d' u] l l' [A _] Fr IH]; [reflexivity|]. unfold keys in *. cbn [map fst] in *. now rewrite A, IH.
    - intros d x Ed. apply dget_In in Ed. destruct (Forall2_in_r _ _ _ _ H2 Ed) as ([d' z] & Hz & A & (B1 & B2 & B3)). cbn [fst snd] in *. subst d'.
      apply (In_dget d z) in Hz; [|exact Hnds]. apply Hsz in Hz.
      destruct B3 as [->|(p & b & (mem & mop & lop & ir & Hm & U & Hb & _ & _ & Hp) & Hpb)]; [lia|].
      assert (p <= b) by now apply (Hpass mem mop lop p ir b). nia.
  Qed.

  Lemma reduced_ok zmax : get_max_unrolling layer mems oa_sizes = Ok zmax ->
    exists t, check_and_reduce order1 order2 pick_dim pick_oa (qsizes oa_sizes) (qmaxs zmax) (qsizes (gl_sizes layer)) provided = Ok t /\
      keys t = keys provided /\ dicts t /\ mapping_fits (qsizes oa_sizes) (qmaxs zmax) (qsizes (gl_sizes layer)) t /\ sm_whole t /\
      ((forall o, In o (keys oa_sizes) -> In o (keys t)) -> is_valid (Some (qsizes oa_sizes)) (qmaxs zmax) (qsizes (gl_sizes layer)) t = Ok true).
  Proof.
    intros Ez. destruct zmax_ok as (zmax' & E' & K & Hm). rewrite Ez in E'. injection E' as <-.
    assert (Hw := gi_whole _ _ _ _ _ Hin). assert (Hpr := gi_provided _ _ _ _ _ Hin).
    assert (Hu : forall o d u, unrolled provided o d u -> whole1 u).
    { intros o d u (m & A & B). apply dget_In in A, B. exact (Hw o m d u A B). }
    assert (Hmx : forall o d u, unrolled provided o d u -> In d (keys (qsizes (gl_sizes layer))) ->
      exists lim x, dget o (qmaxs zmax) = Some lim /\ dget d lim = Some (inject_Z x) /\ 1 <= x).
    { intros o d u (m & A & _) Hk. apply dget_Some_key in A. apply (gi_provided_oa _ _ _ _ _ Hin) in A.
      destruct (Hm o A) as (mx & B & C & D). rewrite keys_qsizes, <- C in Hk. apply key_dget in Hk as (x & Ex).
      exists (qsizes mx), x. rewrite dget_qmaxs, B, dget_qsizes, Ex. split; [easy|]. split; [easy|]. now apply (D d). }
    destruct (reduce_ok order1 order2 pick_dim pick_oa Ho1 Ho2 Hpd Hpo (qsizes oa_sizes) (qsizes (gl_sizes layer)) (qmaxs zmax) provided)
      as (t & Et & Kt & Dt & Ft & Vt & Ct & _).
    { split.
      - exact Hpr.
      - rewrite keys_qsizes. apply Hin.
      - intros o. rewrite keys_qsizes. apply Hin.
      - intros o d u A B. destruct (Hmx o d u A B) as (lim & x & C & D & F). exists lim, (inject_Z x). split; [easy|]. split; [easy|].
        change 1%Q with (inject_Z 1). now apply inject_Z_le_iff.
      - intros o d u A. apply whole1_ge. now apply (Hu o d).
      - intros o s. rewrite dget_qsizes. destruct (dget o oa_sizes) as [z|] eqn:E; [|discriminate]. intros [= <-].
        change 1%Q with (inject_Z 1). apply inject_Z_le_iff. now apply (gi_oa_one _ _ _ _ _ Hin o).
      - intros o s. rewrite dget_qsizes. destruct (dget o (gl_sizes layer)) as [z|] eqn:E; [|discriminate]. intros [= <-].
        change 1%Q with (inject_Z 1). apply inject_Z_le_iff. now apply (gi_size_one _ _ _ _ _ Hin o). }
    exists t. split; [exact Et|]. split; [exact Kt|]. split; [exact Dt|]. split; [exact Ft|]. split.
    - intros o m d u A B. destruct (Ct o d u) as (v & lim & x & C1 & C2 & C3 & C4 & C5).
      { exists m. split; [apply In_dget; [apply Dt|exact A]|apply In_dget; [now apply (proj2 Dt o)|exact B]]. }
      destruct (Hmx o d v C1 C2) as (lim' & x' & D1 & D2 & D3).
      destruct C5 as [[_ ->]|[_ ->]]; [|now apply (Hu o d)]. assert (x = inject_Z x') by congruence. subst x. now apply whole1_inject.
    - intros Hc. apply Vt. intros o. rewrite keys_qsizes, <- Kt. apply Hc.
  Qed.

  Lemma NoDup_filter {A} (f : A -> bool) l : NoDup l -> NoDup (filter f l).
  Proof.
    induction 1 as [|x l H1 H2 IH]; [constructor|]. cbn [filter]. destruct (f x); [|exact IH]. constructor; [|exact IH].
    intros Hi. apply filter_In in Hi as [Hi _]. easy.
  Qed.

  (** Completions cover the array and are dicts; a valid one has whole unrollings. *)
  Lemma completes_props zmax t c : get_max_unrolling layer mems oa_sizes = Ok zmax ->
    dicts t -> sm_whole t -> (forall o, In o (keys t) -> In o (keys oa_sizes)) -> completes mix hints zmax oa_sizes t c ->
    (forall o, In o (keys c) <-> In o (keys oa_sizes)) /\ dicts c /\
    (mapping_fits (qsizes oa_sizes) (qmaxs zmax) (qsizes (gl_sizes layer)) c -> sm_whole c).
  Proof.
    intros Ez Dt Wt Kt (fill & ms & Ef & -> & F).
    destruct zmax_ok as (zmax' & E' & K & Hm). rewrite Ez in E'. injection E' as <-.
    assert (Hl := F2_length _ _ _ F).
    assert (Hkc : keys (t ++ combine fill ms)%list = (keys t ++ fill)%list) by (unfold keys at 1; rewrite map_app; f_equal; now apply keys_combine).
    assert (Hcov : forall o, In o (keys (t ++ combine fill ms)%list) <-> In o (keys oa_sizes)).
    { intros o. rewrite Hkc, in_app_iff, Ef, filter_In. split.
      - intros [H|[H _]]; [now apply Kt|exact H].
      - intros H. destruct (memb o (keys t)) eqn:E; [left; now apply memb_In|right; now split]. }
    assert (Hd : dicts (t ++ combine fill ms)%list).
    { split.
      - rewrite Hkc. apply NoDup_app_intro; [apply Dt|rewrite Ef; apply NoDup_filter, Hin|].
        intros o H1 H2. rewrite Ef in H2. apply filter_In in H2 as [_ H2]. apply negb_true_iff in H2. apply memb_not_In in H2. contradiction.
      - intros o m H. apply in_app_or in H as [H|H]; [now apply (proj2 Dt o)|].
        assert (Hx := combine_Forall2 _ _ _ _ _ F H). destruct Hx as (h & mx & s & E1 & E2 & E3 & [(d & f & x & _ & _ & _ & _ & ->)|(_ & _ & Hs & _)]).
        + repeat constructor. easy.
        + eapply sublist_NoDup; [exact Hs|]. destruct (gi_hints _ _ _ _ _ Hin o) as (h' & E & Hn & _); [now apply dget_Some_key in E3|]. congruence. }
    split; [exact Hcov|]. split; [exact Hd|]. intros [F1 _ F3 _] o m d u Ho Hi.
    apply in_app_or in Ho as [Ho|Ho]; [now apply (Wt o m d u)|].
    assert (Hx := combine_Forall2 _ _ _ _ _ F Ho). destruct Hx as (h & mx & s & E1 & E2 & E3 & [(d' & f & x & _ & _ & Hf & _ & ->)|(_ & _ & _ & _ & Hu)]).
    - destruct Hi as [[= <- <-]|[]]. now apply whole1_inject.
    - destruct (Hu d u Hi) as [(f & x & _ & -> & Hf & _)|[Hn _]]; [apply whole1_inject; lia|].
      exfalso. destruct (F1 o d u) as (lim & x & A & B & _).
      { exists m. split; [apply In_dget; [apply Hd|apply in_or_app; now right]|]. apply In_dget; [|exact Hi]. apply (proj2 Hd o). apply in_or_app. now right. }
      rewrite dget_qmaxs, E2 in A. injection A as <-. rewrite dget_qsizes, Hn in B. discriminate.
  Qed.

  (** Unrolling everything by one completes any template. *)
  Lemma ones_complete zmax t : get_max_unrolling layer mems oa_sizes = Ok zmax -> dicts t ->
    (forall o, In o (keys t) -> In o (keys oa_sizes)) ->
    mapping_fits (qsizes oa_sizes) (qmaxs zmax) (qsizes (gl_sizes layer)) t ->
    exists c, completes mix hints zmax oa_sizes t c /\ mapping_fits (qsizes oa_sizes) (qmaxs zmax) (qsizes (gl_sizes layer)) c.
  Proof.
    intros Ez Dt Kt Ft. destruct zmax_ok as (zmax' & E' & K & Hm). rewrite Ez in E'. injection E' as <-.
    set (fill := filter (fun o => negb (memb o (keys t))) (keys oa_sizes)).
    assert (G : exists ds, Forall2 (fun o d => exists h, dget o hints = Some h /\ In d h /\ In d (keys (gl_sizes layer))) fill ds).
    { assert (Hf : forall o, In o fill -> In o (keys oa_sizes)) by (intros o H; now apply filter_In in H).
      clearbody fill. induction fill as [|o fill IH]; [exists []; constructor|].
      destruct IH as (ds & F); [intros; apply Hf; now right|]. destruct (gi_hints _ _ _ _ _ Hin o) as (h & E & _ & d & H1 & H2); [apply Hf; now left|].
      exists (d :: ds). constructor; [now exists h|exact F]. }
    destruct G as (ds & G). set (ms := map (fun d => [(d, inject_Z 1)]) ds).
    assert (Gm : Forall2 (fun o m => exists d h, m = [(d, inject_Z 1)] /\ dget o hints = Some h /\ In d h /\ In d (keys (gl_sizes layer))) fill ms).
    { unfold ms. clear - G. induction G as [|o d fill ds (h & A & B & C) F IH]; [constructor|]. cbn [map]. constructor; [now exists d, h|exact IH]. }
    assert (Hfk : forall o, In o fill -> In o (keys oa_sizes)) by (intros o H; now apply filter_In in H).
    exists (t ++ combine fill ms)%list. split.
    - exists fill, ms. split; [reflexivity|]. split; [reflexivity|].
      clearbody ms. clearbody fill. clear G. induction Gm as [|o m fill ms (d & h & -> & A & B & C) F IH]; constructor; [|apply IH; intros; apply Hfk; now right].
      assert (Ho : In o (keys oa_sizes)) by (apply Hfk; now left). destruct (Hm o Ho) as (mx & E1 & E2 & E3).
      destruct (key_dget o oa_sizes Ho) as (s & Es). exists h, mx, s. split; [exact A|]. split; [exact E1|]. split; [exact Es|].
      left. rewrite <- E2 in C. apply key_dget in C as (x & Ex). exists d, 1, x. split; [exact B|]. split; [exact Ex|]. split; [lia|]. split; [apply Z.divide_1_l|reflexivity].
    - assert (Hg : forall o m, dget o (t ++ combine fill ms)%list = Some m -> dget o t = Some m \/
        exists d, m = [(d, inject_Z 1)] /\ In d (keys (gl_sizes layer)) /\ In o (keys oa_sizes)).
      { intros o m. rewrite dget_app. destruct (dget o t); [intros [= <-]; now left|]. intros H. apply dget_In in H. right.
        assert (Hx := combine_Forall2 _ _ _ _ _ Gm H). destruct Hx as (d & h & -> & _ & _ & Hd). exists d. split; [easy|]. split; [easy|].
        apply in_combine_l in H. now apply Hfk. }
      destruct Ft as [F1 F2 F3 F4]. split.
      + intros o d u (m & A & B). apply Hg in A as [A|(d' & -> & C & D)]; [apply F1; now exists m|].
        cbn [dget] in B. destruct (eqb_spec d d') as [->|]; [|discriminate]. injection B as <-.
        destruct (Hm o D) as (mx & E1 & E2 & E3). rewrite <- E2 in C. apply key_dget in C as (x & Ex).
        exists (qsizes mx), (inject_Z x). rewrite dget_qmaxs, E1, dget_qsizes, Ex. split; [easy|]. split; [easy|]. apply inject_Z_le_iff. now apply (E3 d').
      + intros o m A. apply Hg in A as [A|(d' & -> & C & D)]; [now apply F2|]. apply key_dget in D as (s & Es).
        exists (inject_Z s). rewrite dget_qsizes, Es. split; [easy|]. cbn.
        setoid_replace (inject_Z 1 * 1)%Q with (inject_Z 1) by reflexivity. apply inject_Z_le_iff. now apply (gi_oa_one _ _ _ _ _ Hin o).
      + intros o d u (m & A & B). apply Hg in A as [A|(d' & -> & C & D)]; [apply (F3 o d u); now exists m|].
        cbn [dget] in B. destruct (eqb_spec d d') as [->|]; [|discriminate]. rewrite <- keys_qsizes in C. now apply key_dget in C.
      + intros d s Es. rewrite unrolled_total_app. setoid_replace (unrolled_total (combine fill ms) d) with 1%Q; [assert (H := F4 d s Es); lra|].
        clear - Gm. induction Gm as [|o m fill ms (d' & h & -> & _) F IH]; [reflexivity|]. cbn [combine unrolled_total dget]. rewrite IH.
        destruct (eqb d d'); reflexivity.
  Qed.

  Lemma indicator_total c : dicts c -> sm_whole c -> (exists o m, In (o, m) c /\ m <> []) -> exists v, performance_indicator c = Ok v.
  Proof.
    intros D W N. destruct (qprod_whole (map snd (flatten_unrollings c))) as (n & En).
    { intros x Hx. apply in_map_iff in Hx as ([d u] & <- & Hx). unfold flatten_unrollings in Hx. apply in_concat in Hx as (m & Hm & Hx).
      apply in_map_iff in Hm as ([o m'] & <- & Hm). destruct (W o m' d u Hm Hx) as (k & _ & E). now exists k. }
    destruct (indicator_ok c n D W N En) as (mx & v & E & _). now exists v.
  Qed.

  Lemma choice_nonempty h mx s m : choice mix h mx s m -> m <> [].
  Proof. intros [(d & f & x & _ & _ & _ & _ & ->)|(_ & H & _)]; [easy|]. intros ->. cbn in H. lia. Qed.

  Lemma rmap_In {A B} (f : A -> result B) l l' : rmap f l = Ok l' -> forall y, In y l' <-> exists x, In x l /\ f x = Ok y.
  Proof.
    intros H. apply rmap_Forall2 in H. intros y. split.
    - intros Hy. destruct (Forall2_in_r _ _ _ _ H Hy) as (x & Hx & E). now exists x.
    - intros (x & Hx & E). destruct (Forall2_in_l _ _ _ _ H Hx) as (y' & Hy & E'). assert (y = y') by congruence. now subst.
  Qed.

  Lemma sorted_map {A B} (R : A -> A -> Prop) (S : B -> B -> Prop) (f : A -> B) l :
    (forall a b, In a l -> In b l -> R a b -> S (f a) (f b)) -> StronglySorted R l -> StronglySorted S (map f l).
  Proof.
    intros H Hs. induction Hs as [|a l Hs IH Hf]; [constructor|]. cbn [map]. constructor.
    - apply IH. intros; apply H; [now right|now right|assumption].
    - apply Forall_forall. intros y Hy. apply in_map_iff in Hy as (b & <- & Hb). rewrite Forall_forall in Hf.
      apply H; [now left|now right|now apply Hf].
  Qed.

  Lemma F2_map_r {A B C} (P : A -> C -> Prop) (Q : A -> B -> Prop) (f : B -> C) l l' :
    Forall2 (fun a b => P a (f b) /\ Q a b) l l' -> Forall2 P l (map f l').
  Proof. induction 1 as [|x y l1 l2 [H1 _] F IH]; constructor; assumption. Qed.

  (** The candidates in their order, which no choice of set elements changes once the template is made *)
  Definition in_rank_order (zmax : dict string (dict string Z)) (t : dict string (dict string Q)) : result (list (dict string (dict string Q))) :=
    match fill_dims oa_sizes t with
    | [] => Ok [t]
    | fill =>
        gens <- rmap (fun o =>
          h <- dgetr o hints ;; mx <- dgetr o zmax ;; s <- dgetr o oa_sizes ;;
          Ok (single_oa_mappings mix h mx s)) fill ;;
        let candidate locs := (t ++ load (concat gens) (combine fill locs))%list in
        cands <- rfilter (fun locs => is_valid (Some (qsizes oa_sizes)) (qmaxs zmax) (qsizes (gl_sizes layer)) (candidate locs)) (cart (number 0 gens)) ;;
        keyed <- rmap (fun locs => v <- performance_indicator (candidate locs) ;; Ok (v, locs)) cands ;;
        Ok (map candidate (map snd (sort_desc keyed)))
    end.

  Theorem generate_full : exists zmax t all,
    get_max_unrolling layer mems oa_sizes = Ok zmax /\
    check_and_reduce order1 order2 pick_dim pick_oa (qsizes oa_sizes) (qmaxs zmax) (qsizes (gl_sizes layer)) provided = Ok t /\
    in_rank_order zmax t = Ok all /\
    all <> [] /\
    (forall c, In c all <-> completes mix hints zmax oa_sizes t c /\ mapping_fits (qsizes oa_sizes) (qmaxs zmax) (qsizes (gl_sizes layer)) c) /\
    StronglySorted ranks_before all /\
    forall nb, (1 <= nb)%nat -> exists sms,
      generate order1 order2 dim_order pick_dim pick_oa layer mems oa_sizes mix nb hints provided = Ok sms /\
      Forall2 (fate dim_order layer mems) (firstn nb all) sms /\
      (forall sm, In sm sms -> dicts sm /\ sm_whole sm /\ (forall o, In o (keys sm) <-> In o (keys oa_sizes)) /\
         mapping_fits (qsizes oa_sizes) (qmaxs zmax) (qsizes (gl_sizes layer)) sm) /\
      ((forall c, In c (firstn nb all) -> fits_capacity layer mems c) -> sms = firstn nb all).
  Proof.
    destruct zmax_ok as (zmax & Ez & Kz & Hm). destruct (reduced_ok zmax Ez) as (t & Et & Kt & Dt & Ft & Wt & Vt).
    assert (Hkt : forall o, In o (keys t) -> In o (keys oa_sizes)) by (intros o; rewrite Kt; apply Hin).
    exists zmax, t. unfold generate, in_rank_order. rewrite Ez. cbn [rbind]. rewrite Et. cbn [rbind].
    assert (Efill : fill_dims oa_sizes t = filter (fun o => negb (memb o (keys t))) (keys oa_sizes)).
    { unfold fill_dims. apply filter_ext. intros o. f_equal. destruct (memb o (keys t)) eqn:E.
      - apply memb_In in E. now apply dmem_keys.
      - apply memb_not_In in E. destruct (dmem o t) eqn:E'; [|reflexivity]. apply dmem_keys in E'. contradiction. }
    set (fits := mapping_fits (qsizes oa_sizes) (qmaxs zmax) (qsizes (gl_sizes layer))) in *.
    assert (Hout : forall cd r, completes mix hints zmax oa_sizes t cd -> fits cd -> fate dim_order layer mems cd r ->
      dicts r /\ sm_whole r /\ (forall o, In o (keys r) <-> In o (keys oa_sizes)) /\ fits r).
    { intros cd r Hc Hf (x & y & L1 & Ey & L2).
      destruct (completes_props zmax t cd Ez Dt Wt Hkt Hc) as (C1 & C2 & C3). assert (Wc := C3 Hf).
      assert (Lxy : lowered x y).
      { destruct (limit_capacity_ok layer dim_order Hdo mems x) as (y' & E & L & _).
        - rewrite (lowered_keys _ _ L1). intros mem Hi. destruct (gi_mems _ _ _ _ _ Hin mem Hi) as (A & B & C).
          split; [exact A|]. split; [|exact C]. intros o Ho. apply C1. now apply B.
        - apply Hin.
        - eapply lowered_dicts; eassumption.
        - eapply lowered_whole; eassumption.
        - rewrite Ey in E. injection E as <-. exact L. }
      assert (L : lowered cd r) by (eapply lowered_trans; [exact L1|]; eapply lowered_trans; eassumption).
      split; [eapply lowered_dicts; eassumption|]. split; [eapply lowered_whole; eassumption|]. split; [|eapply fits_lowered; eassumption].
      intros o. rewrite (lowered_keys _ _ L). apply C1. }
    destruct (fill_dims oa_sizes t) as [|f0 fill0] eqn:Efd.
    - (* the provided mapping covers the array *)
      assert (Hall : forall o, In o (keys oa_sizes) -> In o (keys t)).
      { intros o Ho. destruct (memb o (keys t)) eqn:E; [now apply memb_In|]. exfalso.
        assert (Hi : In o []); [|destruct Hi]. rewrite Efill. apply filter_In. split; [exact Ho|]. now rewrite E. }
      rewrite (Vt Hall). cbn [rbind].
      destruct (limit_capacity_ok layer dim_order Hdo mems t) as (y & Ey & Ly & Sy & _).
      { intros mem Hi. destruct (gi_mems _ _ _ _ _ Hin mem Hi) as (A & B & C). split; [exact A|]. split; [|exact C]. intros o Ho. apply Hall. now apply B. }
      { apply Hin. } { exact Dt. } { exact Wt. }
      rewrite Ey. cbn [rbind]. exists [t].
      assert (Hct : completes mix hints zmax oa_sizes t t).
      { exists [], []. split; [exact Efill|]. split; [cbn; now rewrite app_nil_r|constructor]. }
      assert (Hfate : fate dim_order layer mems t y).
      { exists t, y. split; [now apply lowered_refl|]. split; [exact Ey|]. apply lowered_refl. eapply lowered_whole; eassumption. }
      split; [reflexivity|]. split; [reflexivity|]. split; [reflexivity|]. split; [easy|]. split.
      { intros c. split; [intros [<-|[]]; now split|]. intros [(fl & ms & E1 & -> & F) _]. left. rewrite <- Efill in E1. subst fl. cbn. now rewrite app_nil_r. }
      split; [repeat constructor|]. intros [|nb] Hnb; [lia|]. cbn [firstn]. replace (firstn nb (@nil (dict string (dict string Q)))) with (@nil (dict string (dict string Q))) by now destruct nb.
      exists [y]. split; [reflexivity|]. split; [repeat constructor; exact Hfate|]. split; [intros sm [<-|[]]; now apply (Hout t)|].
      intros Hf. f_equal. apply Sy. apply (Hf t). now left.
    - (* some array dimensions are left to fill *)
      set (fill := f0 :: fill0) in *.
      assert (Hfo : forall o, In o fill -> In o (keys oa_sizes)) by (intros o Ho; rewrite Efill in Ho; now apply filter_In in Ho).
      set (gen := fun o => h <- dgetr o hints ;; mx <- dgetr o zmax ;; s <- dgetr o oa_sizes ;; Ok (single_oa_mappings mix h mx s)).
      assert (Hgen : forall o, In o fill -> exists h mx s, dget o hints = Some h /\ dget o zmax = Some mx /\ dget o oa_sizes = Some s /\
        gen o = Ok (single_oa_mappings mix h mx s) /\ forall d x, dget d mx = Some x -> 1 <= x).
      { intros o Ho. apply Hfo in Ho. destruct (gi_hints _ _ _ _ _ Hin o Ho) as (h & E1 & _). destruct (Hm o Ho) as (mx & E2 & _ & E4).
        destruct (key_dget o oa_sizes Ho) as (s & E3). exists h, mx, s. unfold gen, dgetr. rewrite E1, E2, E3. now repeat split. }
      destruct (rmap_ok' gen fill) as (gens & Eg).
      { intros o Ho. destruct (Hgen o Ho) as (h & mx & s & _ & _ & _ & E & _). eauto. }
      rewrite Eg. cbn [rbind]. assert (Fg := rmap_Forall2 _ _ _ Eg). assert (Hlen : length fill = length gens) by exact (F2_length _ _ _ Fg).
      destruct (candidates_locs fill gens Hlen) as [CL1 CL2].
      set (h0 := concat gens) in *. set (cnd := fun locs => (t ++ load h0 (combine fill locs))%list).
      assert (Hms : forall ms, Forall2 (fun m g => In m g) ms gens <-> Forall2 (fun o m => exists h mx s, dget o hints = Some h /\ dget o zmax = Some mx /\ dget o oa_sizes = Some s /\
        choice mix h mx s m) fill ms).
      { clear - Fg Hgen. clearbody fill. induction Fg as [|o g fill gens Ho F IH]; intros ms.
        - split; intros H; inversion H; constructor.
        - destruct (Hgen o (or_introl eq_refl)) as (h & mx & s & E1 & E2 & E3 & E4 & E5). rewrite Ho in E4. injection E4 as ->.
          assert (Hrest : forall o, In o fill -> exists h mx s, dget o hints = Some h /\ dget o zmax = Some mx /\ dget o oa_sizes = Some s /\
            gen o = Ok (single_oa_mappings mix h mx s) /\ forall d x, dget d mx = Some x -> 1 <= x) by (intros; apply Hgen; now right).
          split; intros H; inversion H as [|m ? ms' ? H1 H2]; subst; constructor.
          + exists h, mx, s. split; [exact E1|]. split; [exact E2|]. split; [exact E3|]. now apply single_choice.
          + now apply (IH Hrest).
          + destruct H1 as (h' & mx' & s' & A1 & A2 & A3 & A4). assert (h' = h) by congruence. assert (mx' = mx) by congruence. assert (s' = s) by congruence. subst.
            now apply single_choice.
          + now apply (IH Hrest). }
      assert (Hcomp : forall c, completes mix hints zmax oa_sizes t c <-> exists locs, In locs (cart (number 0 gens)) /\ c = cnd locs).
      { intros c. split.
        - intros (fl & ms & E1 & -> & F). rewrite <- Efill in E1. subst fl. apply Hms in F. destruct (CL2 ms F) as (locs & Hl & E).
          exists locs. split; [exact Hl|]. unfold cnd. now rewrite E.
        - intros (locs & Hl & ->). destruct (CL1 locs Hl) as (ms & E & F & _). exists fill, ms. split; [exact Efill|].
          split; [unfold cnd; now rewrite E|]. now apply Hms. }
      assert (Hprops : forall locs, In locs (cart (number 0 gens)) -> (forall o, In o (keys (cnd locs)) <-> In o (keys oa_sizes)) /\ dicts (cnd locs) /\
        (fits (cnd locs) -> sm_whole (cnd locs))).
      { intros locs Hl. apply (completes_props zmax t); try assumption. apply Hcomp. now exists locs. }
      assert (Hvalid : forall locs, In locs (cart (number 0 gens)) ->
        is_valid (Some (qsizes oa_sizes)) (qmaxs zmax) (qsizes (gl_sizes layer)) (cnd locs) = Ok true <-> fits (cnd locs)).
      { intros locs Hl. destruct (Hprops locs Hl) as (A & B & _). apply is_valid_iff; [exact B|rewrite keys_qsizes; apply Hin|].
        intros o. rewrite keys_qsizes. apply A. }
      destruct (rfilter_ok (fun locs => is_valid (Some (qsizes oa_sizes)) (qmaxs zmax) (qsizes (gl_sizes layer)) (cnd locs)) (cart (number 0 gens)))
        as (cands & Ec & Hc).
      { intros locs Hl. destruct (Hprops locs Hl) as (A & _). apply is_valid_total; intros o; rewrite ?keys_qsizes, ?keys_qmaxs, ?Kz; [apply A|easy]. }
      assert (Ec' : rfilter (fun locs => is_valid (Some (qsizes oa_sizes)) (qmaxs zmax) (qsizes (gl_sizes layer)) (t ++ load h0 (combine fill locs))%list)
        (cart (number 0 gens)) = Ok cands) by exact Ec.
      rewrite Ec'. cbn [rbind]. clear Ec'.
      assert (Hcin : forall locs, In locs cands -> In locs (cart (number 0 gens)) /\ fits (cnd locs)).
      { intros locs Hl. apply Hc in Hl as [H1 H2]. split; [exact H1|]. now apply Hvalid. }
      destruct cands as [|l0 cands0] eqn:Ecs.
      { exfalso. destruct (ones_complete zmax t Ez Dt Hkt Ft) as (c & H1 & H2). apply Hcomp in H1 as (locs & Hl & ->).
        apply (proj2 (Hc locs)). split; [exact Hl|]. now apply Hvalid. }
      rewrite <- Ecs in *. assert (Hne : cands <> []) by now rewrite Ecs. clear Ecs l0 cands0.
      destruct (rmap_ok' (fun locs => v <- performance_indicator (cnd locs) ;; Ok (v, locs)) cands) as (keyed & Ek).
      { intros locs Hl. destruct (Hcin locs Hl) as [H1 H2]. destruct (Hprops locs H1) as (A & B & C).
        destruct (indicator_total (cnd locs)) as (v & Ev); [exact B|now apply C| |rewrite Ev; cbn [rbind]; eauto].
        destruct (CL1 locs H1) as (ms & E & F & _). apply Hms in F. unfold cnd. rewrite E. unfold fill in *. inversion F as [|? m ? ms' H1' H2']; subst.
        destruct H1' as (h & mx & s & _ & _ & _ & Hch). exists f0, m. split; [apply in_or_app; right; now left|]. eapply choice_nonempty; exact Hch. }
      assert (Ek' : rmap (fun locs => v <- performance_indicator (t ++ load h0 (combine fill locs))%list ;; Ok (v, locs)) cands = Ok keyed) by exact Ek.
      rewrite Ek'. cbn [rbind]. clear Ek'. assert (Hk := rmap_In _ _ _ Ek).
      assert (Hk' : forall v locs, In (v, locs) keyed <-> In locs cands /\ performance_indicator (cnd locs) = Ok v).
      { intros v locs. rewrite Hk. split.
        - intros (x & Hx & E). destruct (performance_indicator (cnd x)) eqn:Ex; [|discriminate]. cbn [rbind] in E. injection E as <- <-. now split.
        - intros [H1 H2]. exists locs. split; [exact H1|]. now rewrite H2. }
      assert (Hsk : forall x, In x (sort_desc keyed) <-> In x keyed).
      { intros x. split; intros Hx; [apply (Permutation_in _ (Permutation_sym (sort_perm keyed)))|apply (Permutation_in _ (sort_perm keyed))]; exact Hx. }
      assert (Hall : forall locs, In locs (map snd (sort_desc keyed)) <-> In locs cands).
      { intros locs. split.
        - intros Hl. apply in_map_iff in Hl as ([v l'] & <- & Hl). apply Hsk, Hk' in Hl. apply Hl.
        - intros Hl. destruct (Forall2_in_l _ _ _ _ (rmap_Forall2 _ _ _ Ek) Hl) as ([v l'] & Hi & E).
          destruct (performance_indicator (cnd locs)) as [v'|] eqn:Ev; [|discriminate]. cbn [rbind] in E. injection E as -> ->.
          apply in_map_iff. exists (v, l'). split; [reflexivity|]. now apply Hsk. }
      exists (map cnd (map snd (sort_desc keyed))).
      assert (Hcs : forall c, In c (map cnd (map snd (sort_desc keyed))) <-> completes mix hints zmax oa_sizes t c /\ fits c).
      { intros c. split.
        - intros Hi. apply in_map_iff in Hi as (locs & <- & Hl). apply Hall, Hcin in Hl as [H1 H2]. split; [|exact H2]. apply Hcomp. now exists locs.
        - intros [Hcc Hfc]. apply Hcomp in Hcc as (locs & Hl & ->). apply in_map. apply Hall, Hc. split; [exact Hl|now apply Hvalid]. }
      split; [reflexivity|]. split; [reflexivity|]. split; [reflexivity|]. split.
      { destruct cands as [|l cands']; [easy|]. intros E. assert (Hi := proj2 (Hall l) (or_introl eq_refl)). apply (in_map cnd) in Hi. rewrite E in Hi. destruct Hi. }
      split; [exact Hcs|]. split.
      { rewrite map_map. apply (sorted_map desc); [|apply sort_sorted]. intros [va la] [vb lb] Ha Hb Hd. apply Hsk, Hk' in Ha as [_ Ha]. apply Hsk, Hk' in Hb as [_ Hb].
        intros ua ub Ea Eb. cbn [snd] in *. unfold desc in Hd. cbn [fst] in Hd. congruence. }
      intros nb Hnb. rewrite !firstn_map. set (sel := firstn nb (sort_desc keyed)).
      assert (Hsub : forall x, In x sel -> In x (sort_desc keyed)).
      { intros x Hx. rewrite <- (firstn_skipn nb). apply in_or_app. now left. }
      assert (Hsel : forall locs, In locs (map snd sel) -> In locs cands).
      { intros locs Hl. apply Hall. apply in_map_iff in Hl as (x & <- & Hx). apply in_map. now apply Hsub. }
      destruct (finish_ok dim_order layer mems Hdo t fill) with (h0 := h0) (sel := map snd sel) (h := h0) (done := @nil (list (string * nat))) (cds := @nil (dict string (dict string Q)))
        as (hf & done' & Ef & _ & Ff & Sf).
      { intros mem Hi. destruct (gi_mems _ _ _ _ _ Hin mem Hi) as (A & B & C). split; [exact A|]. split; [|exact C]. intros o Ho. apply B in Ho.
        apply in_or_app. destruct (memb o (keys t)) eqn:E; [left; now apply memb_In|right]. rewrite Efill. apply filter_In. split; [exact Ho|now rewrite E]. }
      { apply Hin. }
      { intros locs Hl. apply Hsel, Hcin in Hl as [H1 H2]. destruct (CL1 locs H1) as (ms & _ & _ & L1 & L2 & L3). destruct (Hprops locs H1) as (_ & B & C).
        split; [exact L1|]. split; [exact L2|]. split; [exact L3|]. split; [exact B|now apply C]. }
      { apply hlow_refl. }
      { constructor. }
      change (cand t fill h0) with cnd in Ff, Sf.
      assert (Efin : finish dim_order layer mems t fill h0 (map snd sel) = Ok (hf, done')) by exact Ef.
      rewrite Efin. cbn [rbind fst snd]. exists (map (load hf) done'). cbn [app] in Ff.
      assert (Fate : Forall2 (fate dim_order layer mems) (map cnd (map snd sel)) (map (load hf) done')).
      { clear - Ff. exact (F2_map_r _ _ _ _ _ Ff). }
      split; [reflexivity|]. split; [exact Fate|]. split.
      { intros sm Hi. destruct (Forall2_in_r _ _ _ _ Fate Hi) as (cd & Hcd & Hf).
        assert (Hcd' : completes mix hints zmax oa_sizes t cd /\ fits cd).
        { apply Hcs. apply in_map_iff in Hcd as (locs & <- & Hl). apply in_map, Hall, Hsel, Hl. }
        now apply (Hout cd). }
      intros Hf. rewrite Sf; [reflexivity|reflexivity|]. intros locs Hl. apply Hf. now apply in_map.
  Qed.

  Theorem generate_ok : exists zmax t all,
    get_max_unrolling layer mems oa_sizes = Ok zmax /\
    check_and_reduce order1 order2 pick_dim pick_oa (qsizes oa_sizes) (qmaxs zmax) (qsizes (gl_sizes layer)) provided = Ok t /\
    all <> [] /\
    (forall c, In c all <-> completes mix hints zmax oa_sizes t c /\ mapping_fits (qsizes oa_sizes) (qmaxs zmax) (qsizes (gl_sizes layer)) c) /\
    StronglySorted ranks_before all /\
    forall nb, (1 <= nb)%nat -> exists sms,
      generate order1 order2 dim_order pick_dim pick_oa layer mems oa_sizes mix nb hints provided = Ok sms /\
      Forall2 (fate dim_order layer mems) (firstn nb all) sms /\
      (forall sm, In sm sms -> dicts sm /\ sm_whole sm /\ (forall o, In o (keys sm) <-> In o (keys oa_sizes)) /\
         mapping_fits (qsizes oa_sizes) (qmaxs zmax) (qsizes (gl_sizes layer)) sm) /\
      ((forall c, In c (firstn nb all) -> fits_capacity layer mems c) -> sms = firstn nb all).
  Proof. destruct generate_full as (zmax & t & all & E1 & E2 & _ & R). exists zmax, t, all. exact (conj E1 (conj E2 R)). Qed.
End Generate.

(** * Hints *)
Lemma hints_ok oas dims hints : NoDup dims -> dims <> [] -> (forall o h, In (o, h) hints -> NoDup h) ->
  forall o, In o oas -> exists h, dget o (complete_hints oas dims (clear_invalid_hints dims hints)) = Some h /\ NoDup h /\
    (exists d, In d h /\ In d dims) /\
    (forall h', dget o (clear_invalid_hints dims hints) = Some h' -> h = h').
Proof.
  intros Hd Hne Hh. set (H0 := clear_invalid_hints dims hints).
  set (good := fun h : list string => NoDup h /\ exists d, In d h /\ In d dims).
  assert (G0 : forall o h, dget o H0 = Some h -> good h).
  { intros o h E. apply dget_In in E. apply filter_In in E as [E1 E2]. split; [now apply (Hh o)|].
    apply existsb_exists in E2 as (d & A & B). exists d. split; [exact A|now apply memb_In]. }
  assert (Gd : good dims) by (split; [exact Hd|]; destruct dims as [|d ds]; [easy|exists d; split; now left]).
  assert (K : forall oas H, (forall o h, dget o H = Some h -> good h) -> (forall o h, dget o H0 = Some h -> dget o H = Some h) ->
    let H' := complete_hints oas dims H in
    (forall o h, dget o H' = Some h -> good h) /\ (forall o h, dget o H0 = Some h -> dget o H' = Some h) /\
    (forall o, In o (keys H) \/ In o oas -> In o (keys H'))).
  { clear oas. induction oas as [|o oas IH]; intros H A B; cbn zeta; cbn [complete_hints fold_left].
    - split; [exact A|]. split; [exact B|]. intros o [Ho|[]]. exact Ho.
    - set (H1 := if dmem o H then H else dset o dims H).
      assert (A1 : forall o' h, dget o' H1 = Some h -> good h).
      { unfold H1. destruct (dmem o H); [exact A|]. intros o' h. destruct (eqb_spec o' o) as [->|N].
        - rewrite dget_dset_eq. intros [= <-]. exact Gd.
        - rewrite dget_dset_neq by exact N. apply A. }
      assert (B1 : forall o' h, dget o' H0 = Some h -> dget o' H1 = Some h).
      { unfold H1. destruct (dmem o H) eqn:E; [exact B|]. intros o' h Eo. destruct (eqb_spec o' o) as [->|N].
        - apply B in Eo. apply dget_Some_key, dmem_keys in Eo. congruence.
        - rewrite dget_dset_neq by exact N. now apply B. }
      assert (K1 : forall o', In o' (keys H) \/ o' = o -> In o' (keys H1)).
      { unfold H1. intros o' Ho. destruct (dmem o H) eqn:E; [apply dmem_keys in E; destruct Ho as [Ho| ->]; assumption|]. apply In_keys_dset. tauto. }
      destruct (IH H1 A1 B1) as (C1 & C2 & C3). split; [exact C1|]. split; [exact C2|]. intros o' Ho. apply C3.
      destruct Ho as [Ho|[<-|Ho]]; [left; apply K1; now left|left; apply K1; now right|now right]. }
  destruct (K oas H0 G0 (fun _ _ E => E)) as (C1 & C2 & C3). intros o Ho.
  destruct (key_dget o (complete_hints oas dims H0)) as (h & Eh); [apply C3; now right|].
  exists h. split; [exact Eh|]. destruct (C1 o h Eh) as [G1 G2]. split; [exact G1|]. split; [exact G2|].
  intros h' E. apply C2 in E. congruence.
Qed.

Section Consequences.
  Variables order1 order2 dim_order : list string -> list string.
  Variable pick_dim : string -> dict string Q -> string.
  Variable pick_oa : string -> dict string (dict string Q) -> string.
  Hypothesis Ho1 : orders order1.
  Hypothesis Ho2 : orders order2.
  Hypothesis Hdo : orders dim_order.
  Hypothesis Hpd : picks_dim pick_dim.
  Hypothesis Hpo : picks_oa pick_oa.

  Theorem generate_valid layer mems oa_sizes mix nb hints provided :
    gen_inputs layer mems oa_sizes hints provided -> (1 <= nb)%nat ->
    exists zmax sms, get_max_unrolling layer mems oa_sizes = Ok zmax /\
      generate order1 order2 dim_order pick_dim pick_oa layer mems oa_sizes mix nb hints provided = Ok sms /\
      (1 <= length sms <= nb)%nat /\
      (forall sm, In sm sms -> dicts sm /\ sm_whole sm /\ (forall o, In o (keys sm) <-> In o (keys oa_sizes)) /\
         mapping_fits (qsizes oa_sizes) (qmaxs zmax) (qsizes (gl_sizes layer)) sm).
  Proof.
    intros Hin Hnb.
    destruct (generate_ok order1 order2 dim_order pick_dim pick_oa Ho1 Ho2 Hdo Hpd Hpo layer mems oa_sizes mix hints provided Hin)
      as (zmax & t & all & E1 & _ & E3 & _ & _ & G). destruct (G nb Hnb) as (sms & E & F & V & _).
    exists zmax, sms. split; [exact E1|]. split; [exact E|]. split; [|exact V].
    rewrite <- (F2_length _ _ _ F), firstn_length. destruct all; [easy|]. cbn [length]. lia.
  Qed.

  Theorem generate_prefix layer mems oa_sizes mix nb nb' hints provided :
    gen_inputs layer mems oa_sizes hints provided -> (1 <= nb <= nb')%nat ->
    (forall zmax t c, get_max_unrolling layer mems oa_sizes = Ok zmax ->
       check_and_reduce order1 order2 pick_dim pick_oa (qsizes oa_sizes) (qmaxs zmax) (qsizes (gl_sizes layer)) provided = Ok t ->
       completes mix hints zmax oa_sizes t c -> mapping_fits (qsizes oa_sizes) (qmaxs zmax) (qsizes (gl_sizes layer)) c ->
       fits_capacity layer mems c) ->
    exists sms sms',
      generate order1 order2 dim_order pick_dim pick_oa layer mems oa_sizes mix nb hints provided = Ok sms /\
      generate order1 order2 dim_order pick_dim pick_oa layer mems oa_sizes mix nb' hints provided = Ok sms' /\
      sms = firstn nb sms'.
  Proof.
    intros Hin Hnb Hfit.
    destruct (generate_ok order1 order2 dim_order pick_dim pick_oa Ho1 Ho2 Hdo Hpd Hpo layer mems oa_sizes mix hints provided Hin)
      as (zmax & t & all & E1 & E2 & _ & E4 & _ & G).
    assert (Hc : forall n c, In c (firstn n all) -> fits_capacity layer mems c).
    { intros n c Hi. assert (Hc : In c all) by (rewrite <- (firstn_skipn n); apply in_or_app; now left). apply E4 in Hc as [H1 H2]. now apply (Hfit zmax t). }
    destruct (G nb ltac:(lia)) as (sms & E & _ & _ & S). destruct (G nb' ltac:(lia)) as (sms' & E' & _ & _ & S').
    exists sms, sms'. split; [exact E|]. split; [exact E'|]. rewrite (S (Hc nb)), (S' (Hc nb')), firstn_firstn. f_equal. lia.
  Qed.
End Consequences.
