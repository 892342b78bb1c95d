(** Proofs for C47: mapping files. *)
From Coq Require Import Ascii DecimalString Lia.
From Verif Require Import Base Model_Text Model_Layer Model_MapFile Spec_Layer Spec_MapFile Proof_Text Proof_Relevancy Proof_AllocSearch Proof_Bandwidth Proof_Ordering.
Open Scope string_scope.
Open Scope list_scope.
Open Scope Z_scope.
Open Scope result_scope.

(** * The entry of a layer *)

Lemma find_first (name : string) data e : find (fun x => eqb (en_name x) name) data = Some e <-> first_named name data e.
Proof.
  split.
  - induction data as [|x data IH]; [discriminate|]. cbn [find]. destruct (eqb_spec (en_name x) name) as [E|N]; intros H.
    + injection H as <-. exists [], data. repeat split; [exact E|intros y []].
    + destruct (IH H) as (pre & post & -> & En & Hp). exists (x :: pre), post. repeat split; [exact En|]. intros y [<-|I]; auto.
  - intros (pre & post & -> & En & Hp). induction pre as [|x pre IH]; cbn [app find].
    + rewrite En, eqb_refl. reflexivity.
    + rewrite eqb_neq by (apply Hp; now left). apply IH. intros y I. apply Hp. now right.
Qed.

Lemma memb_names name data : memb name (map en_name data) = true <-> exists e, first_named name data e.
Proof.
  rewrite memb_In. split.
  - intros I. apply in_map_iff in I. destruct I as (x & E & I). destruct (find (fun y => eqb (en_name y) name) data) as [e|] eqn:F.
    + exists e. apply find_first. exact F.
    + assert (Q := find_none _ _ F _ I). cbv beta in Q. rewrite E, eqb_refl in Q. discriminate.
  - intros (e & pre & post & -> & En & _). rewrite map_app. apply in_or_app. right. left. exact En.
Qed.
Lemma memb_unnamed name data : memb name (map en_name data) = false <-> unnamed name data.
Proof.
  split.
  - intros M x I E. apply memb_not_In in M. apply M. rewrite <- E. now apply List.in_map.
  - intros U. apply memb_not_In. intros I. apply in_map_iff in I. destruct I as (x & E & I). exact (U _ I E).
Qed.
Lemma named_first name data e : first_named name data e -> ~ unnamed name data.
Proof. intros (pre & post & -> & En & _) U. apply (U e); [apply in_or_app; right; now left|exact En]. Qed.

Lemma select_spec name type data e : select_mapping name type data = Ok e <-> chosen name type data e.
Proof.
  unfold select_mapping, chosen, next_named. split.
  - destruct (memb name (map en_name data)) eqn:M1; [|apply memb_unnamed in M1; destruct (memb type (map en_name data)) eqn:M2; [|apply memb_unnamed in M2]];
      destruct (find _ data) eqn:F; cbn; intros [= ->]; apply find_first in F; auto.
  - intros [H|[(U & H)|(U1 & U2 & H)]].
    + assert (M : memb name (map en_name data) = true) by (apply memb_names; eauto). rewrite M. apply find_first in H. now rewrite H.
    + apply memb_unnamed in U. rewrite U. assert (M : memb type (map en_name data) = true) by (apply memb_names; eauto). rewrite M. apply find_first in H. now rewrite H.
    + apply memb_unnamed in U1, U2. rewrite U1, U2. apply find_first in H. now rewrite H.
Qed.

Lemma select_error name type data x : select_mapping name type data = Err x <->
  x = StopIteration /\ unnamed name data /\ unnamed type data /\ unnamed "default" data.
Proof.
  assert (G : forall n e, find (fun y => eqb (en_name y) n) data = Some e -> memb n (map en_name data) = true).
  { intros n e F. apply memb_names. exists e. now apply find_first. }
  assert (G' : forall n, find (fun y => eqb (en_name y) n) data = None -> memb n (map en_name data) = false).
  { intros n F. apply memb_unnamed. intros y I E. assert (Q := find_none _ _ F _ I). cbv beta in Q. rewrite E, eqb_refl in Q. discriminate. }
  unfold select_mapping, next_named. split.
  - destruct (memb name (map en_name data)) eqn:M1; [|apply memb_unnamed in M1; destruct (memb type (map en_name data)) eqn:M2; [|apply memb_unnamed in M2]];
      destruct (find _ data) eqn:F; cbn; intros [= <-]; apply G' in F; try congruence. apply memb_unnamed in F. auto.
  - intros (-> & U1 & U2 & U3). apply memb_unnamed in U1, U2, U3. rewrite U1, U2. destruct (find _ data) eqn:F; [|reflexivity]. apply G in F. congruence.
Qed.

Lemma first_unique data e e' name : NoDup (map en_name data) -> In e data -> en_name e = name -> first_named name data e' -> e = e'.
Proof.
  intros Nd I E (pre & post & -> & E' & _). apply in_app_or in I. rewrite map_app in Nd. cbn [map] in Nd.
  apply NoDup_remove_2 in Nd. rewrite E', <- E in Nd. destruct I as [I|[I|I]]; [|congruence|]; exfalso; apply Nd, in_or_app; [left|right]; now apply List.in_map.
Qed.
Lemma named_in name data e : NoDup (map en_name data) -> In e data -> en_name e = name -> first_named name data e.
Proof.
  intros Nd I E. destruct (proj1 (memb_names name data)) as (e' & H). { apply memb_In. rewrite <- E. now apply List.in_map. }
  rewrite (first_unique _ _ _ _ Nd I E H). exact H.
Qed.
Lemma first_in name data e : first_named name data e -> In e data /\ en_name e = name.
Proof. intros (pre & post & -> & E & _). split; [apply in_or_app; right; now left|exact E]. Qed.
Lemma unnamed_perm name data data' : Permutation data data' -> unnamed name data -> unnamed name data'.
Proof. intros P U x I. apply U. eapply Permutation_in; [symmetry; exact P|exact I]. Qed.

Lemma chosen_perm name type data data' e : NoDup (map en_name data) -> Permutation data data' -> chosen name type data e -> chosen name type data' e.
Proof.
  intros Nd P. assert (Nd' : NoDup (map en_name data')) by (eapply Permutation_NoDup; [apply Permutation_map; exact P|exact Nd]).
  assert (G : forall n, first_named n data e -> first_named n data' e).
  { intros n H. apply first_in in H. destruct H as (I & E). apply named_in; [exact Nd'| |exact E]. eapply Permutation_in; eassumption. }
  intros [H|[(U & H)|(U1 & U2 & H)]]; unfold chosen.
  - left. auto.
  - right. left. split; [now apply (unnamed_perm _ _ _ P)|auto].
  - right. right. repeat split; try now apply (unnamed_perm _ _ _ P). auto.
Qed.

Lemma select_perm name type data data' : NoDup (map en_name data) -> Permutation data data' ->
  select_mapping name type data = select_mapping name type data'.
Proof.
  intros Nd P. destruct (select_mapping name type data) as [e|x] eqn:E.
  - symmetry. apply select_spec. apply select_spec in E. exact (chosen_perm _ _ _ _ _ Nd P E).
  - symmetry. apply select_error in E. destruct E as (-> & U1 & U2 & U3). apply select_error. split; [reflexivity|]. repeat split; now apply (unnamed_perm _ _ _ P).
Qed.

(** * Texts *)

Lemma span_spec p s : s = (fst (span p s) ++ snd (span p s))%string /\ every p (fst (span p s)) /\ stops p (snd (span p s)).
Proof.
  induction s as [|c s (E & H1 & H2)]; cbn [span]; [repeat split; apply every_nil|].
  destruct (p c) eqn:Pc.
  - destruct (span p s) as [a b]. cbn [fst snd] in *. repeat split.
    + cbn. now rewrite <- E.
    + apply every_cons. auto.
    + exact H2.
  - repeat split; [apply every_nil|exact Pc].
Qed.

Lemma upper_in c : is_upper c = true <-> In c (characters "ABCDEFGHIJKLMNOPQRSTUVWXYZ").
Proof.
  split.
  - destruct c as [[] [] [] [] [] [] [] []]; intros H; try discriminate H; cbn; tauto.
  - intros H. repeat (destruct H as [<-|H]; [reflexivity|]). destruct H.
Qed.
Lemma digit_in c : is_digit c = true <-> In c (characters "0123456789").
Proof.
  split.
  - destruct c as [[] [] [] [] [] [] [] []]; intros H; try discriminate H; cbn; tauto.
  - intros H. repeat (destruct H as [<-|H]; [reflexivity|]). destruct H.
Qed.

Lemma dim_prefix_spec s r : dim_prefix s = Some r -> exists d, s = (d ++ r)%string /\ dim_name d /\ stops is_digit r.
Proof.
  unfold dim_prefix. destruct (span_spec is_upper s) as (E & H1 & H2). destruct (span is_upper s) as [a b]. cbn [fst snd] in *.
  destruct (span_spec is_digit b) as (E' & H1' & H2'). destruct (span is_digit b) as [u v]. cbn [fst snd] in *.
  destruct (eqb_spec a "") as [N|N]; [discriminate|]. intros [= <-]. exists (a ++ u)%string. repeat split.
  - rewrite E, E'. now rewrite str_app_assoc.
  - exists a, u. repeat split; [exact N| |]; intros c I; [apply upper_in|apply digit_in]; auto.
  - exact H2'.
Qed.

Lemma upper_dim d : dim_name d -> upper d = d.
Proof.
  intros (a & b & -> & _ & Ha & Hb).
  assert (G : forall s, (forall c, In c (characters s) -> is_lower c = false) -> upper s = s).
  { induction s as [|c s IH]; intros H; [reflexivity|]. cbn [upper]. rewrite IH by (intros x I; apply H; now right). unfold upper_char. rewrite (H c) by now left. reflexivity. }
  apply G. intros c I. rewrite chars_app in I. apply in_app_or in I. destruct I as [I|I]; [apply Ha, upper_in in I|apply Hb, digit_in in I];
    destruct c as [[] [] [] [] [] [] [] []]; try reflexivity; discriminate I.
Qed.

Lemma dim_no_comma d : dim_name d -> ~ In ","%char (characters d).
Proof.
  intros (a & b & -> & _ & Ha & Hb) I. rewrite chars_app in I. apply in_app_or in I. destruct I as [I|I]; [apply Ha, upper_in in I|apply Hb, digit_in in I]; discriminate I.
Qed.

Lemma split_app sep a b : ~ In sep (characters a) -> forall cur, split_from sep cur (a ++ String sep b)%string = (cur ++ a)%string :: split_from sep "" b.
Proof.
  induction a as [|c a IH]; intros H cur; cbn [append split_from].
  - rewrite Ascii.eqb_refl. now rewrite str_app_nil.
  - destruct (Ascii.eqb_spec c sep) as [E|N]; [exfalso; apply H; now left|]. rewrite IH by (intros I; apply H; now right). rewrite str_app_assoc. reflexivity.
Qed.
Lemma split_none sep a : ~ In sep (characters a) -> forall cur, split_from sep cur a = [(cur ++ a)%string].
Proof.
  induction a as [|c a IH]; intros H cur; cbn [split_from].
  - now rewrite str_app_nil.
  - destruct (Ascii.eqb_spec c sep) as [E|N]; [exfalso; apply H; now left|]. rewrite IH by (intros I; apply H; now right). rewrite str_app_assoc. reflexivity.
Qed.

Lemma rev_rev s : rev_string (rev_string s) = s.
Proof. unfold rev_string. now rewrite list_ascii_of_string_of_list_ascii, rev_involutive, string_of_list_ascii_of_string. Qed.

Lemma digit_skip w : every is_digit w -> skip_space w = w.
Proof.
  intros H. destruct w as [|c w]; [reflexivity|]. apply every_cons in H. destruct H as [H _]. unfold skip_space. cbn [span].
  replace (is_space c) with false; [reflexivity|]. destruct c as [[] [] [] [] [] [] [] []]; try reflexivity; discriminate H.
Qed.

Lemma int_of_digits w : every is_digit w -> int_of_text (String " " w) = int_of_word w.
Proof.
  intros H. unfold int_of_text. assert (E : skip_space (String " " w) = w).
  { unfold skip_space at 1. cbn [span is_space]. change (is_space " ") with true. assert (D := digit_skip _ H). unfold skip_space in D. destruct (span is_space w). exact D. }
  rewrite E. rewrite digit_skip, rev_rev; [reflexivity|]. intros c I. apply H. unfold characters, rev_string in *. rewrite list_ascii_of_string_of_list_ascii in I. now apply in_rev in I.
Qed.

Lemma word_total w : every is_digit w -> w <> "" -> exists n, int_of_word w = Ok n.
Proof.
  intros H N. unfold int_of_word. assert (G : forall s, every is_digit s -> exists u, NilEmpty.uint_of_string s = Some u).
  { induction s as [|c s IH]; intros Hs; [eexists; reflexivity|]. apply every_cons in Hs. destruct Hs as [Hc Hs]. destruct (IH Hs) as (u & E). cbn [NilEmpty.uint_of_string]. rewrite E.
    destruct c as [[] [] [] [] [] [] [] []]; try discriminate Hc; eexists; reflexivity. }
  destruct (G w H) as (u & E). unfold NilZero.uint_of_string. destruct w; [congruence|]. rewrite E. eauto.
Qed.

Lemma read_written d w n : dim_name d -> every is_digit w -> int_of_word w = Ok n -> read_unrolling (d ++ ", " ++ w)%string = Ok (d, n).
Proof.
  intros Hd Hw E. unfold read_unrolling, split. change (", " ++ w)%string with (String "," (String " " w)).
  rewrite split_app by now apply dim_no_comma. rewrite split_none.
  2:{ intros [I|I]; [discriminate|]. apply Hw in I. discriminate I. }
  cbn [hd last append]. rewrite int_of_digits by exact Hw. rewrite E. cbn [rbind]. now rewrite upper_dim.
Qed.

Lemma fits_read s : fits_unrolling s = true -> exists u, unrolls s u /\ read_unrolling s = Ok u.
Proof.
  unfold fits_unrolling. destruct (dim_prefix s) as [r|] eqn:E; [|discriminate]. apply dim_prefix_spec in E. destruct E as (d & -> & Hd & _).
  destruct r as [|c r]; [discriminate|]. destruct (Ascii.eqb_spec c ",") as [->|N]; [|destruct c as [[] [] [] [] [] [] [] []]; try discriminate; congruence].
  destruct r as [|c r]; [discriminate|]. destruct (Ascii.eqb_spec c " ") as [->|N]; [|destruct c as [[] [] [] [] [] [] [] []]; try discriminate; congruence].
  intros H. apply andb_prop in H. destruct H as [H1 H2]. destruct (eqb_spec r "") as [N|N]; [discriminate|].
  destruct (span_spec is_digit r) as (E & Hr & _). destruct (eqb_spec (snd (span is_digit r)) "") as [E2|]; [|discriminate].
  rewrite E2, str_app_nil in E. rewrite <- E in Hr. destruct (word_total r Hr N) as (n & En).
  exists (d, n). split.
  - exists r. cbn [fst snd]. repeat split; [exact Hd|exact N| |exact En]. intros c I. apply digit_in. auto.
  - exact (read_written d r n Hd Hr En).
Qed.

Lemma unrolls_fits s u : unrolls s u -> fits_unrolling s = true /\ read_unrolling s = Ok u.
Proof.
  destruct u as [d n]. intros (w & -> & Hd & N & Hw & En). cbn [fst snd] in *.
  assert (Hw' : every is_digit w) by (intros c I; apply digit_in; auto). split; [|now apply read_written].
  unfold fits_unrolling. destruct Hd as (a & b & -> & Na & Ha & Hb).
  assert (E : dim_prefix ((a ++ b) ++ ", " ++ w)%string = Some (", " ++ w)%string).
  { unfold dim_prefix. rewrite str_app_assoc. rewrite span_run.
    - cbn [fst snd]. rewrite eqb_neq by exact Na. rewrite span_run; [reflexivity|intros c I; apply digit_in; auto|reflexivity].
    - intros c I. apply upper_in. auto.
    - destruct b as [|c b]; [reflexivity|]. cbn [append stops]. assert (I := Hb c (or_introl eq_refl)). apply digit_in in I.
      destruct c as [[] [] [] [] [] [] [] []]; try reflexivity; discriminate I. }
  rewrite E. cbn [append]. rewrite eqb_neq by exact N. cbn [negb andb].
  assert (S' := span_run is_digit w "" Hw' I). rewrite str_app_nil in S'. rewrite S'. reflexivity.
Qed.

(** * Dictionaries *)

Lemma dict_of_snoc {V} (l : list (string * V)) k v : dict_of (l ++ [(k, v)]) = dset k v (dict_of l).
Proof. unfold dict_of. now rewrite fold_left_app. Qed.

Lemma dict_of_last {V} (l : list (string * V)) : forall d n, dget d (dict_of l) = Some n <-> last_value l d n.
Proof.
  induction l as [|[k v] l IH] using rev_ind; intros d n.
  - split; [discriminate|]. intros (pre & post & E & _). destruct pre; discriminate.
  - rewrite dict_of_snoc. destruct (eqb_spec d k) as [E|N].
    + subst k. rewrite dget_dset_eq. split.
      * intros [= ->]. exists l, []. split; [reflexivity|intros []].
      * intros (pre & post & E & H). destruct post as [|x post] using rev_ind.
        -- apply app_inj_tail in E. destruct E as (_ & E). congruence.
        -- rewrite app_comm_cons, app_assoc in E. apply app_inj_tail in E. destruct E as (_ & <-). exfalso. apply H. rewrite map_app. apply in_or_app. right. now left.
    + rewrite dget_dset_neq by congruence. rewrite IH. split.
      * intros (pre & post & -> & H). exists pre, (post ++ [(k, v)]). split; [now rewrite <- app_assoc|]. rewrite map_app. intros I. apply in_app_or in I. destruct I as [I|[I|[]]]; [auto|cbn in I; congruence].
      * intros (pre & post & E & H). destruct post as [|x post _] using rev_ind.
        -- apply app_inj_tail in E. destruct E as (_ & E). congruence.
        -- rewrite app_comm_cons, app_assoc in E. apply app_inj_tail in E. destruct E as (-> & <-). exists pre, post. split; [reflexivity|]. intros I. apply H. rewrite map_app. apply in_or_app. now left.
Qed.

Lemma rmap_keyed {A B} (f : string * A -> result (string * B)) (g : string -> A -> B -> Prop) (l : list (string * A)) :
  (forall k a, In (k, a) l -> exists b, f (k, a) = Ok (k, b) /\ g k a b) ->
  exists l', rmap f l = Ok l' /\ Forall2 (fun x y => fst y = fst x /\ g (fst x) (snd x) (snd y)) l l'.
Proof.
  induction l as [|[k a] l IH]; intros H; [exists []; split; [reflexivity|constructor]|].
  destruct (H k a (or_introl eq_refl)) as (b & E & G). destruct IH as (l' & E' & F); [intros k' a' I; apply H; now right|].
  exists ((k, b) :: l'). cbn [rmap]. rewrite E. cbn [rbind]. rewrite E'. split; [reflexivity|]. constructor; [split; [reflexivity|exact G]|exact F].
Qed.
Lemma F2_keys {A B} (g : string -> A -> B -> Prop) (l : list (string * A)) (l' : list (string * B)) :
  Forall2 (fun x y => fst y = fst x /\ g (fst x) (snd x) (snd y)) l l' -> map fst l' = map fst l.
Proof. induction 1 as [|x y l l' (E & _) F IH]; [reflexivity|]. cbn [map]. congruence. Qed.
Lemma F2_In {A B} (g : string -> A -> B -> Prop) (l : list (string * A)) (l' : list (string * B)) k a :
  Forall2 (fun x y => fst y = fst x /\ g (fst x) (snd x) (snd y)) l l' -> In (k, a) l -> exists b, In (k, b) l' /\ g k a b.
Proof.
  induction 1 as [|[k1 a1] [k2 b] l l' (E & G) F IH]; intros I; [destruct I|]. cbn [fst snd] in *. subst k2. destruct I as [[= -> ->]|I].
  - exists b. split; [now left|exact G].
  - destruct (IH I) as (b' & I' & G'). exists b'. split; [now right|exact G'].
Qed.

Lemma single_spec texts : (forall t, In t texts -> fits_unrolling t = true) ->
  exists l, Forall2 unrolls texts l /\ mapping_single_oa_dim texts = Ok (dict_of l).
Proof.
  intros H. unfold mapping_single_oa_dim. assert (G : exists l, rmap read_unrolling texts = Ok l /\ Forall2 unrolls texts l).
  { induction texts as [|t texts IH]; [exists []; split; [reflexivity|constructor]|].
    destruct (fits_read t (H _ (or_introl eq_refl))) as (u & Hu & Eu). destruct IH as (l & E & F); [intros t' I; apply H; now right|].
    exists (u :: l). cbn [rmap]. rewrite Eu. cbn [rbind]. rewrite E. split; [reflexivity|now constructor]. }
  destruct G as (l & E & F). exists l. split; [exact F|]. rewrite E. reflexivity.
Qed.

Lemma oa_valid oa : In oa array_dims -> oa_dimension oa = Ok oa.
Proof. intros H. repeat (destruct H as [<-|H]; [reflexivity|]). destruct H. Qed.

Lemma spatial_spec e user : en_spatial e = Some user -> NoDup (keys user) ->
  (forall oa texts, In (oa, texts) user -> In oa array_dims /\ forall t, In t texts -> fits_unrolling t = true) ->
  exists sm, create_spatial_mapping e = Ok sm /\ describes user sm.
Proof.
  intros E Nd H. unfold create_spatial_mapping. rewrite E.
  destruct (rmap_keyed (fun kv => oa <- oa_dimension (fst kv);; d <- mapping_single_oa_dim (snd kv);; Ok (oa, d))
    (fun _ texts m => exists l, Forall2 unrolls texts l /\ m = dict_of l) user) as (l & El & F).
  - intros oa texts I. destruct (H _ _ I) as (Ha & Ht). destruct (single_spec texts Ht) as (l & F & El). exists (dict_of l). cbn [fst snd]. rewrite (oa_valid _ Ha). cbn [rbind]. rewrite El. split; [reflexivity|eauto].
  - rewrite El. cbn [rbind]. eexists. split; [reflexivity|]. assert (K : map fst l = map fst user) by exact (F2_keys (fun _ texts m => exists l, Forall2 unrolls texts l /\ m = dict_of l) _ _ F).
    assert (Nl : NoDup (map fst l)) by (rewrite K; exact Nd). rewrite (dict_of_nodup l) by exact Nl. split; [exact K|].
    intros oa texts I. destruct (F2_In (fun _ texts m => exists l, Forall2 unrolls texts l /\ m = dict_of l) _ _ _ _ F I) as (m & Im & lt & Ft & ->). exists lt, (dict_of lt). split; [exact Ft|].
    split; [apply In_dget; [exact Nl|exact Im]|]. split; [apply NoDup_dict_of|]. intros d n. apply dict_of_last.
Qed.

Lemma written_single m : NoDup (keys m) -> (forall d n, In (d, n) m -> dim_name d /\ 0 <= n) ->
  mapping_single_oa_dim (map unrolling_text m) = Ok m /\ (forall t, In t (map unrolling_text m) -> fits_unrolling t = true).
Proof.
  intros Nd H. assert (U : forall u, In u m -> unrolls (unrolling_text u) u).
  { intros [d n] I. destruct (H _ _ I) as (Hd & Hn). destruct (int_round_trip n Hn) as (E & Hw & N). exists (string_of_Z n). cbn [fst snd].
    repeat split; [exact Hd|exact N| |exact E]. intros c Ic. apply digit_in. now apply Hw. }
  split.
  - unfold mapping_single_oa_dim. assert (G : rmap read_unrolling (map unrolling_text m) = Ok m).
    { clear Nd H. induction m as [|u m IH]; [reflexivity|]. cbn [map rmap]. destruct (unrolls_fits _ _ (U u (or_introl eq_refl))) as (_ & ->). cbn [rbind]. rewrite IH; [reflexivity|intros; apply U; now right]. }
    rewrite G. cbn [rbind]. now rewrite dict_of_nodup.
  - intros t I. apply in_map_iff in I. destruct I as (u & <- & I). exact (proj1 (unrolls_fits _ _ (U u I))).
Qed.

Lemma written_spatial e sm : en_spatial e = Some (map (fun kv => (fst kv, map unrolling_text (snd kv))) sm) -> NoDup (keys sm) ->
  (forall oa m, In (oa, m) sm -> In oa array_dims /\ NoDup (keys m) /\ forall d n, In (d, n) m -> dim_name d /\ 0 <= n) ->
  create_spatial_mapping e = Ok sm.
Proof.
  intros E Nd H. unfold create_spatial_mapping. rewrite E. clear E.
  assert (G : rmap (fun kv => oa <- oa_dimension (fst kv);; d <- mapping_single_oa_dim (snd kv);; Ok (oa, d)) (map (fun kv => (fst kv, map unrolling_text (snd kv))) sm) = Ok sm).
  { clear Nd. induction sm as [|[oa m] sm IH]; [reflexivity|]. cbn [map rmap fst snd]. destruct (H oa m (or_introl eq_refl)) as (Ha & Nm & Hm).
    rewrite (oa_valid _ Ha). cbn [rbind]. rewrite (proj1 (written_single m Nm Hm)). cbn [rbind]. rewrite IH; [reflexivity|]. intros oa' m' I. apply (H oa' m'). now right. }
  rewrite G. cbn [rbind]. now rewrite dict_of_nodup.
Qed.

(** * Files *)

Lemma parsed_valid file data : parse_mapping file = Ok data ->
  data = map normalise file /\ (forall e, In e data -> fits_schema e = true) /\ exists e, first_named "default" data e.
Proof.
  unfold parse_mapping. destruct (valid_file (map normalise file)) eqn:V; [|discriminate]. intros [= <-]. split; [reflexivity|].
  unfold valid_file in V. apply andb_prop in V. destruct V as (V1 & V2). split; [|now apply memb_names]. intros e I. exact (proj1 (forallb_forall _ _) V1 e I).
Qed.

Lemma parsed_selects file data name type : parse_mapping file = Ok data -> exists e, select_mapping name type data = Ok e /\ chosen name type data e /\ In e data.
Proof.
  intros P. apply parsed_valid in P. destruct P as (_ & _ & d & Hd). destruct (select_mapping name type data) as [e|x] eqn:E.
  - exists e. assert (C := proj1 (select_spec _ _ _ _) E). split; [reflexivity|]. split; [exact C|]. destruct C as [C|[(_ & C)|(_ & _ & C)]]; exact (proj1 (first_in _ _ _ C)).
  - apply select_error in E. destruct E as (_ & _ & _ & U). exfalso. exact (named_first _ _ _ Hd U).
Qed.

Lemma hint_spec e : NoDup (keys (en_hint e)) -> (forall oa ds, In (oa, ds) (en_hint e) -> In oa array_dims /\ forall d, In d ds -> fits_dim d = true) ->
  create_hint e = Ok (en_hint e).
Proof.
  intros Nd H. unfold create_hint.
  assert (G : rmap (fun kv => oa <- oa_dimension (fst kv);; Ok (oa, map upper (snd kv))) (en_hint e) = Ok (en_hint e)).
  { revert H. clear Nd. induction (en_hint e) as [|[oa ds] l IH]; intros H; [reflexivity|]. cbn [rmap fst snd]. destruct (H oa ds (or_introl eq_refl)) as (Ha & Hd).
    rewrite (oa_valid _ Ha). cbn [rbind]. rewrite IH by (intros oa' ds' I; apply (H oa' ds'); now right). cbn [rbind].
    assert (U : map upper ds = ds); [|now rewrite U]. clear IH H. induction ds as [|d ds IH]; [reflexivity|]. cbn [map]. rewrite IH by (intros; apply Hd; now right). f_equal. apply upper_dim.
    assert (F := Hd d (or_introl eq_refl)). unfold fits_dim in F. destruct (dim_prefix d) as [r|] eqn:E; [|discriminate]. apply dim_prefix_spec in E. destruct E as (x & -> & Hx & _).
    destruct r; [|discriminate]. now rewrite str_app_nil. }
  rewrite G. cbn [rbind]. now rewrite dict_of_nodup.
Qed.

Lemma attr_spec file data name type dims : proper_file file -> parse_mapping file = Ok data ->
  exists e a, chosen name type data e /\ create_mapping_attr name type dims data = Ok a /\
    (match en_spatial e with None => at_spatial a = [] | Some user => describes user (at_spatial a) end) /\
    at_hint a = en_hint e /\
    NoDup (keys (at_links a)) /\ (forall op, In op (keys (at_links a)) <-> In op ["O"; "W"; "I"]) /\ at_links a = en_links e /\
    at_ordering a = filter (fun x => memb (fst x) dims) (create_ordering e).
Proof.
  intros Pf P. destruct (parsed_selects file data name type P) as (e & Se & C & I). apply parsed_valid in P. destruct P as (-> & V & d & Hd).
  assert (Ve := V e I). apply in_map_iff in I. destruct I as (r & En & Ir). destruct (Pf r Ir) as (P1 & P2 & P3).
  unfold fits_schema in Ve. apply andb_prop in Ve. destruct Ve as (Ve & V4). apply andb_prop in Ve. destruct Ve as (Ve & V3). apply andb_prop in Ve. destruct Ve as (V1 & V2). apply andb_prop in V2. destruct V2 as (V2 & V2').
  assert (Hh : create_hint e = Ok (en_hint e)).
  { apply hint_spec.
    - rewrite <- En. unfold normalise. cbn [en_hint]. destruct (rw_hint r) as [m|]; cbn [default]; [now apply P2|constructor].
    - intros oa ds Io. assert (X := proj1 (forallb_forall _ _) V3 _ Io). cbn [fst snd] in X. apply andb_prop in X. destruct X as (X1 & X2). split; [now apply memb_In|]. exact (proj1 (forallb_forall _ _) X2). }
  assert (Nl : NoDup (keys (en_links e))).
  { rewrite <- En. unfold normalise. cbn [en_links]. destruct (rw_links r) as [m|]; cbn [default]; [now apply P3|]. cbn. repeat constructor; cbn; intuition discriminate. }
  assert (Hs : exists sm, create_spatial_mapping e = Ok sm /\ match en_spatial e with None => sm = [] | Some user => describes user sm end).
  { destruct (en_spatial e) as [user|] eqn:Es.
    - apply (spatial_spec e user Es).
      + rewrite <- En in Es. unfold normalise in Es. cbn [en_spatial] in Es. destruct (rw_spatial r) as [o|]; cbn [default] in Es; [|discriminate]. subst o. now apply P1.
      + intros oa texts It. assert (X := proj1 (forallb_forall _ _) V1 _ It). cbn [fst snd] in X. apply andb_prop in X. destruct X as (X1 & X2). split; [now apply memb_In|]. exact (proj1 (forallb_forall _ _) X2).
    - exists []. unfold create_spatial_mapping. rewrite Es. auto. }
  destruct Hs as (sm & Esm & Hsm).
  exists e, (mkAttr sm (en_hint e) (create_links e) (remove_invalid_layer_dims dims (create_ordering e))).
  split; [exact C|]. split.
  - unfold create_mapping_attr. destruct (map normalise file) eqn:Em; [destruct Hd as (pre & post & E0 & _); destruct pre; discriminate|].
    rewrite Se. cbn [rbind]. rewrite Esm. cbn [rbind]. rewrite Hh. reflexivity.
  - cbn [at_spatial at_hint at_links at_ordering]. split; [exact Hsm|]. split; [reflexivity|]. unfold create_links. rewrite (dict_of_nodup (en_links e)) by exact Nl. split; [exact Nl|]. split; [|split; [reflexivity|apply remove_invalid_spec]].
    intros op. split; intros Io.
    + apply memb_In. exact (proj1 (forallb_forall _ _) V2' _ Io).
    + apply memb_In. exact (proj1 (forallb_forall _ _) V2 _ Io).
Qed.

Definition ex_file : list raw_entry :=
  [mkRaw (Some "default") (Some None) None None None;
   mkRaw (Some "Conv") (Some (Some [("D1", ["K, 32"]); ("D2", ["C, 4"; "FX, 8"; "C, 2"])])) None (Some [("D1", ["K"; "OX"])]) (Some [("C", inl 4); ("K", inr "*")]);
   mkRaw (Some "conv1") None (Some [("O", "O"); ("I", "I2"); ("W", "I1")]) None None].
