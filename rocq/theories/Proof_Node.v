(** Well-described layers are built. *)
From Verif Require Import Base Model_Pr Model_Text Model_Alloc Model_Layer Spec_Pr Spec_Loma Spec_Layer
  Proof_Pr Proof_Relevancy Proof_Elements.
Open Scope string_scope.
Open Scope list_scope.
Open Scope Z_scope.

Lemma rfold_dset_ok {V} (f : string -> result V) : forall ops D0, (forall op, In op ops -> exists v, f op = Ok v) ->
  exists D, rfold (fun d op => v <- f op ;; Ok (dset op v d)) D0 ops = Ok D.
Proof.
  induction ops as [|o ops IH]; intros D0 H; cbn [rfold]; [eauto|].
  destruct (H o (or_introl eq_refl)) as (v & ->). cbn [rbind]. apply IH. intros op Hop. apply H. now right.
Qed.

Lemma rfold_dset_keys {V} (f : string -> result V) : forall ops D0 D,
  rfold (fun d op => v <- f op ;; Ok (dset op v d)) D0 ops = Ok D ->
  forall k, In k (keys D) -> In k (keys D0) \/ In k ops.
Proof.
  induction ops as [|o ops IH]; intros D0 D H k Hk; cbn [rfold] in H; [injection H as <-; now left|].
  destruct (f o) as [v|]; [|discriminate]. cbn [rbind] in H. destruct (IH _ _ H k Hk) as [A|A].
  - apply In_keys_dset in A. destruct A as [->|A]; [right; now left|now left].
  - right. now right.
Qed.

Lemma rmap_exists {A B} (f : A -> result B) l : (forall x, In x l -> exists y, f x = Ok y) -> exists l', rmap f l = Ok l'.
Proof.
  induction l as [|x l IH]; intros H; [now exists []|]. cbn [rmap]. destruct (H x (or_introl eq_refl)) as (y & ->).
  destruct IH as (l' & ->); [intros z Hz; apply H; now right|]. cbn [rbind]. eauto.
Qed.

Lemma not_one_total sizes ds : (forall d, In d ds -> In d (keys sizes)) -> exists l, not_one sizes ds = Ok l.
Proof.
  induction ds as [|d ds IH]; intros H; [now exists []|]. cbn [not_one].
  assert (K := H d (or_introl eq_refl)). apply key_dget in K. destruct K as (n & Hn). unfold dgetr. rewrite Hn. cbn [of_option rbind].
  destruct IH as (l & ->); [intros x Hx; apply H; now right|]. cbn [rbind]. eauto.
Qed.

Lemma distinct_pos l : l <> [] -> 0 < distinct l.
Proof.
  destruct l as [|x l]; [congruence|]. intros _. unfold distinct.
  assert (H : In x (nodup Z.eq_dec (x :: l))) by (apply nodup_In; now left).
  destruct (nodup Z.eq_dec (x :: l)); [destruct H|]. cbn [length]. lia.
Qed.

Lemma pr_size_pos sa a sb b : 0 < sa -> 0 < sb -> 0 < a -> 0 < b -> 0 < calc_pr_dimension_size sa a sb b.
Proof.
  intros Hsa Hsb Ha Hb. assert (H := pr_size_over sa a sb b Hsa Hsb Ha Hb).
  assert (N : all_indices sa a sb b <> []).
  { intros E. assert (X : In 0 (all_indices sa a sb b)) by (apply in_all_indices; exists 0, 0; lia). rewrite E in X. destruct X. }
  apply distinct_pos in N. lia.
Qed.

Section Total.
  Variables (order : list string -> list string) (links : list (string * string)) (nd : node_data)
            (rels : list relation) (padding : dict string (Z * Z)) (ops : list string).
  Hypothesis order_perm : forall l, Permutation (order l) l.
  Hypothesis relations : rmap create_relation (nd_relations nd) = Ok rels.
  Hypothesis paddings : create_padding nd = Ok padding.
  Hypothesis operands : contained_operands (node_tokens nd) = Ok ops.
  Let sizes := create_layer_dim_sizes nd.
  Hypothesis sizes_pos : forall d n, In (d, n) sizes -> 0 < n.
  Hypothesis good : sensible rels (keys sizes).
  (** Sizes of the derived dimensions: given for all of them, or none is all padding. *)
  Hypothesis derived_pos :
    match create_pr_layer_dim_sizes nd with
    | Some (x :: l) => (forall r, In r rels -> In (rel_1 r) (keys (x :: l))) /\ forall d n, In (d, n) (x :: l) -> 0 < n
    | _ => forall r, In r rels -> fst (pad_of padding (rel_1 r)) + snd (pad_of padding (rel_1 r)) <
             calc_pr_dimension_size (rel_coef_2 r) (size_or_1 (rel_2 r) sizes) (rel_coef_3 r) (size_or_1 (rel_3 r) sizes)
    end.
  Hypothesis subscripted : forall op, In op ops -> exists subs, get_r_layer_dims (node_tokens nd) op = Ok subs /\
    all_or_none rels subs /\ separate rels subs sizes.
  Hypothesis precise : forall op, In op ops -> In op (keys (nd_precision nd)).
  Hypothesis output : In "O_final" (keys (nd_precision nd)) \/ In "O" (keys (nd_precision nd)).

  Lemma keys_pr : keys (pr_loop_of rels) = map rel_1 rels.
  Proof.
    destruct good as [Nd _]. unfold pr_loop_of. rewrite (dict_of_rels (fun r => (rel_2 r, rel_3 r))) by exact Nd.
    unfold keys. now rewrite map_map.
  Qed.

  Lemma sz_pos d : 0 < size_or_1 d sizes.
  Proof. unfold size_or_1. destruct (dget d sizes) as [n|] eqn:E; [|lia]. apply (sizes_pos d). now apply dget_In. Qed.

  Lemma node_total : exists ln, layer_node_of order links nd = Ok ln.
  Proof.
    assert (Nd := proj1 good). unfold layer_node_of. fold (node_tokens nd). cbn zeta.
    rewrite relations, paddings, operands. cbn [rbind]. fold sizes.
    (* sizes of derived dimensions *)
    assert (Pr : exists pr_sizes,
      match create_pr_layer_dim_sizes nd with
      | Some (x :: l) => Ok (x :: l)
      | _ => rmap (fun d => n <- total_pr_size sizes (pr_loop_of rels) (pr_scaling_of rels) padding d ;; Ok (d, n)) (keys (pr_loop_of rels))
      end = Ok pr_sizes /\ (forall r, In r rels -> exists n, dget (rel_1 r) pr_sizes = Some n /\ 0 < n)).
    { assert (Def : (forall r, In r rels -> fst (pad_of padding (rel_1 r)) + snd (pad_of padding (rel_1 r)) <
             calc_pr_dimension_size (rel_coef_2 r) (size_or_1 (rel_2 r) sizes) (rel_coef_3 r) (size_or_1 (rel_3 r) sizes)) ->
        exists pr_sizes, rmap (fun d => n <- total_pr_size sizes (pr_loop_of rels) (pr_scaling_of rels) padding d ;; Ok (d, n)) (keys (pr_loop_of rels)) = Ok pr_sizes /\
          (forall r, In r rels -> exists n, dget (rel_1 r) pr_sizes = Some n /\ 0 < n)).
      { intros Hpad. rewrite keys_pr.
        assert (Each : forall r, In r rels -> total_pr_size sizes (pr_loop_of rels) (pr_scaling_of rels) padding (rel_1 r) =
           Ok (calc_pr_dimension_size (rel_coef_2 r) (size_or_1 (rel_2 r) sizes) (rel_coef_3 r) (size_or_1 (rel_3 r) sizes)
               - (fst (pad_of padding (rel_1 r)) + snd (pad_of padding (rel_1 r))))).
        { intros r Hr. unfold total_pr_size, pr_loop_of, pr_scaling_of, dgetr.
          rewrite (dict_of_rels (fun r => (rel_2 r, rel_3 r))), (dget_rels (fun r => (rel_2 r, rel_3 r))) by assumption.
          rewrite (dict_of_rels (fun r => (rel_coef_2 r, rel_coef_3 r))), (dget_rels (fun r => (rel_coef_2 r, rel_coef_3 r))) by assumption.
          destruct (proj2 good r Hr) as (_ & _ & _ & K2 & K3). apply key_dget in K2, K3. destruct K2 as (a & Ha), K3 as (b & Hb).
          unfold size_or_1. cbn [of_option rbind fst snd]. rewrite Ha, Hb. reflexivity. }
        exists (map (fun r => (rel_1 r, calc_pr_dimension_size (rel_coef_2 r) (size_or_1 (rel_2 r) sizes) (rel_coef_3 r) (size_or_1 (rel_3 r) sizes)
               - (fst (pad_of padding (rel_1 r)) + snd (pad_of padding (rel_1 r))))) rels). split.
        - clear -Each. induction rels as [|r l IH]; [reflexivity|]. cbn [map rmap].
          rewrite (Each r (or_introl eq_refl)). cbn [rbind].
          assert (G : forall (f : string -> result (string * Z)) rs (g : relation -> Z), (forall r, In r rs -> f (rel_1 r) = Ok (rel_1 r, g r)) -> rmap f (map rel_1 rs) = Ok (map (fun r => (rel_1 r, g r)) rs)).
          { clear. intros f rs g. induction rs as [|r rs IH]; intros H; [reflexivity|]. cbn [map rmap]. rewrite (H r (or_introl eq_refl)). cbn [rbind].
            rewrite IH; [reflexivity|]. intros x Hx. apply H. now right. }
          rewrite (G _ l (fun r => calc_pr_dimension_size (rel_coef_2 r) (size_or_1 (rel_2 r) sizes) (rel_coef_3 r) (size_or_1 (rel_3 r) sizes)
               - (fst (pad_of padding (rel_1 r)) + snd (pad_of padding (rel_1 r))))); [reflexivity|].
          intros x Hx. rewrite (Each x (or_intror Hx)). reflexivity.
        - intros r Hr. eexists. split; [now apply (dget_rels (fun r => calc_pr_dimension_size (rel_coef_2 r) (size_or_1 (rel_2 r) sizes) (rel_coef_3 r) (size_or_1 (rel_3 r) sizes)
               - (fst (pad_of padding (rel_1 r)) + snd (pad_of padding (rel_1 r)))))|]. specialize (Hpad r Hr). lia. }
      destruct (create_pr_layer_dim_sizes nd) as [[|x l]|]; [now apply Def| |now apply Def].
      exists (x :: l). split; [reflexivity|]. intros r Hr. destruct derived_pos as [D1 D2].
      assert (Kr := D1 r Hr). apply key_dget in Kr. destruct Kr as (n & Hn). exists n. split; [exact Hn|]. apply (D2 (rel_1 r)). now apply dget_In. }
    destruct Pr as (pr_sizes & -> & Hpr). cbn [rbind].
    (* relevancy *)
    assert (Rel : forall op, In op ops -> exists rv, relevancy_of order (node_tokens nd) sizes (pr_loop_of rels) (pr_loop_list_of rels) op = Ok rv).
    { intros op Hop. destruct (subscripted op Hop) as (subs & Es & All & Sep). unfold relevancy_of. rewrite Es. cbn [rbind]. cbn zeta.
      assert (Ir : forall d, In d (order (filter (fun d => negb (memb d subs)) (keys sizes))) -> In d (keys sizes)).
      { intros d Hd. apply (Permutation_in _ (order_perm _)) in Hd. now apply filter_In in Hd. }
      destruct (existsb _ subs) eqn:Ex.
      - destruct (not_one_total sizes (filter (fun d => negb (memb d (pr_loop_list_of rels))) (order (filter (fun d => negb (memb d subs)) (keys sizes))))) as (l & ->).
        { intros d Hd. apply filter_In in Hd. now apply Ir. } cbn [rbind]. eauto.
      - destruct (not_one_total sizes subs) as (l & ->).
        { intros d Hd. apply Sep. apply in_flat_map. exists d. split; [exact Hd|]. unfold loops_of.
          rewrite find_rel_none; [now left|]. intros Hi. apply pr_loop_keys in Hi.
          assert (X : existsb (fun d => dmem d (pr_loop_of rels)) subs = true) by (apply existsb_exists; eauto). congruence. }
        cbn [rbind]. destruct (not_one_total sizes (order (filter (fun d => negb (memb d subs)) (keys sizes)))) as (l' & ->); [exact Ir|].
        cbn [rbind]. eauto. }
    destruct (rfold_dset_ok (relevancy_of order (node_tokens nd) sizes (pr_loop_of rels) (pr_loop_list_of rels)) ops [] Rel) as (rel & Erel).
    unfold extract_relevancy_info. rewrite operands. cbn [rbind]. rewrite Erel. cbn [rbind].
    destruct (rfold_dset _ _ _ _ Erel) as (Grel & _ & _).
    (* sizes of operands *)
    assert (El : forall op, In op ops -> exists n, (rv <- dgetr op rel ;; operand_size_elem sizes (pr_loop_of rels) (pr_scaling_of rels) pr_sizes rv) = Ok n /\ 0 < n).
    { intros op Hop. destruct (Grel op Hop) as (rv & Hrv & Gv). unfold dgetr. rewrite Gv. cbn [of_option rbind].
      destruct (subscripted op Hop) as (subs & Es & All & Sep).
      rewrite (size_product order (node_tokens nd) sizes rels pr_sizes Nd (fun r Hr => proj1 (proj2 (proj2 (proj2 good r Hr)))) op rv subs Hrv Es All Sep).
      2: { intros r Hr _. destruct (Hpr r Hr) as (n & Hn & _). eapply dget_Some_key, Hn. }
      eexists. split; [reflexivity|]. apply zprod_pos. intros x Hx. apply in_map_iff in Hx. destruct Hx as (s & <- & Hs).
      unfold derived_size. destruct (find (fun r => eqb (rel_1 r) s) rels) as [r|] eqn:F; [|apply sz_pos].
      apply find_some in F. destruct F as [F1 F2]. destruct (eqb_spec (rel_1 r) s) as [E|]; [|discriminate]. subst s.
      destruct (Hpr r F1) as (n & Hn & Pn). unfold size_or_1 at 1. rewrite Hn. destruct (proj2 good r F1) as (P2 & P3 & _).
      assert (P := pr_size_pos (rel_coef_2 r) (size_or_1 (rel_2 r) sizes) (rel_coef_3 r) (size_or_1 (rel_3 r) sizes) P2 P3 (sz_pos _) (sz_pos _)). lia. }
    assert (Eq : forall D ops', rfold (fun d op => rv <- dgetr op rel ;; n <- operand_size_elem sizes (pr_loop_of rels) (pr_scaling_of rels) pr_sizes rv ;; Ok (dset op n d)) D ops'
      = rfold (fun d op => v <- (rv <- dgetr op rel ;; operand_size_elem sizes (pr_loop_of rels) (pr_scaling_of rels) pr_sizes rv) ;; Ok (dset op v d)) D ops').
    { clear. intros D ops'. revert D. induction ops' as [|o l IH]; intros D; [reflexivity|]. cbn [rfold].
      destruct (dgetr o rel) as [rv|]; cbn [rbind]; [|reflexivity].
      destruct (operand_size_elem _ _ _ _ rv); cbn [rbind]; [apply IH|reflexivity]. }
    rewrite Eq.
    destruct (rfold_dset_ok (fun op => rv <- dgetr op rel ;; operand_size_elem sizes (pr_loop_of rels) (pr_scaling_of rels) pr_sizes rv) ops []) as (elems & Ee).
    { intros op Hop. destruct (El op Hop) as (n & Hn & _). eauto. }
    rewrite Ee. cbn [rbind].
    assert (Ke : forall k n, In (k, n) elems -> In k ops /\ 0 < n).
    { intros k n Hkn. assert (Kk : In k ops).
      { destruct (rfold_dset_keys _ _ _ _ Ee k) as [[]|A]; [change k with (fst (k, n)); now apply List.in_map|exact A]. }
      split; [exact Kk|]. destruct (rfold_dset _ _ _ _ Ee) as (Ge & _ & Ne). destruct (Ge k Kk) as (v & Hv & Gv).
      destruct (El k Kk) as (n' & Hn' & Pn'). rewrite Hn' in Hv. injection Hv as <-.
      assert (N : NoDup (keys elems)) by (apply Ne; constructor). rewrite (In_dget k n elems N Hkn) in Gv. injection Gv as ->. exact Pn'. }
    destruct (rmap_exists (fun on : string * Z => p <- dgetr (fst on) (nd_precision nd) ;; Ok (fst on, snd on * p)) elems) as (bits & ->).
    { intros [k n] Hkn. cbn [fst snd]. apply Ke in Hkn. destruct Hkn as [Hk _]. apply precise, key_dget in Hk. destruct Hk as (p & Hp).
      unfold dgetr. rewrite Hp. cbn [of_option rbind]. eauto. }
    cbn [rbind].
    destruct (rmap_exists (fun on : string * Z => if snd on =? 0 then Err ZeroDivisionError
                           else Ok (fst on, (inject_Z (zprod (values sizes)) / inject_Z (snd on))%Q)) elems) as (reuse & ->).
    { intros [k n] Hkn. cbn [fst snd]. apply Ke in Hkn. destruct (Z.eqb_spec n 0) as [->|]; [lia|eauto]. }
    cbn [rbind]. unfold final_output_precision.
    destruct (dget "O_final" (nd_precision nd)) as [f|] eqn:F; [cbn [rbind]; eauto|].
    destruct output as [O|O]; apply key_dget in O; destruct O as (v & Hv); [rewrite F in Hv; discriminate|].
    unfold dgetr. rewrite Hv. cbn [of_option rbind]. eauto.
  Qed.
End Total.

(** Sizes and paddings are stored under the capitalised names. *)
Lemma keys_combine {V} (l : list string) (v : list V) : length l = length v -> map fst (combine l v) = l.
Proof. revert v. induction l as [|x l IH]; intros [|y v] E; try discriminate; [reflexivity|]. cbn. f_equal. apply IH. now injection E. Qed.

Lemma padding_fold (f : string -> string) : forall dims (data pre : list (Z * Z)), length dims = length data ->
  rmap (fun id : nat * string => rbind (of_option IndexError (nth_error (pre ++ data) (fst id))) (fun p => Ok (f (snd id), p))) (combine (seq (length pre) (length dims)) dims)
  = Ok (combine (map f dims) data).
Proof.
  induction dims as [|d dims IH]; intros [|x data] pre E; try discriminate; [reflexivity|]. injection E as E.
  cbn [length seq combine rmap fst snd map]. rewrite nth_error_app2, Nat.sub_diag by lia. cbn [nth_error of_option rbind].
  specialize (IH data (pre ++ [x]) E). rewrite <- app_assoc in IH. cbn [app] in IH. rewrite app_length, Nat.add_1_r in IH. rewrite IH. reflexivity.
Qed.

Lemma read_padding nd dims data : nd_pr_loop_dims nd = Some dims -> nd_padding nd = Some data -> length dims = length data ->
  NoDup (map upper dims) -> create_padding nd = Ok (combine (map upper dims) data).
Proof.
  intros Ed Ep L Nd. unfold create_padding. rewrite Ed, Ep. assert (F := padding_fold upper dims data [] L). cbn [app length] in F. rewrite F. cbn [rbind].
  f_equal. apply dict_of_nodup. rewrite keys_combine by (now rewrite map_length). exact Nd.
Qed.

Lemma read_sizes nd : length (nd_loop_dims nd) = length (nd_loop_sizes nd) -> NoDup (map upper (nd_loop_dims nd)) ->
  create_layer_dim_sizes nd = combine (map upper (nd_loop_dims nd)) (nd_loop_sizes nd).
Proof.
  intros L Nd. unfold create_layer_dim_sizes. apply dict_of_nodup. rewrite keys_combine by (now rewrite map_length). exact Nd.
Qed.

Lemma read_derived nd dims sizes : nd_pr_loop_dims nd = Some dims -> nd_pr_loop_sizes nd = Some sizes -> length dims = length sizes ->
  NoDup (map upper dims) -> create_pr_layer_dim_sizes nd = Some (combine (map upper dims) sizes).
Proof.
  intros Ed Ep L Nd. unfold create_pr_layer_dim_sizes. rewrite Ed, Ep. f_equal. apply dict_of_nodup. rewrite keys_combine by (now rewrite map_length). exact Nd.
Qed.
