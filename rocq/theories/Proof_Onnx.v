(** Convolutions of ONNX models (C41). *)
From Verif Require Import Base Model_Pr Model_Text Model_Alloc Model_Layer Model_Onnx Spec_Pr Spec_Loma Spec_Layer Spec_Onnx
  Proof_Pr Proof_Mapping Proof_Text Proof_Relevancy Proof_Elements Proof_Node.
Open Scope string_scope.
Open Scope list_scope.
Open Scope Z_scope.

Lemma ceil_div_ok g k : 0 < g -> ceil_div (g * k) g = Ok k.
Proof.
  intros H. unfold ceil_div. destruct (Z.eqb_spec g 0); [lia|]. f_equal.
  rewrite (Qceiling_comp _ (inject_Z k)); [apply Qceiling_Z|].
  unfold Qdiv. rewrite inject_Z_mult. field. apply inject_nz. lia.
Qed.

Lemma conv_relation_text i s o d f : conv_relation i s o d f =
  relation_text (mkWR i "" "" (mkTerm (Some (s, "", "")) o) "" "" (mkTerm (Some (d, "", "")) f)).
Proof.
  unfold conv_relation, relation_text, term_text. cbn [wl_1 wl_g1 wl_g2 wl_2 wl_g3 wl_g4 wl_3 wt_coef wt_dim].
  cbn [String.append]. rewrite !str_app_assoc. reflexivity.
Qed.

Ltac letters := intros ? ?H; vm_compute in H; repeat (destruct H as [<-|H]; [vm_compute; tauto|]); destruct H.

Lemma conv_relation_read i s o d f : 0 <= s -> 0 <= d -> wordlike i -> i <> "" -> wordlike o -> o <> "" -> wordlike f -> f <> "" ->
  create_relation (conv_relation i s o d f) = Ok (mkRel (upper i) s (upper o) d (upper f)).
Proof.
  intros Hs Hd Wi Ni Wo No Wf Nf. rewrite conv_relation_text, relation_read; [reflexivity|].
  assert (B : blank "") by (intros c []).
  repeat split; auto.
Qed.

(** Along one axis, the smaller of the input size and the formula is the number of
    positions read. *)
Lemma axis_count a : axis_positive a -> axis_ok a ->
  Z.min (ax_in a) (calc_pr_dimension_size (ax_stride a) (ax_out a) (ax_dilation a) (ax_kernel a)) = distinct (positions_read a).
Proof.
  intros (Pi & Po & Pk & Ps & Pd) [(B & E & X)|(D & S & B & E)]; unfold positions_read.
  - rewrite B. rewrite (map_ext _ (fun v => v)) by (intros; lia). rewrite map_id.
    rewrite filter_all_true.
    + apply pr_size_iff in X; auto. rewrite X. apply Z.min_r. rewrite <- X.
      unfold distinct in X. assert (L : Z.of_nat (length (nodup Z.eq_dec (all_indices (ax_stride a) (ax_out a) (ax_dilation a) (ax_kernel a)))) <= Z.of_nat (length (zrange (ax_extent a)))).
      { apply Nat2Z.inj_le, NoDup_incl_length; [apply NoDup_nodup|]. intros v Hv. apply nodup_In, in_all_indices in Hv.
        destruct Hv as (x & y & Hx & Hy & ->). apply in_zrange. unfold ax_extent. nia. }
      unfold zrange in L. rewrite map_length, seq_length in L. unfold ax_extent in *. nia.
    + intros v Hv. apply in_all_indices in Hv. destruct Hv as (x & y & Hx & Hy & ->).
      apply andb_true_iff. rewrite Z.leb_le, Z.ltb_lt. unfold ax_extent in E. nia.
  - rewrite D in *. rewrite pr_size_unit_stride by assumption. unfold ax_extent in E. rewrite D in E. rewrite Z.min_l by lia.
    rewrite <- (distinct_zrange (ax_in a)) at 1 by lia.
    unfold distinct. f_equal. apply Permutation_length, NoDup_Permutation; try apply NoDup_nodup.
    intros v. rewrite !nodup_In, in_zrange, filter_In, in_map_iff, andb_true_iff, Z.leb_le, Z.ltb_lt. split.
    + intros H. split; [|exact H]. exists (v + ax_before a). split; [lia|]. apply in_contiguous; lia.
    + tauto.
Qed.

Lemma get_default name attrs d v : value_or d (dget name attrs) = v -> v <> AOther -> get_attribute name attrs (Some d) = Ok v.
Proof.
  unfold get_attribute, value_or. destruct (dget name attrs) as [[z|l|]|]; intros <- N; congruence.
Qed.

Lemma precision_ok name d attrs : dget name attrs = None \/ (exists z, dget name attrs = Some (AInt z)) ->
  exists p, precision name d attrs = Ok p.
Proof.
  unfold precision, get_attribute. intros [->|(z & ->)]; cbn; eauto.
Qed.

Lemma precisions_ok attrs : precisions_plain attrs -> exists w a i,
  get_weight_precision attrs = Ok w /\ get_activation_precision attrs = Ok a /\ get_intermediate_output_precision attrs = Ok i.
Proof.
  intros H. destruct (precision_ok "weight_size" 8 attrs) as (w & Ew); [apply H; cbn; tauto|].
  destruct (precision_ok "act_size" 8 attrs) as (a & Ea); [apply H; cbn; tauto|].
  destruct (precision_ok "output_size" (2 * a) attrs) as (i & Ei); [apply H; cbn; tauto|].
  exists w, a, i. split; [exact Ew|]. split; [exact Ea|]. unfold get_intermediate_output_precision, get_activation_precision. rewrite Ea. exact Ei.
Qed.

(** What the parser makes of a convolution. *)
Definition conv_data (c : conv) (w a i : Z) : node_data :=
  mkNode conv_equation_text ["B"; "K"; "G"; "OX"; "OY"; "C"; "FX"; "FY"]
    [cv_batch c; cv_out c; cv_groups c; ax_out (cv_x c); ax_out (cv_y c); cv_in c; ax_kernel (cv_y c); ax_kernel (cv_x c)]
    [("W", w); ("I", a); ("O_final", a); ("O", i)]
    [conv_relation "ix" (ax_stride (cv_y c)) "ox" (ax_dilation (cv_y c)) "fx";
     conv_relation "iy" (ax_stride (cv_x c)) "oy" (ax_dilation (cv_x c)) "fy"]
    (Some ["IX"; "IY"]) (Some [ax_in (cv_x c); ax_in (cv_y c)])
    (Some [(ax_before (cv_y c), ax_after (cv_y c)); (ax_before (cv_x c), ax_after (cv_x c))]).

Lemma conv_format c attrs w a i : conv_positive c ->
  get_weight_precision attrs = Ok w -> get_activation_precision attrs = Ok a -> get_intermediate_output_precision attrs = Ok i ->
  conv_user_format attrs (AInts [ax_kernel (cv_y c); ax_kernel (cv_x c)]) (AInts [ax_stride (cv_y c); ax_stride (cv_x c)])
    (AInts [ax_dilation (cv_y c); ax_dilation (cv_x c)]) (cv_groups c)
    (AInts [ax_before (cv_y c); ax_before (cv_x c); ax_after (cv_y c); ax_after (cv_x c)])
    (input_shape c) (output_shape c) = Ok (conv_data c w a i).
Proof.
  intros (Pb & Pg & _) Ew Ea Ei. unfold conv_user_format. rewrite Ea, Ew, Ei. unfold conv_data.
  generalize conv_relation conv_equation_text. intros f e.
  assert (C1 := ceil_div_ok (cv_groups c) (cv_out c) Pg). assert (C2 := ceil_div_ok (cv_groups c) (cv_in c) Pg).
  unfold input_shape, output_shape, at_front, item. cbn [rbind nth_error of_option]. rewrite C1, C2.
  rewrite Z.eqb_refl. assert (L : (0 <? cv_batch c) = true) by (apply Z.ltb_lt; exact Pb). rewrite L. reflexivity.
Qed.

Lemma conv_parsed c attrs tensors input output : conv_positive c -> attributes_of attrs c -> precisions_plain attrs ->
  dget input tensors = Some (input_shape c) -> dget output tensors = Some (output_shape c) ->
  exists w a i, parse_conv attrs tensors input output = Ok (conv_data c w a i).
Proof.
  intros P (Ak & As & Ad & Ag & Ap) Hp Hi Ho.
  destruct (precisions_ok attrs Hp) as (w & a & i & Ew & Ea & Ei). exists w, a, i.
  rewrite <- (conv_format c attrs w a i P Ew Ea Ei). unfold parse_conv.
  assert (Gk : get_attribute "kernel_shape" attrs None = Ok (AInts [ax_kernel (cv_y c); ax_kernel (cv_x c)])) by (unfold get_attribute; now rewrite Ak).
  apply get_default in As, Ad, Ag, Ap; try discriminate.
  rewrite Gk, As, Ad, Ag, Ap. unfold dgetr. rewrite Hi, Ho. generalize (conv_user_format attrs). reflexivity.
Qed.

Lemma computes_intro c nd ln :
  ln_operands ln = ["O"; "W"; "I"] ->
  ln_sizes ln = [("B", cv_batch c); ("K", cv_out c); ("G", cv_groups c);
                 ("OX", ax_out (cv_x c)); ("OY", ax_out (cv_y c)); ("C", cv_in c);
                 ("FX", ax_kernel (cv_x c)); ("FY", ax_kernel (cv_y c))] ->
  rmap create_relation (nd_relations nd) =
    Ok [mkRel "IX" (ax_stride (cv_x c)) "OX" (ax_dilation (cv_x c)) "FX";
        mkRel "IY" (ax_stride (cv_y c)) "OY" (ax_dilation (cv_y c)) "FY"] ->
  create_padding nd = Ok [("IX", (ax_before (cv_x c), ax_after (cv_x c)));
                          ("IY", (ax_before (cv_y c), ax_after (cv_y c)))] ->
  create_pr_layer_dim_sizes nd = Some [("IX", ax_in (cv_x c)); ("IY", ax_in (cv_y c))] ->
  get_r_layer_dims (node_tokens nd) "O" = Ok ["B"; "G"; "K"; "OY"; "OX"] ->
  get_r_layer_dims (node_tokens nd) "W" = Ok ["G"; "K"; "C"; "FY"; "FX"] ->
  get_r_layer_dims (node_tokens nd) "I" = Ok ["B"; "G"; "C"; "IY"; "IX"] ->
  computes c nd ln.
Proof. intros. unfold computes. unfold node_tokens in *. tauto. Qed.

Section Built.
  Variables (c : conv) (w a i : Z) (order : list string -> list string) (links : list (string * string)).
  Hypothesis order_perm : forall l, Permutation (order l) l.
  Hypothesis pos : conv_positive c.
  Let nd := conv_data c w a i.
  Let x := exchanged c.
  Let rels := [mkRel "IX" (ax_stride (cv_x x)) "OX" (ax_dilation (cv_x x)) "FX";
               mkRel "IY" (ax_stride (cv_y x)) "OY" (ax_dilation (cv_y x)) "FY"].
  Let sizes := [("B", cv_batch c); ("K", cv_out c); ("G", cv_groups c);
                 ("OX", ax_out (cv_x c)); ("OY", ax_out (cv_y c)); ("C", cv_in c);
                 ("FX", ax_kernel (cv_y c)); ("FY", ax_kernel (cv_x c))].

  Lemma conv_rels : rmap create_relation (nd_relations nd) = Ok rels.
  Proof.
    destruct pos as (_ & _ & _ & _ & Py & Px). destruct Py as (_ & _ & _ & P1 & P2), Px as (_ & _ & _ & P3 & P4).
    unfold nd, conv_data. cbn [nd_relations rmap].
    rewrite (conv_relation_read "ix" _ "ox" _ "fx"); [|lia|lia|letters|discriminate|letters|discriminate|letters|discriminate].
    rewrite (conv_relation_read "iy" _ "oy" _ "fy"); [|lia|lia|letters|discriminate|letters|discriminate|letters|discriminate].
    reflexivity.
  Qed.

  Lemma conv_sizes : create_layer_dim_sizes nd = sizes.
  Proof. reflexivity. Qed.

  Lemma conv_tokens : node_tokens nd = disassembly (create_equation conv_equation_text).
  Proof. reflexivity. Qed.

  Lemma conv_ops : contained_operands (node_tokens nd) = Ok ["O"; "W"; "I"].
  Proof. rewrite conv_tokens. vm_compute. reflexivity. Qed.

  Lemma conv_subs_O : get_r_layer_dims (node_tokens nd) "O" = Ok ["B"; "G"; "K"; "OY"; "OX"].
  Proof. rewrite conv_tokens. vm_compute. reflexivity. Qed.
  Lemma conv_subs_W : get_r_layer_dims (node_tokens nd) "W" = Ok ["G"; "K"; "C"; "FY"; "FX"].
  Proof. rewrite conv_tokens. vm_compute. reflexivity. Qed.
  Lemma conv_subs_I : get_r_layer_dims (node_tokens nd) "I" = Ok ["B"; "G"; "C"; "IY"; "IX"].
  Proof. rewrite conv_tokens. vm_compute. reflexivity. Qed.

  Lemma conv_sizes_pos : forall d n, In (d, n) sizes -> 0 < n.
  Proof.
    destruct pos as (P1 & P2 & P3 & P4 & (Q1 & Q2 & Q3 & Q4 & Q5) & (R1 & R2 & R3 & R4 & R5)).
    intros d n H. repeat (destruct H as [E|H]; [injection E as <- <-; assumption|]). destruct H.
  Qed.

  Lemma conv_sensible : sensible rels (keys sizes).
  Proof.
    destruct pos as (P1 & P2 & P3 & P4 & (Q1 & Q2 & Q3 & Q4 & Q5) & (R1 & R2 & R3 & R4 & R5)).
    split; [cbn [map rel_1 rels]; no_dup|].
    intros r [<-|[<-|[]]]; cbn [rel_1 rel_2 rel_3 rel_coef_2 rel_coef_3]; (split; [assumption|]; split; [assumption|]; cbn; intuition discriminate).
  Qed.

  Lemma conv_apart op subs : In (op, subs) [("O", ["B"; "G"; "K"; "OY"; "OX"]); ("W", ["G"; "K"; "C"; "FY"; "FX"]); ("I", ["B"; "G"; "C"; "IY"; "IX"])] ->
    all_or_none rels subs /\ separate rels subs sizes.
  Proof.
    intros [E|[E|[E|[]]]]; injection E as <- <-; (split; [|split; [vm_compute; no_dup|intros d Hd; vm_compute in Hd; cbn; intuition (subst; tauto)]]).
    - right. intros r [<-|[<-|[]]]; cbn; intuition discriminate.
    - right. intros r [<-|[<-|[]]]; cbn; intuition discriminate.
    - left. intros r [<-|[<-|[]]]; cbn; tauto.
  Qed.

  Lemma conv_built : exists ln, layer_node_of order links nd = Ok ln.
  Proof.
    apply (node_total order links nd rels [("IX", (ax_before (cv_y c), ax_after (cv_y c))); ("IY", (ax_before (cv_x c), ax_after (cv_x c)))] ["O"; "W"; "I"]).
    - exact order_perm.
    - exact conv_rels.
    - reflexivity.
    - exact conv_ops.
    - rewrite conv_sizes. exact conv_sizes_pos.
    - rewrite conv_sizes. exact conv_sensible.
    - change (create_pr_layer_dim_sizes nd) with (Some [("IX", ax_in (cv_x c)); ("IY", ax_in (cv_y c))]). cbn beta iota.
      destruct pos as (P1 & P2 & P3 & P4 & (Q1 & _) & (R1 & _)). split.
      + intros r [<-|[<-|[]]]; cbn; tauto.
      + intros d n [E|[E|[]]]; injection E as <- <-; assumption.
    - rewrite conv_sizes. intros op [<-|[<-|[<-|[]]]]; eexists; (split; [first [exact conv_subs_O|exact conv_subs_W|exact conv_subs_I]|]);
        (eapply conv_apart; cbn; eauto).
    - intros op [<-|[<-|[<-|[]]]]; cbn; tauto.
    - left. cbn. tauto.
  Qed.

  Lemma conv_computes ln : layer_node_of order links nd = Ok ln -> computes x nd ln.
  Proof.
    intros B. destruct (node_shape order links nd ln B) as (rs & p & pd & Er & Ep & Es & Eo & _).
    rewrite conv_ops in Eo. injection Eo as Eo. apply computes_intro.
    - symmetry. exact Eo.
    - exact Es.
    - exact conv_rels.
    - reflexivity.
    - reflexivity.
    - exact conv_subs_O.
    - exact conv_subs_W.
    - exact conv_subs_I.
  Qed.

  Lemma conv_quantities ln : layer_node_of order links nd = Ok ln ->
    ln_macs ln = conv_operations c /\
    dget "O" (ln_size_elem ln) = Some (zprod (output_shape c)) /\
    dget "W" (ln_size_elem ln) = Some (cv_groups c * cv_out c * cv_in c * ax_kernel (cv_y c) * ax_kernel (cv_x c)) /\
    dget "I" (ln_size_elem ln) = Some (cv_batch c * (cv_groups c * cv_in c) *
       Z.min (ax_in (cv_y x)) (calc_pr_dimension_size (ax_stride (cv_y x)) (ax_out (cv_y x)) (ax_dilation (cv_y x)) (ax_kernel (cv_y x))) *
       Z.min (ax_in (cv_x x)) (calc_pr_dimension_size (ax_stride (cv_x x)) (ax_out (cv_x x)) (ax_dilation (cv_x x)) (ax_kernel (cv_x x)))).
  Proof.
    intros B. destruct (node_shape order links nd ln B) as (rs & p & pd & Er & Ep & Es & Eo & _ & _ & Epr & Em & M & _).
    rewrite conv_ops in Eo. injection Eo as Eo. rewrite conv_sizes in Es.
    assert (Ep' : l_pr_sizes (ln_layer ln) = [("IX", ax_in (cv_x c)); ("IY", ax_in (cv_y c))]).
    { rewrite Epr. change (create_pr_layer_dim_sizes nd) with (Some [("IX", ax_in (cv_x c)); ("IY", ax_in (cv_y c))]) in Em. cbn beta iota in Em. now injection Em as <-. }
    assert (Sz : forall op subs, In (op, subs) [("O", ["B"; "G"; "K"; "OY"; "OX"]); ("W", ["G"; "K"; "C"; "FY"; "FX"]); ("I", ["B"; "G"; "C"; "IY"; "IX"])] ->
       get_r_layer_dims (node_tokens nd) op = Ok subs -> dget op (ln_size_elem ln) = Some (zprod (map (derived_size sizes rels [("IX", ax_in (cv_x c)); ("IY", ax_in (cv_y c))]) subs))).
    { intros op subs Hin Hs. destruct (conv_apart op subs Hin) as [All Sep].
      destruct (node_size order links nd ln rels op subs B conv_rels) as (n & Gn & En).
      - rewrite <- Eo. cbn in Hin. intuition (match goal with E : (_, _) = (_, _) |- _ => injection E as <- <- end; cbn; tauto).
      - exact Hs.
      - rewrite Es. exact conv_sensible.
      - exact All.
      - rewrite Es. exact Sep.
      - rewrite Gn. f_equal. rewrite En, Es, Ep'; [reflexivity|]. rewrite Ep'. intros r [<-|[<-|[]]] _; cbn; tauto. }
    split; [|split; [|split]].
    - rewrite M, Es. unfold values, sizes, zprod, conv_operations. cbn [map snd fold_right fold_left]. lia.
    - rewrite (Sz "O" _ (or_introl eq_refl) conv_subs_O). f_equal.
      change (map (derived_size sizes rels [("IX", ax_in (cv_x c)); ("IY", ax_in (cv_y c))]) ["B"; "G"; "K"; "OY"; "OX"])
        with [cv_batch c; cv_groups c; cv_out c; ax_out (cv_y c); ax_out (cv_x c)].
      unfold zprod, output_shape. cbn [fold_right fold_left]. lia.
    - rewrite (Sz "W" _ (or_intror (or_introl eq_refl)) conv_subs_W). f_equal.
      change (map (derived_size sizes rels [("IX", ax_in (cv_x c)); ("IY", ax_in (cv_y c))]) ["G"; "K"; "C"; "FY"; "FX"])
        with [cv_groups c; cv_out c; cv_in c; ax_kernel (cv_x c); ax_kernel (cv_y c)].
      unfold zprod. cbn [fold_right fold_left]. lia.
    - rewrite (Sz "I" _ (or_intror (or_intror (or_introl eq_refl))) conv_subs_I). f_equal.
      change (map (derived_size sizes rels [("IX", ax_in (cv_x c)); ("IY", ax_in (cv_y c))]) ["B"; "G"; "C"; "IY"; "IX"])
        with [cv_batch c; cv_groups c; cv_in c;
              Z.min (ax_in (cv_y x)) (calc_pr_dimension_size (ax_stride (cv_y x)) (ax_out (cv_y x)) (ax_dilation (cv_y x)) (ax_kernel (cv_y x)));
              Z.min (ax_in (cv_x x)) (calc_pr_dimension_size (ax_stride (cv_x x)) (ax_out (cv_x x)) (ax_dilation (cv_x x)) (ax_kernel (cv_x x)))].
      unfold zprod. cbn [fold_right fold_left]. lia.
  Qed.
End Built.

Lemma exchanged_square c : square c -> exchanged c = c.
Proof.
  destruct c as [b g ci co [yi yo yk ys yd yb ya] [xi xo xk xs xd xb xa]].
  intros (E1 & E2 & E3 & E4 & E5). cbn in *. unfold exchanged, with_window. cbn. now subst.
Qed.

Lemma conv_layer c attrs tensors input output order links : conv_positive c -> attributes_of attrs c -> precisions_plain attrs ->
  dget input tensors = Some (input_shape c) -> dget output tensors = Some (output_shape c) ->
  (forall l, Permutation (order l) l) ->
  exists nd ln, parse_conv attrs tensors input output = Ok nd /\ layer_node_of order links nd = Ok ln /\
    computes (exchanged c) nd ln /\
    ln_macs ln = conv_operations c /\
    dget "O" (ln_size_elem ln) = Some (zprod (output_shape c)) /\
    dget "W" (ln_size_elem ln) = Some (cv_groups c * cv_out c * cv_in c * ax_kernel (cv_y c) * ax_kernel (cv_x c)) /\
    (axis_ok (cv_y (exchanged c)) -> axis_ok (cv_x (exchanged c)) -> dget "I" (ln_size_elem ln) = Some (inputs_read (exchanged c))).
Proof.
  intros P A Hp Hi Ho Op. destruct (conv_parsed c attrs tensors input output P A Hp Hi Ho) as (w & a & i & E).
  destruct (conv_built c w a i order links Op P) as (ln & B). exists (conv_data c w a i), ln.
  destruct (conv_quantities c w a i order links P ln B) as (Q1 & Q2 & Q3 & Q4).
  split; [exact E|]. split; [exact B|]. split; [exact (conv_computes c w a i order links P ln B)|].
  split; [exact Q1|]. split; [exact Q2|]. split; [exact Q3|]. intros Y X. rewrite Q4.
  destruct P as (_ & _ & _ & _ & (Y1 & Y2 & Y3 & Y4 & Y5) & (X1 & X2 & X3 & X4 & X5)).
  rewrite (axis_count (cv_y (exchanged c))); [|repeat split; assumption|exact Y].
  rewrite (axis_count (cv_x (exchanged c))); [|repeat split; assumption|exact X].
  reflexivity.
Qed.

Lemma conv_square_layer c attrs tensors input output order links : conv_positive c -> attributes_of attrs c -> precisions_plain attrs ->
  square c -> dget input tensors = Some (input_shape c) -> dget output tensors = Some (output_shape c) ->
  (forall l, Permutation (order l) l) ->
  exists nd ln, parse_conv attrs tensors input output = Ok nd /\ layer_node_of order links nd = Ok ln /\
    computes c nd ln /\ ln_macs ln = conv_operations c /\
    (axis_ok (cv_y c) -> axis_ok (cv_x c) -> dget "I" (ln_size_elem ln) = Some (inputs_read c)).
Proof.
  intros P A Hp Sq Hi Ho Op. destruct (conv_layer c attrs tensors input output order links P A Hp Hi Ho Op) as (nd & ln & E & B & C & M & _ & _ & S).
  rewrite (exchanged_square c Sq) in C, S. exists nd, ln. auto.
Qed.

(** A kernel one high and three wide: exchanged. *)
Definition flat_conv : conv := mkConv 1 1 1 1 (mkAxis 8 8 1 1 1 0 0) (mkAxis 8 6 3 1 1 0 0).
(** A first layer of a network: 7 by 7 windows, every other position, padded by 3. *)
Definition usual_conv : conv := mkConv 1 1 3 64 (mkAxis 224 112 7 2 1 3 3) (mkAxis 224 112 7 2 1 3 3).
Definition conv_attributes (c : conv) : list (string * attribute) :=
  [("kernel_shape", AInts [ax_kernel (cv_y c); ax_kernel (cv_x c)]); ("strides", AInts [ax_stride (cv_y c); ax_stride (cv_x c)]);
   ("dilations", AInts [ax_dilation (cv_y c); ax_dilation (cv_x c)]); ("group", AInt (cv_groups c));
   ("pads", AInts [ax_before (cv_y c); ax_before (cv_x c); ax_after (cv_y c); ax_after (cv_x c)])].
Definition conv_tensors (c : conv) : list (string * list Z) := [("x", input_shape c); ("y", output_shape c)].

Lemma conv_attributes_ok c : attributes_of (conv_attributes c) c /\ precisions_plain (conv_attributes c) /\
  dget "x" (conv_tensors c) = Some (input_shape c) /\ dget "y" (conv_tensors c) = Some (output_shape c).
Proof.
  repeat split. intros name [<-|[<-|[<-|[]]]]; now left.
Qed.

Lemma usual_axis : axis_ok (mkAxis 224 112 7 2 1 3 3).
Proof. right. cbn. lia. Qed.

Lemma flat_example : conv_positive flat_conv /\ attributes_of (conv_attributes flat_conv) flat_conv /\
  axis_ok (cv_y flat_conv) /\ axis_ok (cv_x flat_conv) /\ inputs_read flat_conv = 64 /\
  exists nd ln, parse_conv (conv_attributes flat_conv) (conv_tensors flat_conv) "x" "y" = Ok nd /\
    layer_node_of same_order [] nd = Ok ln /\ dget "I" (ln_size_elem ln) = Some 48 /\ ~ computes flat_conv nd ln.
Proof.
  split; [repeat split|]. split; [exact (proj1 (conv_attributes_ok flat_conv))|].
  split; [right; cbn; lia|]. split; [right; cbn; lia|]. split; [reflexivity|].
  eexists. eexists. split; [vm_compute; reflexivity|]. split; [vm_compute; reflexivity|]. split; [vm_compute; reflexivity|].
  intros (_ & H & _). vm_compute in H. discriminate H.
Qed.
