(** Examples for C85: models that are usable, by checks, and their runs. *)
From Coq Require Import QArith Lia.
From Verif Require Import Base Model_Text Model_Layer Model_MapFile Model_WorkFile Model_AccelFile Model_Cme Model_Alloc Model_Loma Model_Onnx Model_Workload Model_Run Model_OnnxRun Shipped_Hardware
  Spec_MapFile Spec_Workload Spec_WorkFile Spec_AccelFile Spec_Onnx Spec_Run Spec_OnnxRun
  Proof_LomaFactors Proof_Cacti Proof_Workload Proof_AccelFile Proof_WorkFileExample Proof_EvalExample Proof_SearchExample Proof_RunExample.
Open Scope string_scope.
Open Scope list_scope.
Open Scope Z_scope.

(** * Checks of models *)

Definition same_ints (k l : list Z) : bool := if list_eq_dec Z.eq_dec k l then true else false.
Lemma same_ints_spec k l : same_ints k l = true -> k = l.
Proof. unfold same_ints. now destruct (list_eq_dec Z.eq_dec k l). Qed.
Definition ints_b (a : attribute) (l : list Z) : bool := match a with AInts k => same_ints k l | _ => false end.
Definition int_b (a : attribute) (z : Z) : bool := match a with AInt k => k =? z | _ => false end.
Lemma ints_b_spec a l : ints_b a l = true -> a = AInts l.
Proof. destruct a; try discriminate. cbn [ints_b]. intros H. f_equal. now apply same_ints_spec. Qed.
Lemma int_b_spec a z : int_b a z = true -> a = AInt z.
Proof. destruct a; try discriminate. cbn [int_b]. intros H. f_equal. lia. Qed.

Definition shape_b (m : onnx_model) (names : list string) (shape : list Z) : bool :=
  match names with x :: _ => match dget x (om_tensors m) with Some s => same_ints s shape | None => false end | [] => false end.
Lemma shape_b_spec m names shape : shape_b m names shape = true -> first_shape m names shape.
Proof.
  unfold shape_b, first_shape. destruct names as [|x rest]; [discriminate|]. destruct (dget x (om_tensors m)) as [s|] eqn:E; [|discriminate]. intros H. apply same_ints_spec in H. subst s. now exists x, rest.
Qed.
Definition axis_b (a : axis) : bool := (0 <? ax_in a) && (0 <? ax_out a) && (0 <? ax_kernel a) && (0 <? ax_stride a) && (0 <? ax_dilation a).
Lemma axis_b_spec a : axis_b a = true -> axis_positive a.
Proof. unfold axis_b, axis_positive. lia. Qed.
Definition attributes_b (attrs : list (string * attribute)) (c : conv) : bool :=
  match dget "kernel_shape" attrs with Some a => ints_b a [ax_kernel (cv_y c); ax_kernel (cv_x c)] | None => false end &&
  ints_b (value_or (AInts [1; 1]) (dget "strides" attrs)) [ax_stride (cv_y c); ax_stride (cv_x c)] &&
  ints_b (value_or (AInts [1; 1]) (dget "dilations" attrs)) [ax_dilation (cv_y c); ax_dilation (cv_x c)] &&
  int_b (value_or (AInt 1) (dget "group" attrs)) (cv_groups c) &&
  ints_b (value_or (AInts [0; 0; 0; 0]) (dget "pads" attrs)) [ax_before (cv_y c); ax_before (cv_x c); ax_after (cv_y c); ax_after (cv_x c)].
Lemma attributes_b_spec attrs c : attributes_b attrs c = true -> attributes_of attrs c.
Proof.
  unfold attributes_b, attributes_of. rewrite !Bool.andb_true_iff. intros ((((A & B) & C) & D) & E). split; [destruct (dget "kernel_shape" attrs); [|discriminate]; f_equal; now apply ints_b_spec|].
  split; [now apply ints_b_spec|]. split; [now apply ints_b_spec|]. split; [now apply int_b_spec|now apply ints_b_spec].
Qed.
(** Products are not stored transposed here. *)
Definition operator_b (m : onnx_model) (n : model_node) (o : operator) : bool :=
  match o with
  | Convolution c => memb (mn_type n) ["Conv"; "QLinearConv"] && ((0 <? cv_batch c) && (0 <? cv_groups c) && (0 <? cv_in c) && (0 <? cv_out c)) && (axis_b (cv_y c) && axis_b (cv_x c)) &&
      attributes_b (mn_attrs n) c && shape_b m (mn_inputs n) (input_shape c) && shape_b m (mn_outputs n) (output_shape c)
  | Product p => memb (mn_type n) ["Gemm"; "MatMul"] && ((length (pd_batch p) <=? 2)%nat && forallb (Z.ltb 0) (pd_batch p) && (0 <? pd_rows p) && (0 <? pd_inner p) && (0 <? pd_columns p)) &&
      negb (dmem "transA" (mn_attrs n)) && shape_b m (mn_inputs n) (left_shape p false) && shape_b m (mn_outputs n) (result_shape p)
  end.
Lemma operator_b_spec m n o : operator_b m n o = true -> is_operator m n o.
Proof.
  destruct o as [c|p]; unfold operator_b, is_operator; rewrite !Bool.andb_true_iff.
  - intros (((((A & (((B1 & B2) & B3) & B4)) & (C1 & C2)) & D) & E) & F). split; [now apply memb_In|].
    split; [unfold conv_positive; apply axis_b_spec in C1, C2; repeat split; try lia; try apply C1; apply C2|]. split; [now apply attributes_b_spec|]. split; now apply shape_b_spec.
  - intros ((((A & ((((B1 & B2) & B3) & B4) & B5)) & C) & E) & F). split; [now apply memb_In|].
    split; [|exists false; split; [left; split; [left|reflexivity]|split; now apply shape_b_spec]].
    + unfold product_positive. rewrite forallb_forall in B2. split; [apply Nat.leb_le in B1; exact B1|]. split; [intros z I; specialize (B2 z I); lia|]. lia.
    + unfold dmem in C. destruct (dget "transA" (mn_attrs n)); [discriminate|reflexivity].
Qed.
Definition bits_b (attrs : list (string * attribute)) (name : string) : bool :=
  match dget name attrs with None => true | Some (AInt _) => true | _ => false end.
Definition model_b (hardware : raw_accel) (m : onnx_model) (mapping : list raw_entry) (meaning : list (option operator)) : bool :=
  accelerator_b hardware && Nat.eqb (length (om_nodes m)) (length meaning) &&
  forallb (fun nx => match snd nx with
    | Some o => operator_b m (fst nx) o && forallb (bits_b (mn_attrs (fst nx))) ["weight_size"; "act_size"; "output_size"] &&
        ((0 <=? weight_bits (mn_attrs (fst nx))) && (0 <=? act_bits (mn_attrs (fst nx))) && (0 <=? output_bits (mn_attrs (fst nx))))
    | None => negb (memb (mn_type (fst nx)) ["Conv"; "QLinearConv"; "Gemm"; "MatMul"]) end) (combine (om_nodes m) meaning) &&
  executableb (graph_of m) &&
  (forallb entry_b mapping && match parse_mapping mapping with Ok _ => true | Err _ => false end) &&
  forallb (fun inx => match inx with
    | (i, (n, Some o)) => let r := node_as i n (feeding (graph_of m) i) (taken_as o) in
        (length (feeding (graph_of m) i) <=? 2)%nat &&
        forallb (fun en => negb (memb (en_name en) (candidates r)) || usable_entry_b hardware en && one_element_b hardware (en_links en) (default [] (rl_precision r))) (map normalise mapping)
    | _ => true end) (numbered (combine (om_nodes m) meaning)).
Lemma combine_forall {A B} (R : A -> B -> Prop) l l' : length l = length l' -> (forall x, In x (combine l l') -> R (fst x) (snd x)) -> Forall2 R l l'.
Proof.
  revert l'. induction l as [|a l IH]; intros [|b l'] E H; try discriminate; constructor; [exact (H (a, b) (or_introl eq_refl))|]. apply IH; [now injection E|]. intros x I. apply H. now right.
Qed.
Lemma combine_nth {A B} (l : list A) (l' : list B) i a b : nth_error l i = Some a -> nth_error l' i = Some b -> nth_error (combine l l') i = Some (a, b).
Proof. revert l' i. induction l as [|x l IH]; intros [|y l'] [|i]; cbn; try discriminate; [intros [= ->] [= ->]; reflexivity|apply IH]. Qed.
Lemma model_b_spec hardware m mapping meaning : model_b hardware m mapping meaning = true -> usable_model hardware m mapping meaning.
Proof.
  unfold model_b. rewrite !Bool.andb_true_iff. intros (((((H1 & H2) & H3) & H4) & (H5 & H5')) & H6). apply Nat.eqb_eq in H2. rewrite forallb_forall in H3, H6.
  assert (G : forall i n o, nth_error (om_nodes m) i = Some n -> nth_error meaning i = Some (Some o) -> let r := node_as i n (feeding (graph_of m) i) (taken_as o) in
    (length (feeding (graph_of m) i) <= 2)%nat /\ forall en, In en (map normalise mapping) -> In (en_name en) (candidates r) -> usable_entry_b hardware en = true /\ one_element_b hardware (en_links en) (default [] (rl_precision r)) = true).
  { intros i n o E Ex. cbv zeta. specialize (H6 _ (proj1 (numbered_in _ _ _) (combine_nth _ _ _ _ _ E Ex))). cbv iota beta zeta in H6. apply andb_prop in H6. destruct H6 as (A & B). split; [now apply Nat.leb_le|].
    rewrite forallb_forall in B. intros en Ie Ic. specialize (B en Ie). rewrite (proj2 (memb_In _ _) Ic) in B. cbn [negb orb] in B. now apply andb_prop. }
  constructor.
  - now apply accelerator_b_spec.
  - apply combine_forall; [exact H2|]. intros [n [o|]] I; specialize (H3 _ I); cbn [fst snd] in H3 |- *.
    + rewrite !Bool.andb_true_iff in H3. destruct H3 as ((A & B) & ((C1 & C2) & C3)). split; [now apply operator_b_spec|]. split; [|lia].
      intros name In'. rewrite forallb_forall in B. specialize (B name In'). unfold bits_b in B. destruct (dget name (mn_attrs n)) as [[]|]; try discriminate; [right; eauto|now left].
    + intros In'. apply memb_In in In'. rewrite In' in H3. discriminate.
  - now apply executable_dec.
  - intros i o Ex. destruct (nth_error (om_nodes m) i) as [n|] eqn:E; [exact (proj1 (G i n o E Ex))|]. apply nth_error_None in E. assert (i < length meaning)%nat by (apply nth_error_Some; congruence). lia.
  - split; [now apply entries_proper|]. destruct (parse_mapping mapping) as [d|]; [now exists d|discriminate].
  - intros i o r t p en (n & E & Ex & ->) Et Ep C. destruct (G i n o E Ex) as (_ & G').
    assert (G2 : In en (map normalise mapping) /\ In (en_name en) (candidates (node_as i n (feeding (graph_of m) i) (taken_as o)))).
    { unfold candidates. rewrite Et. cbn [default].
      assert (F : forall nm, first_named nm (map normalise mapping) en -> In en (map normalise mapping) /\ en_name en = nm) by (intros nm (l1 & l2 & -> & N & _); split; [apply in_elt|exact N]).
      destruct C as [C|[(_ & C)|(_ & _ & C)]]; destruct (F _ C) as (Ie & ->); (split; [exact Ie|cbn [In]; tauto]). }
    destruct (G' en (proj1 G2) (proj2 G2)) as (A & B). rewrite Ep in B. cbn [default] in B. split; [now apply usable_entry_b_spec|now apply one_element_b_spec].
Qed.

(** * A convolution, what costs nothing, and a product *)

Definition onnx_mapping : list raw_entry :=
  [mkRaw (Some "default") (Some (Some [("D1", ["D, 8"]); ("D2", ["C, 8"]); ("D3", ["K, 8"])])) None None None;
   mkRaw (Some "Conv") (Some (Some [("D1", ["OX, 8"]); ("D2", ["C, 8"]); ("D3", ["K, 8"])])) None None None].
(** The kernel is three positions high and one wide. *)
Definition small_model : onnx_model := mkModel
  [mkModelNode "first" "Conv" ["x"; "w1"; "b1"] ["a"] [("kernel_shape", AInts [3; 1]); ("pads", AInts [1; 0; 1; 0]); ("act_size", AInt 4)];
   mkModelNode "" "Relu" ["a"] ["b"] [];
   mkModelNode "" "Flatten" ["b"] ["c"] [];
   mkModelNode "" "Gemm" ["c"; "w2"] ["y"] []]
  [("x", [1; 4; 4; 4]); ("a", [1; 8; 4; 4]); ("b", [1; 8; 4; 4]); ("c", [1; 128]); ("y", [1; 8])] [("w1", [8; 4; 3; 1]); ("b1", [8]); ("w2", [128; 8])].
Definition small_meaning : list (option operator) :=
  [Some (Convolution (mkConv 1 1 4 8 (mkAxis 4 4 3 1 1 1 1) (mkAxis 4 4 1 1 1 0 0))); None; None; Some (Product (mkProduct [] 1 128 8))].
Definition plain_onnx (hardware : raw_accel) (m : onnx_model) (mapping : list raw_entry) (opt : string) :=
  run_onnx (fun l => l) (fun l => l) (fun l => l) (fun l => l) first_dim first_oa factorint_td (Some 5) UNEVEN false 2 false 100 100 (fun l => l) no_bank no_area ex_sim 22 [] hardware m mapping opt.
Lemma small_model_usable : usable_model gemm_l1 small_model onnx_mapping small_meaning.
Proof. apply model_b_spec. vm_compute. reflexivity. Qed.
Lemma small_fed v : (length (feeding (graph_of small_model) v) <= 2)%nat.
Proof. apply feeding_dec. vm_compute. reflexivity. Qed.
Lemma small_chain : chain (graph_of small_model) 0 3.
Proof. apply chain_more with 1%nat; [vm_compute; auto|]. apply chain_more with 2%nat; [vm_compute; auto|]. apply chain_one. vm_compute. auto. Qed.

(** * A concatenation of three tensors *)

Definition product_node (name : string) (inputs : list string) (output : string) : model_node := mkModelNode name "MatMul" inputs [output] [].
Definition concat_model : onnx_model := mkModel
  [product_node "left" ["x"; "w"] "a"; product_node "middle" ["x"; "w"] "b"; product_node "right1" ["b"; "w"] "b2"; product_node "right2" ["b2"; "w"] "b3"; product_node "right3" ["b3"; "w"] "c";
   mkModelNode "" "Concat" ["a"; "b"; "c"] ["d"] []; product_node "last" ["d"; "v"] "y"]
  [("x", [8; 8]); ("a", [8; 8]); ("b", [8; 8]); ("b2", [8; 8]); ("b3", [8; 8]); ("c", [8; 8]); ("d", [8; 24]); ("y", [8; 8])] [("w", [8; 8]); ("v", [24; 8])].
Definition concat_meaning : list (option operator) :=
  let small := Some (Product (mkProduct [] 8 8 8)) in [small; small; small; small; small; None; Some (Product (mkProduct [] 8 24 8))].
Lemma concat_usable : usable_model gemm_l1 concat_model onnx_mapping concat_meaning.
Proof. apply model_b_spec. vm_compute. reflexivity. Qed.
Lemma concat_depends : depends (graph_of concat_model) 4 6.
Proof. apply depends_more with 5%nat; [|apply depends_one]; apply In_feeding; vm_compute; auto. Qed.
