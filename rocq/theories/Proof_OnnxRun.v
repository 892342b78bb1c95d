(** Whole ONNX models (C85): the layers that their nodes are. *)
From Coq Require Import QArith Lia.
From Verif Require Import Base Model_Text Model_Graph Model_Layer Model_MapFile Model_Workload Model_WorkFile Model_AccelFile Model_Onnx Model_OnnxRun
  Spec_Layer Spec_MapFile Spec_Graph Spec_Workload Spec_WorkFile Spec_Onnx Spec_Run Spec_OnnxRun
  Proof_AllocSearch Proof_Bandwidth Proof_Energy Proof_Graph Proof_Workload Proof_WorkFile Proof_Onnx Proof_Gemm.
Open Scope string_scope.
Open Scope list_scope.
Open Scope Z_scope.

Definition positive_operator (o : operator) : Prop := match o with Convolution c => conv_positive c | Product p => product_positive p end.
Lemma taken_positive o : positive_operator o -> positive_operator (taken_as o).
Proof.
  destruct o as [c|p]; [|auto]. cbn [positive_operator taken_as]. unfold conv_positive, axis_positive, exchanged, with_window. cbn. tauto.
Qed.

(** * Their descriptions are usable *)

Ltac listed := let H := fresh in intros ? H; cbn in H; repeat (destruct H as [<-|H]; [cbn; auto 12|]); destruct H.
Ltac no_dup := repeat (apply NoDup_cons; [cbn; intuition discriminate|]); apply NoDup_nil.
Ltac plain_op := split; [letters|split; [discriminate|let H := fresh in intros ? H; cbn in H; repeat (destruct H as [<-|H]; [letters|]); destruct H]].

Lemma equation_plain o k : positive_operator o -> plain_equation (equation_for o k) /\ NoDup (map wr_name (operands_of (equation_for o k))) /\
  (map wr_name (operands_of (equation_for o k)) = ["O"; "I"; "W"] \/ map wr_name (operands_of (equation_for o k)) = ["O"; "W"; "I"]).
Proof.
  intros P.
  assert (B : blank "") by (intros c []).
  assert (G : forall a b c, plain_operand a -> plain_operand b -> plain_operand c -> plain_equation (equation a b c)).
  { intros a b c Pa Pb Pc. unfold plain_equation, equation, operands_of. cbn [we_out we_first we_rest map fa_operand we_gap1 we_gap2 we_end we_assign].
    split; [intros w [<-|[<-|[<-|[]]]]; assumption|]. do 3 (split; [exact B|]). split; [now right|]. intros f [<-|[]]. cbn. auto. }
  destruct o as [c|p]; cbn [equation_for positive_operator] in *.
  - split; [apply G; plain_op|]. split; [no_dup|now right].
  - unfold batch_subs. destruct (batch_cases p P) as [E|[(b & E)|(b & h & E)]]; rewrite E; cbn [length firstn app]; destruct k; (split; [apply G; plain_op|]; split; [no_dup|now left]).
Qed.

Lemma node_written i n fs o : well_written (node_as i n fs o).
Proof.
  unfold node_as. constructor; cbn [rl_type rl_precision rl_padding rl_pr_dims rl_pr_sizes].
  - eexists. reflexivity.
  - eexists. split; [reflexivity|]. cbn. split; [auto|]. split; [auto|]. intros k H. intuition.
  - intros l p E I. destruct o as [c|q]; [|discriminate]. injection E as <-. destruct I as [<-|[<-|[]]]; reflexivity.
  - intros l E. destruct o as [c|q]; [|discriminate]. injection E as <-. eexists. split; reflexivity.
  - intros l E. destruct o as [c|q]; [|discriminate]. injection E as <-. eexists. split; reflexivity.
Qed.

Lemma loops_upper o : positive_operator o -> loops_for o = combine (map upper (map fst (loops_for o))) (map snd (loops_for o)) /\ NoDup (map upper (map fst (loops_for o))) /\
  (forall x, In x (map snd (loops_for o)) -> 0 < x) /\ map upper (map fst (loops_for o)) = map fst (loops_for o).
Proof.
  destruct o as [c|p]; cbn [positive_operator loops_for].
  - intros (P1 & P2 & P3 & P4 & (Y1 & Y2 & Y3 & _) & (X1 & X2 & X3 & _)). split; [reflexivity|]. split; [cbn; no_dup|]. split; [|reflexivity]. cbn. intros x H. repeat (destruct H as [<-|H]; [assumption|]). destruct H.
  - intros P. destruct P as (L & P & Pr & Pi & Pc). unfold batch_loops. destruct (pd_batch p) as [|b [|h [|z l]]]; cbn [length] in L; try lia; cbn [length firstn combine app map fst snd];
      (split; [reflexivity|]; split; [cbn; no_dup|]; split; [|reflexivity]); cbn; intros x H; repeat (destruct H as [<-|H]; [try assumption; apply P; cbn; auto|]); destruct H.
Qed.

Lemma operands_apart o k : positive_operator o -> forall w, In w (operands_of (equation_for o k)) ->
  all_or_none (map relation_of (relations_for o)) (dims_of w) /\ separate (map relation_of (relations_for o)) (dims_of w) (loops_for o).
Proof.
  destruct o as [c|p]; cbn [positive_operator].
  - intros _ w H. unfold all_or_none, separate. set (rs := map relation_of (relations_for (Convolution c))).
    assert (Er : forall r, In r rs -> rel_1 r = "IX" \/ rel_1 r = "IY") by (intros r [<-|[<-|[]]]; auto).
    assert (Es : forall s, loops_of rs s = if eqb "IX" s then ["OX"; "FX"] else if eqb "IY" s then ["OY"; "FY"] else [s]).
    { intros s. unfold loops_of, rs, relation_of, relations_for, position. cbn [map find rel_1 wl_1 wl_2 wl_3 wt_dim]. change (upper "ix") with "IX". change (upper "iy") with "IY".
      destruct (eqb "IX" s); [reflexivity|]. destruct (eqb "IY" s); reflexivity. }
    assert (Ef : forall l, flat_map (loops_of rs) l = flat_map (fun s => if eqb "IX" s then ["OX"; "FX"] else if eqb "IY" s then ["OY"; "FY"] else [s]) l).
    { induction l as [|s l IH]; [reflexivity|]. cbn [flat_map]. now rewrite IH, Es. }
    rewrite Ef. cbn in H. destruct H as [<-|[<-|[<-|[]]]].
    + split; [right; intros r I; destruct (Er r I) as [-> | ->]; cbn; intuition discriminate|]. vm_compute. split; [no_dup|intros d H; intuition].
    + split; [right; intros r I; destruct (Er r I) as [-> | ->]; cbn; intuition discriminate|]. vm_compute. split; [no_dup|intros d H; intuition].
    + split; [left; intros r I; destruct (Er r I) as [-> | ->]; cbn; intuition|]. vm_compute. split; [no_dup|intros d H; intuition].
  - intros P w H. cbn [relations_for map]. cbn [equation_for] in H. split; [left; intros r []|]. unfold separate.
    assert (Ef : forall l, flat_map (loops_of []) l = l) by (induction l as [|s l IH]; [reflexivity|]; cbn [flat_map]; now rewrite IH). rewrite Ef.
    unfold loops_for, batch_subs, batch_loops in *. destruct (batch_cases p P) as [E|[(b & E)|(b & h & E)]]; rewrite E in *; destruct k; destruct H as [<-|[<-|[<-|[]]]];
      (split; [|intros d Hd; vm_compute in Hd; cbn; clear -Hd; intuition]); vm_compute; no_dup.
Qed.

Lemma node_usable i n fs o : positive_operator o -> 0 <= weight_bits (mn_attrs n) -> 0 <= act_bits (mn_attrs n) -> 0 <= output_bits (mn_attrs n) ->
  usable_layer (node_as i n fs o) (equation_for o (constant_second fs)) (relations_for o) (loops_for o).
Proof.
  intros P Nw Na No. set (k := constant_second fs). destruct (equation_plain o k P) as (Pe & Nd & Op). destruct (loops_upper o P) as (El & Nl & Pl & Eu).
  assert (Ne : forall d, In d (map fst (loops_for o)) -> ~ In d ["IX"; "IY"; "IX_R"; "IX_IR"; "IY_R"; "IY_IR"]).
  { destruct o as [c|p]; cbn [loops_for positive_operator] in *.
    - intros d H. cbn in H. cbn. clear -H. intuition (subst; discriminate).
    - unfold batch_loops. destruct (batch_cases p P) as [E|[(b & E)|(b & h & E)]]; rewrite E; intros d H; cbn in H; cbn; clear -H; intuition (subst; discriminate). }
  assert (Rn : forall w, In w (relations_for o) -> upper (wl_1 w) = "IX" \/ upper (wl_1 w) = "IY").
  { destruct o as [c|p]; cbn [relations_for]; [|intros w []]. intros w [<-|[<-|[]]]; [now left|now right]. }
  constructor.
  - apply node_written.
  - constructor.
    + split; [reflexivity|]. split; assumption.
    + split; [now left|]. destruct o as [c|p]; [|intros w []]. cbn [positive_operator] in P. destruct P as (_ & _ & _ & _ & (_ & _ & _ & S1 & D1) & (_ & _ & _ & S2 & D2)).
      assert (B : blank "") by (intros x []).
      intros w [<-|[<-|[]]]; unfold good_relation, good_term, position; cbn [wl_1 wl_g1 wl_g2 wl_2 wl_g3 wl_g4 wl_3 wt_dim wt_coef];
        (split; [letters|]; split; [discriminate|]; do 4 (split; [exact B|]); split; (split; [letters|]; split; [discriminate|]; split; [lia|split; exact B])).
    + exists (map fst (loops_for o)), (map snd (loops_for o)). cbn [node_as rl_dims rl_sizes]. split; [reflexivity|]. split; [reflexivity|]. split; [now rewrite !map_length|]. split; [exact El|]. split; [exact Nl|exact Pl].
    + destruct o as [c|p]; cbn [relations_for map]; [|split; [apply NoDup_nil|intros r []]]. cbn [positive_operator] in P. destruct P as (_ & _ & _ & _ & (_ & _ & _ & S1 & D1) & (_ & _ & _ & S2 & D2)).
      split; [cbn; no_dup|]. intros r [<-|[<-|[]]]; cbn; (split; [assumption|]; split; [assumption|]; split; [intuition discriminate|auto 12]).
    + exact (operands_apart o k P).
    + intros w d I E. cbn [node_as rl_precision] in E. injection E as <-. assert (J : In (wr_name w) (map wr_name (operands_of (equation_for o k)))) by (apply List.in_map; exact I).
      destruct Op as [Q|Q]; rewrite Q in J; cbn in J; cbn; intuition.
    + intros dims E. cbn [node_as rl_pr_dims] in E. destruct o; [|discriminate]. injection E as <-. cbn. no_dup.
    + destruct o as [c|p].
      * left. do 3 eexists. cbn [node_as rl_pr_dims rl_pr_sizes]. split; [reflexivity|]. split; [reflexivity|]. cbn [positive_operator] in P. destruct P as (_ & _ & _ & _ & (Iy & _) & (Ix & _)).
        split; [intros x [<-|[<-|[]]]; assumption|]. intros x I. destruct (Rn x I) as [-> | ->]; cbn; auto.
      * right. split; [intros sizes E; discriminate|intros x []].
  - exact Op.
  - destruct o; discriminate.
  - intros d w Id Iw. specialize (Ne d Id). destruct (Rn w Iw) as [-> | ->]; split; intros ->; apply Ne; cbn; auto 10.
  - destruct o as [c|p]; cbn [relations_for]; [|intros w w' d []]. unfold uses. intros w w' d [<-|[<-|[]]] [<-|[<-|[]]]; cbn; intros [-> | ->] [Q|Q]; try reflexivity; discriminate Q.
  - intros w Iw. assert (X : ~ In "IX" (dims_of (we_out (equation_for o k))) /\ ~ In "IY" (dims_of (we_out (equation_for o k)))).
    { destruct o as [c|p]; cbn [equation_for positive_operator] in *; [split; vm_compute; intuition discriminate|]. unfold batch_subs. destruct (batch_cases p P) as [E|[(b & E)|(b & h & E)]]; rewrite E; split; vm_compute; intuition discriminate. }
    destruct (Rn w Iw) as [-> | ->]; tauto.
  - intros d q x E I. cbn [node_as rl_precision] in E. injection E as <-. cbn in I. repeat (destruct I as [E|I]; [injection E as <- <-; try assumption|]); [|destruct I].
    destruct o; [assumption|]. destruct (length fs <=? 1)%nat; assumption.
Qed.

(** * The parsers make these layers *)

Lemma bits_read name d attrs : (dget name attrs = None \/ exists z, dget name attrs = Some (AInt z)) -> precision name d attrs = Ok (bits attrs name d).
Proof. unfold precision, get_attribute, bits. intros [->|(z & ->)]; reflexivity. Qed.
Lemma all_bits attrs : precisions_plain attrs ->
  get_weight_precision attrs = Ok (weight_bits attrs) /\ get_activation_precision attrs = Ok (act_bits attrs) /\ get_intermediate_output_precision attrs = Ok (output_bits attrs).
Proof.
  intros P. assert (A := bits_read "act_size" 8 attrs (P "act_size" ltac:(cbn; auto))).
  split; [exact (bits_read "weight_size" 8 attrs (P "weight_size" ltac:(cbn; auto)))|]. split; [exact A|].
  unfold get_intermediate_output_precision, get_activation_precision. rewrite A. cbn [rbind]. exact (bits_read "output_size" _ attrs (P "output_size" ltac:(cbn; auto))).
Qed.

Lemma conv_parsed_bits c attrs tensors input output : conv_positive c -> attributes_of attrs c -> precisions_plain attrs ->
  dget input tensors = Some (input_shape c) -> dget output tensors = Some (output_shape c) ->
  parse_conv attrs tensors input output = Ok (conv_data c (weight_bits attrs) (act_bits attrs) (output_bits attrs)).
Proof.
  intros P A Hp Hi Ho. destruct (all_bits attrs Hp) as (Ew & Ea & Ei). rewrite <- (conv_format c attrs _ _ _ P Ew Ea Ei).
  destruct A as (Ak & As & Ad & Ag & Ap). unfold parse_conv.
  assert (G : forall name d v, value_or d (dget name attrs) = v -> v <> AOther -> get_attribute name attrs (Some d) = Ok v).
  { intros name d v <- N. unfold get_attribute. destruct (dget name attrs) as [[| |]|]; cbn [value_or] in *; congruence. }
  unfold get_attribute at 1. rewrite Ak. cbn [rbind]. rewrite (G _ _ _ As ltac:(discriminate)). cbn [rbind]. rewrite (G _ _ _ Ad ltac:(discriminate)). cbn [rbind].
  rewrite (G _ _ _ Ag ltac:(discriminate)). cbn [rbind]. rewrite (G _ _ _ Ap ltac:(discriminate)). cbn [rbind]. unfold dgetr. rewrite Hi, Ho. reflexivity.
Qed.
Lemma gemm_parsed_bits p t attrs tensors weights predecessors input weight output : product_positive p -> transposition attrs p t -> precisions_plain attrs ->
  dget input tensors = Some (left_shape p t) -> dget output tensors = Some (result_shape p) ->
  parse_gemm attrs tensors weights predecessors input weight output = Ok (gemm_data p (Nat.ltb predecessors 2) (weight_bits attrs) (act_bits attrs) (output_bits attrs)).
Proof.
  intros P T Hp Hi Ho. destruct (all_bits attrs Hp) as (Ew & Ea & Ei).
  assert (F := gemm_format p attrs _ _ _ predecessors P Ew Ea Ei). rewrite <- F.
  unfold parse_gemm, dgetr. rewrite Hi, Ho. cbn [of_option rbind].
  destruct T as [[T ->]|[(z & T & Nz) [-> N]]].
  - assert (G : get_attribute "transA" attrs (Some (AInt 0)) = Ok (AInt 0)) by (unfold get_attribute; destruct T as [->| ->]; reflexivity).
    assert (Len : Nat.eqb (length (left_shape p false)) (length (result_shape p)) = true)
      by (unfold left_shape, result_shape; rewrite !app_length; apply Nat.eqb_eq; reflexivity).
    rewrite Len, G. assert (NN := left_shape_not_nil p). revert NN. generalize (left_shape p false). intros [|s0 l0] NN; [congruence|]. reflexivity.
  - assert (G : get_attribute "transA" attrs (Some (AInt 0)) = Ok (AInt z)) by (unfold get_attribute; now rewrite T).
    unfold left_shape, result_shape in *. rewrite N in *. cbn [app length Nat.eqb negb]. rewrite G. cbn [rbind].
    destruct z; [congruence| |]; reflexivity.
Qed.

Lemma parser_conv t : In t ["Conv"; "QLinearConv"] -> parser_of t = ConvOp.
Proof. intros [<-|[<-|[]]]; reflexivity. Qed.
Lemma parser_gemm t : In t ["Gemm"; "MatMul"] -> parser_of t = GemmOp.
Proof. intros [<-|[<-|[]]]; reflexivity. Qed.
Lemma parser_default t : ~ In t ["Conv"; "QLinearConv"; "Gemm"; "MatMul"] -> parser_of t = DefaultOp.
Proof.
  intros N. unfold parser_of. destruct (memb t ["QLinearConv"; "Conv"]) eqn:M; [apply memb_In in M; exfalso; apply N; cbn in *; tauto|].
  destruct (memb t ["MatMul"; "Gemm"]) eqn:M'; [apply memb_In in M'; exfalso; apply N; cbn in *; tauto|reflexivity].
Qed.
Lemma plain_graph m : map plain_node (om_nodes m) = graph_of m.
Proof.
  unfold graph_of. apply map_ext. intros n. unfold plain_node. f_equal. unfold parser_of.
  destruct (memb (mn_type n) ["Conv"; "QLinearConv"; "Gemm"; "MatMul"]) eqn:M.
  - apply memb_In in M. destruct M as [<-|[<-|[<-|[<-|[]]]]]; reflexivity.
  - assert (N : ~ In (mn_type n) ["Conv"; "QLinearConv"; "Gemm"; "MatMul"]) by (intros I; apply memb_In in I; congruence).
    assert (D := parser_default _ N). unfold parser_of in D. now rewrite D.
Qed.

Lemma named i n : node_name i n = (if string_dec (mn_name n) "" then "Op" ++ string_of_Z (Z.of_nat i) else mn_name n)%string.
Proof. unfold node_name. destruct (eqb_spec (mn_name n) "") as [E|E]; destruct (string_dec (mn_name n) ""); congruence. Qed.
Lemma source_read i fs : (length fs <= 2)%nat -> exists s, get_operand_source_user_format i fs = Ok s /\ map (fun x => (fst x, Z.of_nat (snd x))) s = sources_for i fs.
Proof. intros L. destruct fs as [|p [|q [|r fs]]]; cbn [length] in L; try lia; (eexists; split; reflexivity). Qed.

Lemma data_conv i n fs c s : map (fun x => (fst x, Z.of_nat (snd x))) s = sources_for i fs ->
  onnx_layer_data i n (conv_data c (weight_bits (mn_attrs n)) (act_bits (mn_attrs n)) (output_bits (mn_attrs n))) s = normalise_layer (node_as i n fs (Convolution (exchanged c))).
Proof.
  intros Es. unfold onnx_layer_data, normalise_layer, node_as, conv_data.
  cbn [nd_equation nd_relations nd_loop_dims nd_loop_sizes nd_precision nd_pr_loop_dims nd_pr_loop_sizes nd_padding rl_id rl_name rl_type rl_equation rl_relations rl_dims rl_sizes rl_precision rl_source rl_pr_dims rl_pr_sizes rl_padding default].
  rewrite named, Es, !conv_relation_text. f_equal.
Qed.
Lemma data_gemm i n fs p s : product_positive p -> map (fun x => (fst x, Z.of_nat (snd x))) s = sources_for i fs ->
  onnx_layer_data i n (gemm_data p (constant_second fs) (weight_bits (mn_attrs n)) (act_bits (mn_attrs n)) (output_bits (mn_attrs n))) s = normalise_layer (node_as i n fs (Product p)).
Proof.
  intros P Es. unfold onnx_layer_data, normalise_layer, node_as, gemm_data.
  cbn [nd_equation nd_relations nd_loop_dims nd_loop_sizes nd_precision nd_pr_loop_dims nd_pr_loop_sizes nd_padding rl_id rl_name rl_type rl_equation rl_relations rl_dims rl_sizes rl_precision rl_source rl_pr_dims rl_pr_sizes rl_padding default].
  rewrite named, Es. unfold loops_for, equation_for, gemm_text, gemm_letters, batch_subs, batch_loops.
  destruct (batch_cases p P) as [E|[(b & E)|(b & h & E)]]; rewrite E; destruct (constant_second fs); reflexivity.
Qed.

Lemma node_created order mapping m i n o outs : is_operator m n o -> precisions_plain (mn_attrs n) -> (length (get_node_predecessors (mn_inputs n) outs) <= 2)%nat ->
  create_node order mapping m i n outs =
    rbind (create_layer order mapping (normalise_layer (node_as i n (get_node_predecessors (mn_inputs n) outs) (taken_as o)))) (fun l => Ok (Some l)).
Proof.
  intros H Hp L. set (fs := get_node_predecessors (mn_inputs n) outs) in *. destruct (source_read i fs L) as (s & Es & Em). unfold create_node. cbv zeta. fold fs.
  destruct o as [c|p]; cbn [is_operator taken_as] in *.
  - destruct H as (T & P & A & (x & r & Ei & Di) & (y & r' & Eo & Do)). rewrite (parser_conv _ T), Ei, Eo. unfold first_of_list. cbn [nth_error of_option rbind].
    rewrite (conv_parsed_bits c _ _ _ _ P A Hp Di Do). cbn [rbind]. rewrite Es. cbn [rbind]. now rewrite (data_conv i n fs c s Em).
  - destruct H as (T & P & t & A & (x & r & Ei & Di) & (y & r' & Eo & Do)). rewrite (parser_gemm _ T), Eo. unfold first_of_list. rewrite Ei at 1. cbn [nth_error of_option rbind].
    rewrite (gemm_parsed_bits p t _ _ _ _ _ _ _ P A Hp Di Do). cbn [rbind]. rewrite Es. cbn [rbind]. fold (constant_second fs). now rewrite (data_gemm i n fs p s P Em).
Qed.

(** * All nodes of a model *)

Section Nodes.
  Variables (order : list string -> list string) (mapping : list Model_MapFile.entry) (m : onnx_model).
  Notation created nodes i n := (create_node order mapping m i n (outs_of (firstn (S i) (map plain_node nodes)))).
  Definition model_run (nodes : list model_node) := rfold (model_step order mapping m) (no_graph, [], []) (combine (seq 0 (length nodes)) nodes).

  Lemma nodes_read nodes : (forall i n, nth_error nodes i = Some n -> exists l, created nodes i n = Ok l) -> forall st, onnx_run (map plain_node nodes) = Ok st ->
    exists ls, model_run nodes = Ok (st, ls) /\ length ls = length nodes /\ forall i n l, nth_error nodes i = Some n -> nth_error ls i = Some l -> created nodes i n = Ok l.
  Proof.
    induction nodes as [|n nodes IH] using rev_ind.
    - intros _ st E. cbn in E. injection E as <-. exists []. split; [reflexivity|]. split; [reflexivity|]. intros [|i] x l Q; discriminate Q.
    - intros H st E. rewrite map_app in E. cbn [map] in E. rewrite onnx_snoc in E. apply rbind_Ok in E. destruct E as (st0 & E0 & E1).
      assert (Sh : forall i, (i < length nodes)%nat -> firstn (S i) (map plain_node (nodes ++ [n])) = firstn (S i) (map plain_node nodes)).
      { intros i L. rewrite map_app, firstn_app, map_length. replace (S i - length nodes)%nat with 0%nat by lia. cbn [firstn]. now rewrite app_nil_r. }
      destruct (IH) with (st := st0) as (ls & Er & Ln & Hl); [|exact E0|].
      { intros i x Q. assert (L : (i < length nodes)%nat) by (apply nth_error_Some; congruence). rewrite <- (Sh i L). apply H. now rewrite nth_error_app1. }
      assert (V := onnx_inv (map plain_node nodes)). rewrite E0 in V. destruct V as (_ & _ & Eo & _). rewrite map_length in E1.
      destruct (H (length nodes) n) as (l & El); [rewrite nth_error_app2, Nat.sub_diag by lia; reflexivity|].
      assert (Ef : firstn (S (length nodes)) (map plain_node (nodes ++ [n])) = map plain_node nodes ++ [plain_node n]).
      { rewrite firstn_all2 by (rewrite map_length, app_length; cbn; lia). apply map_app. }
      assert (El' := El). rewrite Ef, outs_snoc, map_length, <- Eo in El'. exists (ls ++ [l]). split; [|split].
      + unfold model_run in *. rewrite combine_seq_snoc, rfold_app, Er. cbn [rbind rfold]. unfold model_step at 1. cbn [plain_node on_outputs] in El'. rewrite El'. cbn [rbind]. now rewrite E1.
      + rewrite !app_length, Ln. reflexivity.
      + intros i x y Q R. destruct (Nat.eq_dec i (length nodes)) as [->|Ne].
        * rewrite nth_error_app2, Nat.sub_diag in Q by lia. rewrite nth_error_app2, Ln, Nat.sub_diag in R by lia. cbn in Q, R. congruence.
        * assert (L : (i < length (nodes ++ [n]))%nat) by (apply nth_error_Some; congruence). rewrite app_length in L. cbn [length] in L. rewrite Sh by lia.
          rewrite nth_error_app1 in Q by lia. rewrite nth_error_app1 in R by lia. exact (Hl i x y Q R).
  Qed.
End Nodes.

Section Model.
  Variables (order : list string -> list string) (hardware : raw_accel) (m : onnx_model) (mapping : list raw_entry) (meaning : list (option operator)).
  Hypothesis order_perm : forall l, Permutation (order l) l.
  Hypothesis usable : usable_model hardware m mapping meaning.

  (** What is written about node [i] *)
  Definition node_about (i : nat) (r : raw_layer) (e : written_equation) (ws : list written_relation) (loops : list (string * Z)) : Prop :=
    exists o, node_at m meaning i o r /\ e = equation_for (taken_as o) (constant_second (feeding (graph_of m) i)) /\ ws = relations_for (taken_as o) /\ loops = loops_for (taken_as o).

  Lemma node_seen i n : nth_error (om_nodes m) i = Some n -> get_node_predecessors (mn_inputs n) (outs_of (firstn (S i) (map plain_node (om_nodes m)))) = feeding (graph_of m) i.
  Proof.
    intros E. rewrite plain_graph. rewrite <- (seen_feeding (graph_of m) i (um_order _ _ _ _ usable)). unfold seen. unfold graph_of at 2. rewrite nth_error_map, E. reflexivity.
  Qed.
  Lemma node_meaning i n : nth_error (om_nodes m) i = Some n -> exists x, nth_error meaning i = Some x /\ match x with
      | Some o => is_operator m n o /\ precisions_plain (mn_attrs n) /\ 0 <= weight_bits (mn_attrs n) /\ 0 <= act_bits (mn_attrs n) /\ 0 <= output_bits (mn_attrs n)
      | None => costs_nothing n end.
  Proof.
    intros E. destruct (nth_error meaning i) as [x|] eqn:Ex.
    - exists x. split; [reflexivity|]. exact (F2_nth _ _ _ i n x (um_nodes _ _ _ _ usable) E Ex).
    - exfalso. apply nth_error_None in Ex. rewrite <- (F2_len _ _ _ (um_nodes _ _ _ _ usable)) in Ex. assert (i < length (om_nodes m))%nat by (apply nth_error_Some; congruence). lia.
  Qed.
  Lemma operator_positive n o : is_operator m n o -> positive_operator o.
  Proof. destruct o; cbn; tauto. Qed.

  Lemma operator_built data i n o : parse_mapping mapping = Ok data -> nth_error (om_nodes m) i = Some n -> nth_error meaning i = Some (Some o) ->
    let r := node_as i n (feeding (graph_of m) i) (taken_as o) in
    let e := equation_for (taken_as o) (constant_second (feeding (graph_of m) i)) in
    usable_layer r e (relations_for (taken_as o)) (loops_for (taken_as o)) /\
    exists l, create_node order data m i n (outs_of (firstn (S i) (map plain_node (om_nodes m)))) = Ok (Some l) /\
      layer_as order mapping r e (relations_for (taken_as o)) (loops_for (taken_as o)) l.
  Proof.
    intros Pm E Ex. cbv zeta. destruct (node_meaning i n E) as (x & Ex' & H). assert (x = Some o) by congruence. subst x. destruct H as (Io & Hp & Nw & Na & No).
    assert (U := node_usable i n (feeding (graph_of m) i) (taken_as o) (taken_positive o (operator_positive n o Io)) Nw Na No). split; [exact U|].
    destruct (layer_built order mapping data _ _ _ _ order_perm (proj1 (um_mapping _ _ _ _ usable)) Pm (ul_written _ _ _ _ U) (ul_sensible _ _ _ _ U)) as (l & El & A).
    exists l. split; [|exact A]. rewrite (node_created order data m i n o _ Io Hp); rewrite (node_seen i n E); [now rewrite El|]. exact (um_sources _ _ _ _ usable i o Ex).
  Qed.

  Lemma model_read : exists ls g, parse_onnx order m mapping = Ok (ls, g) /\ graph_ok g /\
    (forall i, In i (operators_of meaning) -> exists r e ws loops l, node_about i r e ws loops /\ usable_layer r e ws loops /\ onnx_layer_at ls i = Ok l /\ layer_as order mapping r e ws loops l /\
      forall t p en, rl_type r = Some t -> rl_precision r = Some p -> Spec_MapFile.chosen (called r) t (map normalise mapping) en -> usable_entry hardware en /\ one_element hardware (en_links en) p) /\
    (forall i l, onnx_layer_at ls i = Ok l -> In i (operators_of meaning)) /\
    (forall i, In i (g_nodes g) /\ no_layer ls i = false <-> In i (operators_of meaning)) /\ ranked g /\
    (forall u v, path g u v <-> chain (graph_of m) u v) /\ length ls = length (om_nodes m).
  Proof.
    destruct (um_mapping _ _ _ _ usable) as (Pf & data & Pm). assert (Lm := F2_len _ _ _ (um_nodes _ _ _ _ usable)).
    assert (Cr : forall i n, nth_error (om_nodes m) i = Some n -> exists l, create_node order data m i n (outs_of (firstn (S i) (map plain_node (om_nodes m)))) = Ok l).
    { intros i n E. destruct (node_meaning i n E) as ([o|] & Ex & H).
      - destruct (operator_built data i n o Pm E Ex) as (_ & l & El & _). now exists (Some l).
      - exists None. unfold create_node. cbv zeta. now rewrite (parser_default _ H). }
    destruct (proj2 (onnx_ok (graph_of m) (um_order _ _ _ _ usable))) as (g & Eg).
    { intros v nv Ev R. unfold graph_of in Ev. rewrite nth_error_map in Ev. destruct (nth_error (om_nodes m) v) as [n|] eqn:E; [|discriminate]. cbn [option_map] in Ev. injection Ev as <-. cbn [on_real] in R.
      destruct (node_meaning v n E) as ([o|] & Ex & H); [exact (um_sources _ _ _ _ usable v o Ex)|]. change (memb (mn_type n) ["Conv"; "QLinearConv"; "Gemm"; "MatMul"]%string = true) in R. apply memb_In in R. contradiction. }
    destruct (onnx_spec (graph_of m) g (um_order _ _ _ _ usable) Eg) as (Gk & Gn & Ge).
    destruct (onnx_workload_run _ _ Eg) as (outs & Er). rewrite <- plain_graph in Er.
    destruct (nodes_read order data m (om_nodes m) Cr _ Er) as (ls & El & Ln & Hl).
    assert (Lg : length (graph_of m) = length (om_nodes m)) by (unfold graph_of; now rewrite map_length).
    assert (Io : forall i, In i (operators_of meaning) <-> exists n o, nth_error (om_nodes m) i = Some n /\ nth_error meaning i = Some (Some o)).
    { intros i. unfold operators_of. rewrite filter_In, in_seq. split.
      - intros (_ & Q). destruct (nth_error meaning i) as [[o|]|] eqn:Ex; try discriminate. destruct (nth_error (om_nodes m) i) as [n|] eqn:E; [now exists n, o|].
        exfalso. apply nth_error_None in E. assert (i < length meaning)%nat by (apply nth_error_Some; congruence). lia.
      - intros (n & o & E & Ex). rewrite Ex. split; [|reflexivity]. assert (i < length meaning)%nat by (apply nth_error_Some; congruence). lia. }
    assert (At : forall i n x, nth_error (om_nodes m) i = Some n -> nth_error meaning i = Some x -> exists y, nth_error ls i = Some y /\ (x = None <-> y = None)).
    { intros i n x E Ex. destruct (nth_error ls i) as [y|] eqn:Ey; [|exfalso; apply nth_error_None in Ey; assert (i < length (om_nodes m))%nat by (apply nth_error_Some; congruence); lia].
      exists y. split; [reflexivity|]. assert (C := Hl i n y E Ey). destruct x as [o|].
      - destruct (operator_built data i n o Pm E Ex) as (_ & l & C' & _). split; intros Q; [discriminate|]. congruence.
      - destruct (node_meaning i n E) as (x' & Ex' & H). assert (x' = None) by congruence. subst x'. split; intros _; [|reflexivity].
        unfold create_node in C. cbv zeta in C. rewrite (parser_default _ H) in C. congruence. }
    exists ls, g. split; [|split; [exact Gk|split; [|split; [|split; [|split; [|split; [|exact Ln]]]]]]].
    - unfold parse_onnx. rewrite Pm. cbn [rbind]. unfold parse_nodes. fold (model_run order data m (om_nodes m)). rewrite El. reflexivity.
    - intros i I. apply Io in I. destruct I as (n & o & E & Ex). destruct (operator_built data i n o Pm E Ex) as (U & l & C & A).
      destruct (At i n _ E Ex) as (y & Ey & _). assert (Q := Hl i n y E Ey). assert (y = Some l) by congruence. subst y.
      assert (Na : node_at m meaning i o (node_as i n (feeding (graph_of m) i) (taken_as o))) by (exists n; exact (conj E (conj Ex eq_refl))).
      exists (node_as i n (feeding (graph_of m) i) (taken_as o)), (equation_for (taken_as o) (constant_second (feeding (graph_of m) i))), (relations_for (taken_as o)), (loops_for (taken_as o)), l.
      split; [exists o; exact (conj Na (conj eq_refl (conj eq_refl eq_refl)))|]. split; [exact U|]. split; [unfold onnx_layer_at; now rewrite Ey|]. split; [exact A|].
      intros t p en Et Ep Ch. exact (um_entries _ _ _ _ usable i o _ t p en Na Et Ep Ch).
    - intros i l Q. unfold onnx_layer_at in Q. destruct (nth_error ls i) as [[y|]|] eqn:Ey; try discriminate. apply Io.
      destruct (nth_error (om_nodes m) i) as [n|] eqn:E; [|exfalso; apply nth_error_None in E; assert (i < length ls)%nat by (apply nth_error_Some; congruence); lia].
      destruct (node_meaning i n E) as ([o|] & Ex & _); [now exists n, o|]. destruct (At i n _ E Ex) as (y' & Ey' & B). assert (y' = Some y) by congruence. subst y'. destruct B as (B & _). discriminate (B eq_refl).
    - intros i. rewrite Gn, Lg, in_seq, Io. unfold no_layer. split.
      + intros (L & Q). destruct (nth_error (om_nodes m) i) as [n|] eqn:E; [|apply nth_error_None in E; lia]. destruct (node_meaning i n E) as ([o|] & Ex & _); [now exists n, o|].
        destruct (At i n _ E Ex) as (y & Ey & B). rewrite Ey, (proj1 B eq_refl) in Q. discriminate.
      + intros (n & o & E & Ex). split; [assert (i < length (om_nodes m))%nat by (apply nth_error_Some; congruence); lia|]. destruct (At i n _ E Ex) as ([y|] & Ey & B); rewrite Ey; [reflexivity|]. discriminate (proj2 B eq_refl).
    - apply ranked_lt. intros u v I. apply Ge in I. apply (um_order _ _ _ _ usable), In_feeding. rewrite <- (firstn_skipn 2 (feeding (graph_of m) v)). apply in_or_app. now left.
    - intros u v. split; induction 1; [apply chain_one|eapply chain_more|apply path_one|eapply path_more]; try (apply Ge; eassumption); eassumption.
  Qed.
End Model.
