(** Products of matrices in ONNX models (C42). *)
From Verif Require Import Base Model_Pr Model_Text Model_Alloc Model_Layer Model_Onnx Spec_Pr Spec_Loma Spec_Layer Spec_Onnx
  Proof_Pr Proof_Text Proof_Relevancy Proof_Elements Proof_Node Proof_Onnx.
Open Scope string_scope.
Open Scope list_scope.
Open Scope Z_scope.

(** What the parser makes of a product. *)
Definition gemm_letters (p : product) : string :=
  match pd_batch p with [] => "" | [_] => "[b]" | _ => "[b][h]" end.
Definition gemm_text (p : product) (constant : bool) : string :=
  ("O" ++ gemm_letters p ++ "[d][k]+=I" ++ gemm_letters p ++ "[d][c]*W" ++ (if constant then "" else gemm_letters p) ++ "[c][k]")%string.
Definition gemm_sizes (p : product) : list (string * Z) :=
  [("C", pd_inner p); ("D", pd_rows p); ("K", pd_columns p)] ++ combine (batch_loops p) (pd_batch p).
Definition gemm_data (p : product) (constant : bool) (w a i : Z) : node_data :=
  mkNode (gemm_text p constant) (["C"; "D"; "K"] ++ batch_loops p) ([pd_inner p; pd_rows p; pd_columns p] ++ pd_batch p)
    [("W", if constant then w else a); ("I", a); ("O_final", a); ("O", i)] [] None None None.
Definition right_loops (p : product) (constant : bool) : list string := (if constant then [] else batch_loops p) ++ ["C"; "K"].

Lemma gemm_format p attrs w a i predecessors : product_positive p ->
  get_weight_precision attrs = Ok w -> get_activation_precision attrs = Ok a -> get_intermediate_output_precision attrs = Ok i ->
  gemm_user_format attrs predecessors (left_shape p false) (result_shape p) = Ok (gemm_data p (Nat.ltb predecessors 2) w a i).
Proof.
  intros (L & P & Pr & Pi & Pc) Ew Ea Ei. unfold gemm_user_format. rewrite Ea, Ew, Ei. unfold gemm_data, gemm_text, gemm_letters, batch_loops, left_shape, result_shape.
  generalize (Nat.ltb predecessors 2). intros k.
  destruct (pd_batch p) as [|b [|h [|z l]]]; cbn [length] in L; try lia.
  - cbn [app length firstn rbind]. unfold at_back, at_front. cbn [length Nat.leb Nat.sub nth_error of_option rbind].
    rewrite Z.eqb_refl. destruct k; reflexivity.
  - assert (Pb := P b (or_introl eq_refl)).
    cbn [app length firstn rbind]. unfold at_back, at_front. cbn [length Nat.leb Nat.sub nth_error of_option rbind].
    rewrite !Z.eqb_refl. cbn [negb rbind]. destruct (Z.eqb_spec b 0); [lia|]. destruct (Z.eqb_spec b 0); [lia|]. destruct k; reflexivity.
  - assert (Pb := P b (or_introl eq_refl)). assert (Ph := P h (or_intror (or_introl eq_refl))).
    cbn [app length firstn rbind]. unfold at_back, at_front. cbn [length Nat.leb Nat.sub nth_error of_option rbind].
    rewrite !Z.eqb_refl. cbn [negb rbind]. rewrite !(proj2 (Z.eqb_neq b 0)), !(proj2 (Z.eqb_neq h 0)) by lia. cbn [rbind].
    destruct k; reflexivity.
Qed.

Lemma left_shape_not_nil p : left_shape p false <> [].
Proof. unfold left_shape. destruct (pd_batch p); discriminate. Qed.

Lemma gemm_parsed p t attrs tensors weights predecessors input weight output : product_positive p -> transposition attrs p t -> precisions_plain attrs ->
  dget input tensors = Some (left_shape p t) -> dget output tensors = Some (result_shape p) ->
  exists w a i, parse_gemm attrs tensors weights predecessors input weight output = Ok (gemm_data p (Nat.ltb predecessors 2) w a i).
Proof.
  intros P T Hp Hi Ho. destruct (precisions_ok attrs Hp) as (w & a & i & Ew & Ea & Ei). exists w, a, i.
  assert (F := gemm_format p attrs w a i predecessors P Ew Ea Ei). rewrite <- F.
  unfold parse_gemm, dgetr. rewrite Hi, Ho. cbn [of_option rbind].
  destruct T as [[T ->]|[(z & T & Nz) [-> N]]].
  - assert (G : get_attribute "transA" attrs (Some (AInt 0)) = Ok (AInt 0)) by (unfold get_attribute; destruct T as [->| ->]; reflexivity).
    assert (Len : Nat.eqb (length (left_shape p false)) (length (result_shape p)) = true)
      by (unfold left_shape, result_shape; rewrite !app_length; apply Nat.eqb_eq; reflexivity).
    rewrite Len, G. assert (NN := left_shape_not_nil p). revert NN. generalize (left_shape p false). intros [|s0 l0] NN; [congruence|]. reflexivity.
  - assert (G : get_attribute "transA" attrs (Some (AInt 0)) = Ok (AInt z)) by (unfold get_attribute; now rewrite T).
    unfold left_shape, result_shape in *. rewrite N in *. cbn [app length Nat.eqb negb]. rewrite G. cbn [rbind].
    destruct z; [congruence| |]; reflexivity.
Qed.

Section Built.
  Variables (p : product) (constant : bool) (w a i : Z) (order : list string -> list string) (links : list (string * string)).
  Hypothesis order_perm : forall l, Permutation (order l) l.
  Hypothesis pos : product_positive p.

  Lemma batch_cases : pd_batch p = [] \/ (exists b, pd_batch p = [b]) \/ exists b h, pd_batch p = [b; h].
  Proof.
    destruct pos as (L & _). destruct (pd_batch p) as [|b [|h [|z l]]]; cbn [length] in L; [auto| | |lia]; right; [left|right]; eauto.
  Qed.

  Lemma gemm_sizes_ok : create_layer_dim_sizes (gemm_data p constant w a i) = gemm_sizes p.
  Proof.
    unfold create_layer_dim_sizes, gemm_data, gemm_sizes, batch_loops.
    destruct batch_cases as [->|[(b & ->)|(b & h & ->)]]; reflexivity.
  Qed.

  Lemma gemm_tokens : node_tokens (gemm_data p constant w a i) = disassembly (create_equation (gemm_text p constant)).
  Proof. reflexivity. Qed.

  Lemma gemm_ops : contained_operands (node_tokens (gemm_data p constant w a i)) = Ok ["O"; "I"; "W"].
  Proof.
    rewrite gemm_tokens. unfold gemm_text, gemm_letters.
    destruct batch_cases as [->|[(b & ->)|(b & h & ->)]]; destruct constant; vm_compute; reflexivity.
  Qed.
  Lemma gemm_subs_O : get_r_layer_dims (node_tokens (gemm_data p constant w a i)) "O" = Ok (batch_loops p ++ ["D"; "K"]).
  Proof.
    rewrite gemm_tokens. unfold gemm_text, gemm_letters, batch_loops.
    destruct batch_cases as [->|[(b & ->)|(b & h & ->)]]; destruct constant; vm_compute; reflexivity.
  Qed.
  Lemma gemm_subs_I : get_r_layer_dims (node_tokens (gemm_data p constant w a i)) "I" = Ok (batch_loops p ++ ["D"; "C"]).
  Proof.
    rewrite gemm_tokens. unfold gemm_text, gemm_letters, batch_loops.
    destruct batch_cases as [->|[(b & ->)|(b & h & ->)]]; destruct constant; vm_compute; reflexivity.
  Qed.
  Lemma gemm_subs_W : get_r_layer_dims (node_tokens (gemm_data p constant w a i)) "W" = Ok (right_loops p constant).
  Proof.
    rewrite gemm_tokens. unfold right_loops, gemm_text, gemm_letters, batch_loops.
    destruct batch_cases as [->|[(b & ->)|(b & h & ->)]]; destruct constant; vm_compute; reflexivity.
  Qed.

  Lemma gemm_sizes_pos : forall d n, In (d, n) (gemm_sizes p) -> 0 < n.
  Proof.
    destruct pos as (L & B & P1 & P2 & P3). intros d n H. apply in_app_iff in H. destruct H as [H|H].
    - repeat (destruct H as [E|H]; [injection E as <- <-; assumption|]). destruct H.
    - apply in_combine_r in H. auto.
  Qed.

  Lemma gemm_apart op subs : In (op, subs) [("O", batch_loops p ++ ["D"; "K"]); ("I", batch_loops p ++ ["D"; "C"]); ("W", right_loops p constant)] ->
    all_or_none [] subs /\ separate [] subs (gemm_sizes p).
  Proof.
    intros H. split; [left; intros r []|].
    unfold right_loops, gemm_sizes, batch_loops in *. destruct batch_cases as [E|[(b & E)|(b & h & E)]]; rewrite E in H; rewrite E; destruct constant;
      destruct H as [H|[H|[H|[]]]]; injection H as <- <-; (split; [|intros d Hd; vm_compute in Hd; cbn; clear -Hd; intuition]); vm_compute; repeat (apply NoDup_cons; [cbn; intuition discriminate|]); apply NoDup_nil.
  Qed.

  Lemma gemm_built : exists ln, layer_node_of order links (gemm_data p constant w a i) = Ok ln.
  Proof.
    apply (node_total order links (gemm_data p constant w a i) [] [] ["O"; "I"; "W"]).
    - exact order_perm.
    - reflexivity.
    - reflexivity.
    - exact gemm_ops.
    - rewrite gemm_sizes_ok. exact gemm_sizes_pos.
    - split; [constructor|]. intros r [].
    - cbn. intros r [].
    - rewrite gemm_sizes_ok. intros op [<-|[<-|[<-|[]]]]; eexists; (split; [first [exact gemm_subs_O|exact gemm_subs_W|exact gemm_subs_I]|]);
        (eapply gemm_apart; cbn; eauto).
    - intros op [<-|[<-|[<-|[]]]]; cbn; tauto.
    - left. cbn. tauto.
  Qed.

  Lemma gemm_quantities ln : layer_node_of order links (gemm_data p constant w a i) = Ok ln ->
    ln_operands ln = ["O"; "I"; "W"] /\ ln_sizes ln = gemm_sizes p /\
    ln_macs ln = product_operations p /\
    dget "O" (ln_size_elem ln) = Some (zprod (result_shape p)) /\
    dget "I" (ln_size_elem ln) = Some (zprod (left_shape p false)) /\
    dget "W" (ln_size_elem ln) = Some ((if constant then 1 else zprod (pd_batch p)) * pd_inner p * pd_columns p).
  Proof.
    intros B. destruct (node_shape order links _ ln B) as (rs & pr & pd & Er & Ep & Es & Eo & _ & _ & Epr & Em & M & _).
    rewrite gemm_ops in Eo. injection Eo as Eo. rewrite gemm_sizes_ok in Es.
    assert (Sz : forall op subs, In (op, subs) [("O", batch_loops p ++ ["D"; "K"]); ("I", batch_loops p ++ ["D"; "C"]); ("W", right_loops p constant)] ->
       get_r_layer_dims (node_tokens (gemm_data p constant w a i)) op = Ok subs ->
       dget op (ln_size_elem ln) = Some (zprod (map (derived_size (gemm_sizes p) [] (l_pr_sizes (ln_layer ln))) subs))).
    { intros op subs Hin Hs. destruct (gemm_apart op subs Hin) as [All Sep].
      destruct (node_size order links (gemm_data p constant w a i) ln [] op subs B eq_refl) as (n & Gn & En).
      - rewrite <- Eo. cbn in Hin. intuition (match goal with E : (_, _) = (_, _) |- _ => injection E as <- <- end; cbn; tauto).
      - exact Hs.
      - split; [constructor|intros r []].
      - exact All.
      - rewrite Es. exact Sep.
      - rewrite Gn. f_equal. rewrite En, Es; [reflexivity|]. intros r []. }
    split; [now symmetry|]. split; [exact Es|].
    assert (SO := Sz "O" _ (or_introl eq_refl) gemm_subs_O).
    assert (SI := Sz "I" _ (or_intror (or_introl eq_refl)) gemm_subs_I).
    assert (SW := Sz "W" _ (or_intror (or_intror (or_introl eq_refl))) gemm_subs_W).
    rewrite M, Es, SO, SI, SW. clear -pos. unfold product_operations, result_shape, left_shape, right_loops, gemm_sizes, batch_loops.
    generalize (l_pr_sizes (ln_layer ln)). intros pr.
    revert pos. intros (L & _). destruct (pd_batch p) as [|b [|h [|z l]]]; cbn [length] in L; try lia; destruct constant;
      (repeat split); unfold values, zprod; cbn -[Z.mul]; try (f_equal; lia); lia.
  Qed.
End Built.

Lemma gemm_layer p t attrs tensors weights predecessors input weight output order links :
  product_positive p -> transposition attrs p t -> precisions_plain attrs ->
  dget input tensors = Some (left_shape p t) -> dget output tensors = Some (result_shape p) ->
  (forall l, Permutation (order l) l) ->
  exists nd ln, parse_gemm attrs tensors weights predecessors input weight output = Ok nd /\ layer_node_of order links nd = Ok ln /\
    ln_operands ln = ["O"; "I"; "W"] /\
    ln_sizes ln = [("C", pd_inner p); ("D", pd_rows p); ("K", pd_columns p)] ++ combine (batch_loops p) (pd_batch p) /\
    ln_macs ln = product_operations p /\
    (let tokens := disassembly (create_equation (nd_equation nd)) in
     get_r_layer_dims tokens "O" = Ok (batch_loops p ++ ["D"; "K"]) /\
     get_r_layer_dims tokens "I" = Ok (batch_loops p ++ ["D"; "C"]) /\
     get_r_layer_dims tokens "W" = Ok ((if Nat.ltb predecessors 2 then [] else batch_loops p) ++ ["C"; "K"])) /\
    dget "O" (ln_size_elem ln) = Some (zprod (result_shape p)) /\
    dget "I" (ln_size_elem ln) = Some (zprod (left_shape p t)) /\
    dget "W" (ln_size_elem ln) = Some ((if Nat.ltb predecessors 2 then 1 else zprod (pd_batch p)) * pd_inner p * pd_columns p).
Proof.
  intros P T Hp Hi Ho Op. destruct (gemm_parsed p t attrs tensors weights predecessors input weight output P T Hp Hi Ho) as (w & a & i & E).
  set (k := Nat.ltb predecessors 2) in *.
  destruct (gemm_built p k w a i order links Op P) as (ln & B). exists (gemm_data p k w a i), ln.
  destruct (gemm_quantities p k w a i order links P ln B) as (Q1 & Q2 & Q3 & Q4 & Q5 & Q6).
  split; [exact E|]. split; [exact B|]. split; [exact Q1|]. split; [exact Q2|]. split; [exact Q3|].
  split; [exact (conj (gemm_subs_O p k w a i P) (conj (gemm_subs_I p k w a i P) (gemm_subs_W p k w a i P)))|].
  split; [exact Q4|]. split; [|exact Q6]. rewrite Q5. f_equal.
  destruct T as [[_ ->]|[_ [-> N]]]; [reflexivity|]. unfold left_shape. rewrite N. unfold zprod. cbn. lia.
Qed.

(** Without a shape of the first operand nothing is parsed. *)
Lemma shape_needed attrs tensors weights predecessors input weight output :
  dget input tensors = Some [] -> exists e, parse_gemm attrs tensors weights predecessors input weight output = Err e.
Proof.
  intros H. unfold parse_gemm, dgetr. rewrite H. cbn [of_option rbind].
  destruct (dget output tensors) as [[|x l]|]; cbn [of_option rbind length Nat.eqb negb]; eauto.
  destruct (get_attribute "transA" attrs (Some (AInt 0))) as [t|e]; cbn [rbind]; eauto.
  assert (I : exists e, infer_input_shape attrs weights weight [] = Err e).
  { unfold infer_input_shape. destruct (dget weight weights) as [[|w0 [|w1 [|]]]|]; eauto.
    destruct (get_attribute "transB" attrs (Some (AInt 0))); cbn [rbind]; eauto. }
  destruct I as (e & E).
  destruct t as [[| |]|[|]|]; cbn [rbind]; rewrite ?E; cbn [rbind]; eauto.
Qed.

(** A batch of four products of an 8 by 16 with a 16 by 32 matrix. *)
Definition four_products : product := mkProduct [4] 8 16 32.
(** One with the first operand stored transposed. *)
Definition stored_transposed : product := mkProduct [] 8 16 32.

Lemma gemm_dims p t attrs tensors weights predecessors input weight output order links nd ln :
  product_positive p -> transposition attrs p t -> precisions_plain attrs ->
  dget input tensors = Some (left_shape p t) -> dget output tensors = Some (result_shape p) ->
  (forall l, Permutation (order l) l) ->
  parse_gemm attrs tensors weights predecessors input weight output = Ok nd -> layer_node_of order links nd = Ok ln ->
  forall d, (exists op subs, In op (ln_operands ln) /\ get_r_layer_dims (disassembly (create_equation (nd_equation nd))) op = Ok subs /\ In d subs)
            <-> In d (keys (ln_sizes ln)).
Proof.
  intros P T Hp Hi Ho Op E B d.
  destruct (gemm_layer p t attrs tensors weights predecessors input weight output order links P T Hp Hi Ho Op)
    as (nd' & ln' & E' & B' & Q1 & Q2 & _ & (SO & SI & SW) & _).
  rewrite E in E'. injection E' as <-. rewrite B in B'. injection B' as <-. rewrite Q1, Q2. unfold keys. rewrite map_app.
  assert (K : map fst (combine (batch_loops p) (pd_batch p)) = batch_loops p).
  { unfold batch_loops. destruct (batch_cases p P) as [->|[(b & ->)|(b & h & ->)]]; reflexivity. }
  rewrite K. cbn [map fst]. split.
  - intros (op & subs & Hop & Hs & Hd). apply in_app_iff. destruct Hop as [<-|[<-|[<-|[]]]].
    + rewrite SO in Hs. injection Hs as <-. apply in_app_iff in Hd. destruct Hd as [Hd|Hd]; [now right|left; cbn in *; tauto].
    + rewrite SI in Hs. injection Hs as <-. apply in_app_iff in Hd. destruct Hd as [Hd|Hd]; [now right|left; cbn in *; tauto].
    + rewrite SW in Hs. injection Hs as <-. apply in_app_iff in Hd. destruct Hd as [Hd|Hd]; [|left; cbn in *; tauto].
      destruct (Nat.ltb predecessors 2); [destruct Hd|now right].
  - intros H. apply in_app_iff in H. destruct H as [[<-|[<-|[<-|[]]]]|H].
    + exists "I", (batch_loops p ++ ["D"; "C"]). split; [cbn; tauto|]. split; [exact SI|]. apply in_app_iff. cbn. tauto.
    + exists "O", (batch_loops p ++ ["D"; "K"]). split; [cbn; tauto|]. split; [exact SO|]. apply in_app_iff. cbn. tauto.
    + exists "O", (batch_loops p ++ ["D"; "K"]). split; [cbn; tauto|]. split; [exact SO|]. apply in_app_iff. cbn. tauto.
    + exists "O", (batch_loops p ++ ["D"; "K"]). split; [cbn; tauto|]. split; [exact SO|]. apply in_app_iff. now left.
Qed.

Lemma gemm_example : product_positive four_products /\ transposition [] four_products false /\
  transposition [("transA", AInt 1)] stored_transposed true /\
  (exists nd ln, parse_gemm [] [("a", [4; 8; 16]); ("y", [4; 8; 32])] [] 2 "a" "b" "y" = Ok nd /\ layer_node_of same_order [] nd = Ok ln /\
     nd_equation nd = "O[b][d][k]+=I[b][d][c]*W[b][c][k]" /\ ln_macs ln = 16384 /\ dget "W" (ln_size_elem ln) = Some 2048) /\
  (exists nd ln, parse_gemm [("transA", AInt 1)] [("a", [16; 8]); ("y", [8; 32])] [] 1 "a" "b" "y" = Ok nd /\ layer_node_of same_order [] nd = Ok ln /\
     nd_equation nd = "O[d][k]+=I[d][c]*W[c][k]" /\ ln_macs ln = 4096 /\ dget "I" (ln_size_elem ln) = Some 128).
Proof.
  split; [split; [cbn; lia|split; [intros n [<-|[]]; lia|cbn; lia]]|].
  split; [left; split; [left; reflexivity|reflexivity]|].
  split; [right; split; [exists 1; split; [reflexivity|lia]|split; reflexivity]|].
  split; eexists; eexists; (split; [vm_compute; reflexivity|]); (split; [vm_compute; reflexivity|]); (split; [reflexivity|]); split; reflexivity.
Qed.
