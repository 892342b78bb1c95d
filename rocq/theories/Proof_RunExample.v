(** Runs: a check of usable files, the descriptions that come with the project, and a small run. *)
From Coq Require Import QArith Ascii.
From Verif Require Import Base Model_Text Model_DataMove Model_Hierarchy Model_Layer Model_MapFile Model_WorkFile Model_AccelFile Model_Loma Model_Alloc Model_Cme Model_Run Shipped_Hardware Shipped_Workload
  Spec_Layer Spec_MapFile Spec_Graph Spec_Workload Spec_WorkFile Spec_AccelFile Spec_Hierarchy Spec_Run
  Proof_Cacti Proof_AccelFile Proof_MapFile Proof_WorkFile Proof_EvalExample Proof_SearchExample Proof_WorkFileExample.
Open Scope string_scope.
Open Scope list_scope.
Open Scope Z_scope.

(** * A check of accelerators *)

Definition numbered {A} (l : list A) : list (nat * A) := combine (seq 0 (length l)) l.
Lemma numbered_in {A} (l : list A) i x : nth_error l i = Some x <-> In (i, x) (numbered l).
Proof.
  unfold numbered. assert (G : forall (l : list A) k i x, nth_error l i = Some x <-> In ((k + i)%nat, x) (combine (seq k (length l)) l)); [|exact (G l 0%nat i x)].
  clear l i x. induction l as [|a l IH]; intros k i x; cbn [length seq combine In]; [destruct i; split; [discriminate|tauto|discriminate|tauto]|].
  destruct i as [|i]; cbn [nth_error].
  - split; [intros E; injection E as ->; left; f_equal; lia|]. intros [E|I]; [now injection E as _ ->|]. apply in_combine_l, in_seq in I. lia.
  - rewrite (IH (S k) i x). replace (S k + i)%nat with (k + S i)%nat by lia. split; [now right|]. intros [E|I]; [|exact I]. injection E as E _. lia.
Qed.

Definition above_b (f : raw_accel) (i : nat) (op : string) : bool := existsb (fun m => memb op (rm_operands m)) (skipn (S i) (memories f)).
Lemma above_b_spec f i op : above f i op -> above_b f i op = true.
Proof.
  intros (j & m & L & E & I). apply existsb_exists. exists m. split; [|now apply memb_In]. apply (nth_error_In _ (j - S i)).
  assert (G : forall (l : list raw_memory) n k, nth_error (skipn n l) k = nth_error l (n + k)).
  { induction l as [|a l IH]; intros [|n] k; try reflexivity; [destruct k; reflexivity|apply IH]. }
  rewrite G. replace (S i + (j - S i))%nat with j by lia. exact E.
Qed.
Definition says_text (op : string) (d : direction) : string := (op ++ ", " ++ direction_name d)%string.
Definition lists_b (p : raw_port) (op : string) (d : direction) : bool := memb (says_text op d) (rp_alloc p).
Lemma lists_b_spec p op d : lists_b p op d = true <-> lists p op d.
Proof.
  unfold lists_b. rewrite memb_In. split; [intros I; exists (says_text op d); split; [exact I|reflexivity]|]. intros (text & I & E). unfold says in E. now subst text.
Qed.
Definition directions : list direction := [RdLow; RdHigh; WrLow; WrHigh].
Definition movement_b (f : raw_accel) (i : nat) (op : string) (d : direction) : bool :=
  match d with RdLow => true | WrLow => eqb op "O" | WrHigh => above_b f i op | RdHigh => above_b f i op && eqb op "O" end.
Lemma movement_b_spec f i op d : movement f i op d -> movement_b f i op d = true.
Proof.
  intros [->|[(-> & ->)|(A & [->|(-> & ->)])]]; cbn [movement_b]; [reflexivity|reflexivity|now apply above_b_spec|]. rewrite (above_b_spec _ _ _ A). reflexivity.
Qed.
Definition moved_b (f : raw_accel) : bool :=
  forallb (fun im => forallb (fun op => forallb (fun d => negb (movement_b f (fst im) op d) || existsb (fun p => lists_b p op d) (rm_ports (snd im))) directions) (rm_operands (snd im))) (numbered (memories f)).
Definition order_b (f : raw_accel) : bool :=
  forallb (fun im => forallb (fun jm => negb (Nat.ltb (fst im) (fst jm)) || negb (existsb (fun op => memb op (rm_operands (snd jm))) (rm_operands (snd im))) ||
    Nat.leb (rank f (fst im) (snd im)) (rank f (fst jm) (snd jm))) (numbered (memories f))) (numbered (memories f)).
Definition accelerator_b (f : raw_accel) : bool :=
  match ra_imc (rf_array f) with Some true => false | _ => true end && match fails_with f with None => true | Some _ => false end &&
  nodup_b (ra_dims (rf_array f)) && forallb (fun n => 1 <=? n) (ra_sizes (rf_array f)) &&
  forallb (fun m => (0 <? rm_size m) && nodup_b (rm_operands m) && nodup_b (map rp_name (rm_ports m)) && forallb (fun p => 0 <? rp_min p) (rm_ports m)) (memories f) &&
  forallb (fun op => existsb (fun m => memb op (rm_operands m)) (memories f)) ["I1"; "I2"; "O"] && moved_b f && order_b f.
Lemma accelerator_b_spec f : accelerator_b f = true -> usable_accelerator f.
Proof.
  unfold accelerator_b. rewrite !Bool.andb_true_iff, !forallb_forall. intros (((((((H1 & H2) & H3) & H4) & H5) & H6) & H7) & H8).
  assert (R : ~ in_memory (rf_array f)) by (unfold in_memory; intros E; rewrite E in H1; discriminate).
  constructor.
  - unfold fails_with in H2. destruct (parse_accelerator no_bank no_area ex_sim 22 [] f) as [[a p']|] eqn:E; [|discriminate].
    destruct (proj1 (proj1 (regular_builds _ _ _ _ _ f p' R)) (ex_intro _ a E)) as (A & B & C & D & _). exact (conj A (conj B (conj C D))).
  - split; [now apply nodup_b_spec|]. intros n I. specialize (H4 n I). lia.
  - intros m I. specialize (H5 m I). rewrite !Bool.andb_true_iff, forallb_forall in H5. destruct H5 as (((A & B) & C) & D).
    split; [lia|]. split; [now apply nodup_b_spec|]. split; [now apply nodup_b_spec|]. intros p Ip. specialize (D p Ip). lia.
  - intros op I. specialize (H6 op I). apply existsb_exists in H6. destruct H6 as (m & Im & M). apply memb_In in M. now exists m.
  - intros i m op d E I M. unfold moved_b in H7. rewrite forallb_forall in H7. specialize (H7 _ (proj1 (numbered_in _ _ _) E)). cbn [fst snd] in H7.
    rewrite forallb_forall in H7. specialize (H7 op I). rewrite forallb_forall in H7. assert (Id : In d directions) by (destruct d; cbn; tauto). specialize (H7 d Id).
    rewrite (movement_b_spec _ _ _ _ M) in H7. cbn [negb orb] in H7. apply existsb_exists in H7. destruct H7 as (p & Ip & L). exists p. split; [exact Ip|now apply lists_b_spec].
  - intros i j m m' op L E E' I I'. unfold order_b in H8. rewrite forallb_forall in H8. specialize (H8 _ (proj1 (numbered_in _ _ _) E)). cbv beta in H8.
    rewrite forallb_forall in H8. specialize (H8 _ (proj1 (numbered_in _ _ _) E')). cbn [fst snd] in H8.
    rewrite (proj2 (Nat.ltb_lt i j) L) in H8. cbn [negb orb] in H8. apply orb_prop in H8. destruct H8 as [H8|H8]; [|now apply Nat.leb_le].
    exfalso. apply Bool.negb_true_iff in H8. rewrite <- Bool.not_true_iff_false in H8. apply H8. apply existsb_exists. exists op. split; [exact I|now apply memb_In].
Qed.

(** * ... of layers, with their meaning as in C76 *)

Definition usable_layer_b (r : raw_layer) : bool :=
  let m := meaning_of r in let e := fst (fst m) in let ws := snd (fst m) in let loops := snd m in
  shipped_b r && (same_b (map wr_name (operands_of e)) ["O"; "I"; "W"] || same_b (map wr_name (operands_of e)) ["O"; "W"; "I"]) &&
  match loops with [] => false | _ => true end &&
  forallb (fun w => negb (memb (upper (wl_1 w) ++ "_R")%string (map fst loops)) && negb (memb (upper (wl_1 w) ++ "_IR")%string (map fst loops)) && negb (memb (upper (wl_1 w)) (dims_of (we_out e)))) ws &&
  nodup_b (flat_map (fun w => [upper (wt_dim (wl_2 w)); upper (wt_dim (wl_3 w))]) ws) &&
  forallb (fun kn => 0 <=? snd kn) (default [] (rl_precision r)).
Lemma nodup_flat_map {A B} (g : A -> list B) l x y d : NoDup (flat_map g l) -> In x l -> In y l -> In d (g x) -> In d (g y) -> x = y.
Proof.
  induction l as [|a l IH]; [intros _ []|]. cbn [flat_map]. intros N Ix Iy Dx Dy.
  assert (D : forall z, In d (g a) -> In z l -> In d (g z) -> False).
  { intros z I1 Iz I2. revert N I1. clear -Iz I2. induction (g a) as [|b bs IHb]; [intros _ []|]. cbn [app]. intros N. inversion N as [|? ? N1 N2 E]. subst. intros [->|I1]; [|now apply IHb].
    apply N1, in_or_app. right. apply in_flat_map. now exists z. }
  destruct Ix as [->|Ix], Iy as [->|Iy]; [reflexivity|exfalso; eauto|exfalso; eauto|]. apply IH; try assumption. clear -N. induction (g a) as [|b bs IHb]; [exact N|]. inversion N. subst. now apply IHb.
Qed.
Lemma usable_layer_b_spec r : usable_layer_b r = true -> usable_layer r (fst (fst (meaning_of r))) (snd (fst (meaning_of r))) (snd (meaning_of r)).
Proof.
  unfold usable_layer_b. cbv zeta. rewrite !Bool.andb_true_iff, !forallb_forall. intros (((((H1 & H2) & H3) & H4) & H5) & H6). destruct (shipped_b_spec r H1) as (P & Se).
  constructor.
  - exact (proper_written r P).
  - exact Se.
  - apply orb_prop in H2. destruct H2 as [H|H]; apply same_b_spec in H; auto.
  - intros E. rewrite E in H3. discriminate.
  - intros d w Id Iw. specialize (H4 w Iw). rewrite !Bool.andb_true_iff, !Bool.negb_true_iff in H4. destruct H4 as ((A & B) & _).
    split; intros ->; apply memb_In in Id; congruence.
  - intros w w' d Iw Iw' U U'. apply nodup_b_spec in H5. apply (nodup_flat_map _ _ _ _ d H5 Iw Iw'); cbn [In]; [destruct U; auto|destruct U'; auto].
  - intros w Iw I. specialize (H4 w Iw). rewrite !Bool.andb_true_iff, !Bool.negb_true_iff in H4. destruct H4 as (_ & C). apply memb_In in I. congruence.
  - intros d k n E I. rewrite E in H6. cbn [default] in H6. specialize (H6 _ I). cbn [snd] in H6. lia.
Qed.

(** * ... of entries of mapping files *)

Definition is_o (o : option string) (x : string) : bool := match o with Some y => eqb y x | None => false end.
Lemma is_o_spec o x : is_o o x = true -> o = Some x.
Proof. destruct o; [|discriminate]. cbn [is_o]. intros H. f_equal. now apply eqb_true. Qed.
Definition usable_entry_b (f : raw_accel) (en : entry) : bool :=
  match en_spatial en with
  | None => true
  | Some user => forallb (fun ot => memb (fst ot) (ra_dims (rf_array f)) && forallb (fun t => match read_unrolling t with Ok u => 1 <=? snd u | Err _ => true end) (snd ot)) user
  end &&
  (is_o (dget "O" (en_links en)) "O" && (is_o (dget "I" (en_links en)) "I1" && is_o (dget "W" (en_links en)) "I2" || is_o (dget "I" (en_links en)) "I2" && is_o (dget "W" (en_links en)) "I1")) &&
  forallb (fun x => match snd x with inl n => 1 <=? n | inr _ => true end) (en_ordering en).
Lemma usable_entry_b_spec f en : usable_entry_b f en = true -> usable_entry f en.
Proof.
  unfold usable_entry_b. rewrite !Bool.andb_true_iff. intros ((H1 & (H2 & H3)) & H4). split; [|split].
  - intros user oa texts E I. rewrite E, forallb_forall in H1. specialize (H1 _ I). cbn [fst snd] in H1. apply andb_prop in H1. destruct H1 as (A & B). split; [now apply memb_In|].
    rewrite forallb_forall in B. intros text u It U. specialize (B text It). rewrite (proj2 (unrolls_fits _ _ U)) in B. lia.
  - split; [now apply is_o_spec|]. apply orb_prop in H3. destruct H3 as [H|H]; apply andb_prop in H; destruct H; [left|right]; split; now apply is_o_spec.
  - intros d n I. rewrite forallb_forall in H4. specialize (H4 _ I). cbn [snd] in H4. lia.
Qed.
Definition one_element_b (f : raw_accel) (links : dict string string) (precision : dict string Z) : bool :=
  forallb (fun im => negb (forallb (fun op => Nat.eqb (below f (fst im) op) 0) (rm_operands (snd im))) ||
    forallb (fun lo => match dget (fst lo) precision with
      | Some n => negb (memb (snd lo) (rm_operands (snd im))) ||
          (n <=? rm_size (snd im)) && forallb (fun p => negb (lists_b p (snd lo) (if string_dec (fst lo) "O" then WrLow else RdLow)) || (n <=? rp_max p)) (rm_ports (snd im))
      | None => true end) links) (numbered (memories f)).
Lemma one_element_b_spec f links precision : one_element_b f links precision = true -> one_element f links precision.
Proof.
  unfold one_element_b. rewrite forallb_forall. intros H m op mem_op n (i & Em & B) El Im En. specialize (H _ (proj1 (numbered_in _ _ _) Em)). cbn [fst snd] in H.
  apply orb_prop in H. destruct H as [H|H].
  - exfalso. apply Bool.negb_true_iff in H. rewrite <- Bool.not_true_iff_false in H. apply H. apply forallb_forall. intros o Io. apply Nat.eqb_eq. now apply B.
  - rewrite forallb_forall in H. specialize (H (op, mem_op) (dget_In _ _ _ El)). cbn [fst snd] in H. rewrite En in H. rewrite (proj2 (memb_In _ _) Im) in H. cbn [negb orb] in H. apply andb_prop in H. destruct H as (A & C).
    split; [lia|]. rewrite forallb_forall in C. intros p Ip L. specialize (C p Ip). rewrite (proj2 (lists_b_spec _ _ _) L) in C. cbn [negb orb] in C. lia.
Qed.

(** * ... of all together *)

Definition candidates (r : raw_layer) : list string := [called r; default "" (rl_type r); "default"].
Definition files_b (hardware : raw_accel) (workload : list raw_layer) (mapping : list raw_entry) : bool :=
  accelerator_b hardware && forallb usable_layer_b workload && earlier_b (Spec_WorkFile.described workload) &&
  (forallb entry_b mapping && match parse_mapping mapping with Ok _ => true | Err _ => false end) &&
  forallb (fun r => forallb (fun en => negb (memb (en_name en) (candidates r)) || usable_entry_b hardware en && one_element_b hardware (en_links en) (default [] (rl_precision r))) (map normalise mapping)) workload.
Lemma files_b_spec hardware workload mapping : files_b hardware workload mapping = true -> usable_files hardware workload mapping (map meaning_of workload).
Proof.
  unfold files_b. rewrite !Bool.andb_true_iff. intros ((((H1 & H2) & H3) & (H4 & H5)) & H6). rewrite forallb_forall in H2, H6. constructor.
  - now apply accelerator_b_spec.
  - intros r I. specialize (H2 r I). unfold usable_layer_b in H2. cbv zeta in H2. rewrite !Bool.andb_true_iff in H2. exact (proj1 (shipped_b_spec r (proj1 (proj1 (proj1 (proj1 (proj1 H2))))))).
  - clear -H2. induction workload as [|r l IH]; [constructor|]. cbn [map]. constructor; [apply usable_layer_b_spec, H2; now left|]. apply IH. intros x I. apply H2. now right.
  - now apply earlier_b_spec.
  - split; [now apply entries_proper|]. destruct (parse_mapping mapping) as [d|]; [now exists d|discriminate].
  - intros r t p en I Et Ep C. specialize (H6 r I). rewrite forallb_forall in H6.
    assert (G : In en (map normalise mapping) /\ In (en_name en) (candidates r)).
    { unfold candidates. rewrite Et. cbn [default].
      assert (F : forall nm, first_named nm (map normalise mapping) en -> In en (map normalise mapping) /\ en_name en = nm) by (intros nm (l1 & l2 & -> & N & _); split; [apply in_elt|exact N]).
      destruct C as [C|[(_ & C)|(_ & _ & C)]]; destruct (F _ C) as (Ie & ->); (split; [exact Ie|cbn; tauto]). }
    destruct G as (Ie & Ic). specialize (H6 en Ie). rewrite (proj2 (memb_In _ _) Ic) in H6. cbn [negb orb] in H6. apply andb_prop in H6. destruct H6 as (A & B). rewrite Ep in B. cbn [default] in B.
    split; [now apply usable_entry_b_spec|now apply one_element_b_spec].
Qed.

(** * The descriptions that come with the project *)

Definition regular_hardware : list raw_accel :=
  [ascend_like; edge_tpu_like; eyeriss_like; gemm_l1; gemm_l1_l3; generic_array_cacti; meta_prototype; tesla_npu_like; tpu_like].
Lemma regular_checked : forallb accelerator_b regular_hardware = true.
Proof. vm_compute. reflexivity. Qed.
Lemma regular_usable f : In f regular_hardware -> usable_accelerator f.
Proof. intros I. apply accelerator_b_spec. exact (proj1 (forallb_forall _ _) regular_checked f I). Qed.

Definition shipped_runs : list (raw_accel * list raw_layer * list raw_entry) :=
  [(ascend_like, resnet18, ascend_like_mapping); (ascend_like, resnet18, ascend_like_mixed_mapping); (edge_tpu_like, resnet18, edge_tpu_like_mapping);
   (edge_tpu_like, resnet18, edge_tpu_like_mixed_mapping); (meta_prototype, resnet18, meta_prototype_like_mapping); (meta_prototype, resnet18, meta_prototype_like_mixed_mapping);
   (tesla_npu_like, resnet18, tesla_npu_like_mapping); (tesla_npu_like, resnet18, tesla_npu_like_mixed_mapping); (tpu_like, resnet18, tpu_like_mapping);
   (tpu_like, resnet18, tpu_like_mixed_mapping); (eyeriss_like, resnet18, default_mapping); (gemm_l1, resnet18, default_mapping); (gemm_l1_l3, resnet18, default_mapping);
   (generic_array_cacti, resnet18, default_mapping); (gemm_l1, gemm_layer, gemm_l1_mapping); (gemm_l1_l3, gemm_layer, gemm_l1_l3_mapping)].
Lemma runs_checked : forallb (fun x => files_b (fst (fst x)) (snd (fst x)) (snd x)) shipped_runs = true.
Proof. vm_compute. reflexivity. Qed.
Lemma runs_usable f w m : In (f, w, m) shipped_runs -> usable_files f w m (map meaning_of w).
Proof. intros I. apply files_b_spec. exact (proj1 (forallb_forall _ _) runs_checked (f, w, m) I). Qed.
(** Costs are written. *)
Lemma written_costs sim tech known (ms : list raw_memory) : (forall m, In m ms -> rm_auto m <> Some true /\ rm_read m <> None /\ rm_write m <> None /\ rm_area m <> None) ->
  exists cs p', priced sim tech known ms cs p'.
Proof.
  induction ms as [|m ms IH]; intros H; [do 2 eexists; constructor|]. destruct IH as (cs & p' & P); [intros x I; apply H; now right|].
  destruct (H m (or_introl eq_refl)) as (A & B & C & D). destruct (rm_read m) as [r|] eqn:E1; [|congruence]. destruct (rm_write m) as [w|] eqn:E2; [|congruence]. destruct (rm_area m) as [u|] eqn:E3; [|congruence].
  do 2 eexists. eapply priced_written; eassumption.
Qed.
Definition written_b (m : raw_memory) : bool :=
  match rm_auto m with Some true => false | _ => true end && match rm_read m, rm_write m, rm_area m with Some _, Some _, Some _ => true | _, _, _ => false end.
Lemma written_b_spec sim tech known f : forallb written_b (memories f) = true -> exists cs p', priced sim tech known (memories f) cs p'.
Proof.
  rewrite forallb_forall. intros H. apply written_costs. intros m I. specialize (H m I). unfold written_b in H. apply andb_prop in H. destruct H as (A & B).
  split; [intros E; rewrite E in A; discriminate|]. destruct (rm_read m), (rm_write m), (rm_area m); try discriminate. split; [|split]; discriminate.
Qed.

(** * A run of two layers, the second of which reads what the first writes *)

Definition small_gemm (i : Z) (sizes : list Z) (source : dict string Z) : raw_layer :=
  mkRawLayer (Some i) None (Some "Gemm") (Some "O[d0][d1]+=I[d0][d2]*W[d2][d1]") (Some []) (Some ["D0"; "D1"; "D2"]) (Some sizes)
    (Some [("W", 8); ("I", 8); ("O", 32); ("O_final", 8)]) (Some source) None None None.
Definition two_layers : list raw_layer := [small_gemm 3 [32; 8; 64] [("I", 3); ("W", 3)]; small_gemm 5 [32; 48; 8] [("I", 3); ("W", 5)]].
Definition gemm_entry : list raw_entry := [mkRaw (Some "default") (Some (Some [("D1", ["D0, 8"]); ("D2", ["D2, 8"]); ("D3", ["D1, 8"])])) None None None].
Definition first_dim (_ : string) (m : dict string Q) : string := hd "" (keys m).
Definition first_oa (d : string) (sm : dict string (dict string Q)) : string := hd "" (keys (filter (fun om => dmem d (snd om)) sm)).
Definition plain_run (hardware : raw_accel) (workload : list raw_layer) (mapping : list raw_entry) (opt : string) :=
  run (fun l => l) (fun l => l) (fun l => l) (fun l => l) first_dim first_oa factorint_td None UNEVEN false 2 false 100 100 (fun l => l) no_bank no_area ex_sim 22 [] hardware workload mapping opt.
(** Energy, latency and the order of the layers *)
Definition shown {A B C} (r : result (Q * Q * list (eval * list (A * (B * C))))) : result (Q * Q * list (list B)) :=
  match r with Ok (e, l, cs) => Ok (Qred e, Qred l, map (fun r => map (fun x => fst (snd x)) (snd r)) cs) | Err x => Err x end.

(** * Chains of buffers with shared ports (C80), written as files *)

Definition port_written (p : portspec) : raw_port :=
  mkRawPort (ps_name p) (match ps_type p with PRead => "read" | PWrite => "write" | PReadWrite => "read_write" end) (ps_bw_min p) (ps_bw_max p)
    (map (fun x => (fst x ++ ", " ++ snd x)%string) (ps_alloc p)).
Definition memory_written (m : memspec) : raw_memory :=
  mkRawMemory (ms_size m) (Some (ms_r_cost m)) (Some (ms_w_cost m)) (Some 1%Q) None None (ms_operands m) (map port_written (ms_ports m)) (ms_served m).
Definition chain_file (ms : list memspec) : raw_accel :=
  mkRawAccel "chain" (map (fun m => ("memory", memory_written m)) ms) (mkRawArray ["D1"] None [1] (Some [8; 8]) (Some (1 # 10)%Q) (Some (1 # 1)%Q) None None None) None.
Definition small_conv : raw_layer :=
  mkRawLayer (Some 0) None (Some "Conv") (Some "O[b][k][oy][ox]+=W[k][c][fy][fx]*I[b][c][iy][ix]") (Some ["ix=1*ox+1*fx"; "iy=1*oy+1*fy"])
    (Some ["B"; "K"; "C"; "OY"; "OX"; "FY"; "FX"]) (Some [1; 2; 2; 1; 4; 1; 3]) (Some [("W", 8); ("I", 8); ("O", 16); ("O_final", 8)]) (Some [("I", 0); ("W", 0)]) None None None.
Definition plain_mapping : list raw_entry := [mkRaw (Some "default") None None None None].
Definition zero_file : raw_accel := chain_file (small_accelerator zero_widths).
Definition negative_file : raw_accel := chain_file (small_accelerator negative_widths).
(** a single memory *)
Definition little_file : raw_accel := chain_file [with_size 64 ex_external].
Lemma zero_usable : usable_files zero_file [small_conv] plain_mapping (map meaning_of [small_conv]).
Proof. apply files_b_spec. vm_compute. reflexivity. Qed.
Lemma negative_usable : usable_files negative_file [small_conv] plain_mapping (map meaning_of [small_conv]).
Proof. apply files_b_spec. vm_compute. reflexivity. Qed.
Lemma little_usable : usable_files little_file [small_conv] plain_mapping (map meaning_of [small_conv]).
Proof. apply files_b_spec. vm_compute. reflexivity. Qed.
Lemma two_usable : usable_files gemm_l1 two_layers gemm_entry (map meaning_of two_layers).
Proof. apply files_b_spec. vm_compute. reflexivity. Qed.
Lemma two_priced sim tech known : exists cs p', priced sim tech known (memories gemm_l1) cs p'.
Proof. apply written_b_spec. vm_compute. reflexivity. Qed.

(** * With an order of loops *)
Definition ordered_entry (o : list (string * (Z + string))) : list raw_entry :=
  [mkRaw (Some "default") (Some (Some [("D1", ["D0, 8"]); ("D2", ["D2, 8"]); ("D3", ["D1, 8"])])) None None (Some o)].
Definition first_layer : list raw_layer := firstn 1 two_layers.
Lemma ordered_usable : usable_files gemm_l1 first_layer (ordered_entry [("d0", inl 2); ("d2", inl 8); ("d0", inl 2); ("ox", inl 7)]) (map meaning_of first_layer).
Proof. apply files_b_spec. vm_compute. reflexivity. Qed.
Lemma misordered_usable : usable_files gemm_l1 first_layer (ordered_entry [("d0", inl 3)]) (map meaning_of first_layer).
Proof. apply files_b_spec. vm_compute. reflexivity. Qed.
