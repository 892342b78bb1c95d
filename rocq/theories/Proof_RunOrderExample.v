(** Runs that C87 covers, and runs that depend on the order in which sets are visited. *)
From Coq Require Import QArith Lia.
From Verif Require Import Base Model_Alloc Model_DataMove Model_Loma Model_MapFile Model_Cacti Model_AccelFile Model_WorkFile Model_Run Model_Onnx Model_OnnxRun Shipped_Hardware Shipped_Workload
  Spec_MapFile Spec_AccelFile Spec_SpatialMap Spec_WorkFile Spec_Workload Spec_Run Spec_OnnxRun Spec_RunOrder
  Proof_LomaFactors Proof_Cacti Proof_AccelFile Proof_WorkFileExample Proof_EvalExample Proof_RunHardware Proof_RunExample Proof_OnnxExample.
Open Scope string_scope.
Open Scope list_scope.
Open Scope Z_scope.

(** * Checks *)

Definition nothing_b (mapping : list raw_entry) : bool := forallb (fun en => match en_spatial en with Some (_ :: _) => false | _ => true end) (map normalise mapping).
Lemma nothing_b_spec mapping : nothing_b mapping = true -> unrolls_nothing mapping.
Proof. intros H en user I E. assert (A := proj1 (forallb_forall _ _) H en I). cbv beta in A. rewrite E in A. destruct user; [reflexivity|discriminate]. Qed.

Definition element_each_b (f : raw_accel) (links : dict string string) (precision : dict string Z) : bool :=
  forallb (fun im => negb (forallb (fun op => Nat.eqb (below f (fst im) op) 0) (rm_operands (snd im))) ||
    forallb (fun lo => match dget (fst lo) precision with
      | Some n => negb (memb (snd lo) (rm_operands (snd im))) || (n * served_units f (snd im) <=? rm_size (snd im))
      | None => true end) links) (numbered (memories f)).
Lemma element_each_b_spec f links precision : element_each_b f links precision = true -> element_each f links precision.
Proof.
  unfold element_each_b. rewrite forallb_forall. intros H m op mem_op n (i & Em & B) El Im En. specialize (H _ (proj1 (numbered_in _ _ _) Em)). cbn [fst snd] in H.
  apply orb_prop in H. destruct H as [H|H].
  - exfalso. apply Bool.negb_true_iff in H. rewrite <- Bool.not_true_iff_false in H. apply H. apply forallb_forall. intros o Io. apply Nat.eqb_eq. now apply B.
  - rewrite forallb_forall in H. specialize (H (op, mem_op) (dget_In _ _ _ El)). cbn [fst snd] in H. rewrite En in H. rewrite (proj2 (memb_In _ _) Im) in H. cbn [negb orb] in H. lia.
Qed.

Definition roomy_b (hardware : raw_accel) (rs : list raw_layer) (mapping : list raw_entry) : bool :=
  forallb (fun r => forallb (fun en => element_each_b hardware (en_links en) (default [] (rl_precision r))) (map normalise mapping)) rs.
Lemma chosen_in nm t ens en : Spec_MapFile.chosen nm t ens en -> In en ens.
Proof. intros [(pre & post & -> & _)|[(_ & pre & post & -> & _)|(_ & _ & pre & post & -> & _)]]; apply in_elt. Qed.
Lemma roomy_b_spec hardware rs mapping : roomy_b hardware rs mapping = true -> roomy_files hardware rs mapping.
Proof.
  intros H r t p en I _ Ep Ch. assert (A := proj1 (forallb_forall _ _) H r I). cbv beta in A. assert (B := proj1 (forallb_forall _ _) A en (chosen_in _ _ _ _ Ch)). rewrite Ep in B. now apply element_each_b_spec.
Qed.

Definition roomy_model_b (hardware : raw_accel) (m : onnx_model) (mapping : list raw_entry) (meaning : list (option operator)) : bool :=
  forallb (fun inx => match inx with
    | (i, (n, Some o)) => roomy_b hardware [node_as i n (feeding (graph_of m) i) (taken_as o)] mapping
    | _ => true end) (numbered (combine (om_nodes m) meaning)).
Lemma roomy_model_b_spec hardware m mapping meaning : roomy_model_b hardware m mapping meaning = true -> roomy_model hardware m mapping meaning.
Proof.
  intros H i o r t p en (n & En & Ex & ->) Et Ep Ch. assert (A := proj1 (forallb_forall _ _) H _ (proj1 (numbered_in _ _ _) (combine_nth _ _ _ _ _ En Ex))). cbv iota beta in A.
  exact (roomy_b_spec _ _ _ A _ t p en (or_introl eq_refl) Et Ep Ch).
Qed.

(** * Ways of visiting sets *)

Definition last_dim (_ : string) (m : dict string Q) : string := last (keys m) "".
Lemma first_dim_picks : picks_dim first_dim.
Proof. intros o [|(d, u) m] N; [congruence|now left]. Qed.
Lemma last_dim_picks : picks_dim last_dim.
Proof.
  intros o m N. unfold last_dim. assert (E : keys m <> []) by (unfold keys; intros Q; apply N; now apply map_eq_nil in Q).
  rewrite (app_removelast_last "" E) at 2. apply in_or_app. right. now left.
Qed.
Lemma same_orders : orders (fun l => l).
Proof. intros l. apply Permutation_refl. Qed.
Lemma reverse_orders : orders (@rev string).
Proof. intros l. apply Permutation_rev. Qed.
Definition run_with (dim_order visit : list string -> list string) (pick_dim : string -> dict string Q -> string) (hardware : raw_accel) (workload : list raw_layer) (mapping : list raw_entry) (opt : string) :=
  run (fun l => l) (fun l => l) dim_order visit pick_dim first_oa factorint_td (Some 3) UNEVEN false 1 false 100 100 (fun l => l) no_bank no_area ex_sim 22 [] hardware workload mapping opt.
Definition model_with (dim_order visit : list string -> list string) (pick_dim : string -> dict string Q -> string) (hardware : raw_accel) (m : onnx_model) (mapping : list raw_entry) (opt : string) :=
  run_onnx (fun l => l) (fun l => l) dim_order visit pick_dim first_oa factorint_td (Some 5) UNEVEN false 2 false 100 100 (fun l => l) no_bank no_area ex_sim 22 [] hardware m mapping opt.

(** * Too many unrollings on one array dimension *)

Definition product_layer : raw_layer := small_gemm 0 [16; 32; 8] [("I", 0); ("W", 0)].
Definition crowded : list raw_entry := [mkRaw (Some "default") (Some (Some [("D1", ["D0, 4"; "D1, 4"]); ("D2", ["D2, 8"]); ("D3", ["D1, 8"])])) None None None].
Lemma crowded_usable : usable_files gemm_l1 [product_layer] crowded (map meaning_of [product_layer]).
Proof. apply files_b_spec. vm_compute. reflexivity. Qed.

(** * Output registers with room for [n] bits, shared by 16 units *)

Definition shared_by_16 (n : Z) : raw_accel := mkRawAccel "shared"
  [("reg_O", mkRawMemory n (Some (1 # 50)) (Some (1 # 50)) (Some (0 # 1)) None (Some false)
      ["O"]
      [mkRawPort "w_port_1" "write" 64 64 ["O, fh"];
       mkRawPort "r_port_1" "read" 64 64 ["O, tl"];
       mkRawPort "w_port_2" "write" 64 64 ["O, fl"];
       mkRawPort "r_port_2" "read" 64 64 ["O, th"]]
      ["D1"; "D2"]);
   ("l1", mkRawMemory 4194304 (Some (229 # 10)) (Some (5201 # 100)) (Some (0 # 1)) None None
      ["I1"; "I2"; "O"]
      [mkRawPort "rw_port_1" "read_write" 64 512 ["I1, tl"];
       mkRawPort "rw_port_2" "read_write" 64 512 ["I2, tl"];
       mkRawPort "rw_port_3" "read_write" 64 2048 ["O, tl"; "O, fl"]]
      ["D1"; "D2"])]
  (mkRawArray ["D1"; "D2"] None [4; 4] None (Some (1 # 25)) (Some (1 # 1)) None None None) None.
Definition byte_layer (sizes : list Z) (weight : Z) : raw_layer :=
  mkRawLayer (Some 0) None (Some "Gemm") (Some "O[d0][d1]+=I[d0][d2]*W[d2][d1]") (Some []) (Some ["D0"; "D1"; "D2"]) (Some sizes)
    (Some [("W", weight); ("I", 8); ("O", 8); ("O_final", 8)]) (Some [("I", 0); ("W", 0)]) None None None.
Definition twelve : list raw_entry := [mkRaw (Some "default") (Some (Some [("D1", ["D0, 4"]); ("D2", ["D1, 3"])])) None None None].
Lemma twelve_usable : usable_files (shared_by_16 64) [byte_layer [8; 6; 4] 8] twelve (map meaning_of [byte_layer [8; 6; 4] 8]).
Proof. apply files_b_spec. vm_compute. reflexivity. Qed.
(** The candidates of an array dimension are given as a set. *)
Definition hinted : list raw_entry := [mkRaw (Some "default") None None (Some [("D1", ["D0"; "D1"]); ("D2", ["D2"])]) None].
Lemma hinted_usable : usable_files (shared_by_16 64) [byte_layer [8; 4; 4] 64] hinted (map meaning_of [byte_layer [8; 4; 4] 64]).
Proof. apply files_b_spec. vm_compute. reflexivity. Qed.
Lemma hinted_nothing : unrolls_nothing hinted.
Proof. apply nothing_b_spec. vm_compute. reflexivity. Qed.

(** * Reproducible runs *)

Lemma roomy_usable : usable_files (shared_by_16 128) [byte_layer [8; 6; 4] 8] plain_mapping (map meaning_of [byte_layer [8; 6; 4] 8]).
Proof. apply files_b_spec. vm_compute. reflexivity. Qed.
Lemma roomy_each : roomy_files (shared_by_16 128) [byte_layer [8; 6; 4] 8] plain_mapping.
Proof. apply roomy_b_spec. vm_compute. reflexivity. Qed.
Lemma plain_nothing : unrolls_nothing plain_mapping.
Proof. apply nothing_b_spec. vm_compute. reflexivity. Qed.
Lemma roomy_model_usable : usable_model (shared_by_16 256) small_model plain_mapping small_meaning.
Proof. apply model_b_spec. vm_compute. reflexivity. Qed.
Lemma roomy_model_each : roomy_model (shared_by_16 256) small_model plain_mapping small_meaning.
Proof. apply roomy_model_b_spec. vm_compute. reflexivity. Qed.
(** Accelerators that come with the project, with the layers of resnet18 *)
Definition reproducible_hardware : list raw_accel := [tpu_like; eyeriss_like; generic_array_cacti].
Lemma reproducible_checked : forallb (fun f => files_b f resnet18 plain_mapping && roomy_b f resnet18 plain_mapping) reproducible_hardware = true.
Proof. vm_compute. reflexivity. Qed.
Lemma shipped_reproducible f : In f reproducible_hardware -> usable_files f resnet18 plain_mapping (map meaning_of resnet18) /\ roomy_files f resnet18 plain_mapping.
Proof.
  intros I. assert (A := proj1 (forallb_forall _ _) reproducible_checked f I). cbv beta in A. apply andb_prop in A. destruct A as (A & B). split; [now apply files_b_spec|now apply roomy_b_spec].
Qed.
