(** Runs that meet the floors of C86, and ones that do not. *)
From Coq Require Import QArith Lia.
From Verif Require Import Base Model_Alloc Model_DataMove Model_Loma Model_MapFile Model_Cacti Model_AccelFile Model_WorkFile Model_Run Shipped_Hardware
  Spec_MapFile Spec_AccelFile Spec_WorkFile Spec_Run Spec_RunFloor Proof_LomaFactors Proof_Cacti Proof_AccelFile Proof_WorkFileExample Proof_EvalExample Proof_RunHardware Proof_RunExample Proof_OnnxExample.
Open Scope string_scope.
Open Scope list_scope.
Open Scope Z_scope.

(** * Checks *)

Definition port_alone (p : raw_port) : bool := (length (rp_alloc p) <=? 1)%nat.
Definition movement_alone (m : raw_memory) : bool := forallb port_alone (rm_ports m).
Lemma str_length_app (a b : string) : String.length (a ++ b) = (String.length a + String.length b)%nat.
Proof. induction a as [|x a IH]; [reflexivity|]. cbn. now rewrite IH. Qed.
Lemma alone_spec f : forallb movement_alone (memories f) = true -> one_movement f.
Proof.
  intros H m p op d op' d' Im Ip (t & It & St) (t' & It' & St'). assert (A := proj1 (forallb_forall _ _) H m Im). assert (B := proj1 (forallb_forall _ _) A p Ip).
  unfold port_alone in B. apply Nat.leb_le in B. destruct (rp_alloc p) as [|x [|y l]]; [destruct It| |cbn [length] in B; lia]. destruct It as [<-|[]], It' as [<-|[]].
  unfold says in St, St'. rewrite St in St'. assert (L : String.length op = String.length op').
  { apply (f_equal String.length) in St'. rewrite !str_length_app in St'. destruct d, d'; cbn in St'; lia. }
  apply append_cut in St'; [|exact L]. destruct St' as (-> & St'). split; [reflexivity|]. destruct d, d'; (discriminate St' || reflexivity).
Qed.

Definition no_order (mapping : list raw_entry) : bool := forallb (fun en => match en_ordering en with [] => true | _ => false end) (map normalise mapping).
Lemma no_order_spec mapping : no_order mapping = true -> ~ orders_loops mapping.
Proof. intros H (en & I & N). assert (A := proj1 (forallb_forall _ _) H en I). cbv beta in A. destruct (en_ordering en); [congruence|discriminate]. Qed.

Definition not_negative (o : option Q) : bool := match o with Some q => Qle_bool 0 q | None => true end.
Definition priced_b (m : raw_memory) : bool := written_b m && not_negative (rm_read m) && not_negative (rm_write m).
Lemma priced_b_spec sim tech known f : forallb priced_b (memories f) = true -> no_negative_price sim tech known f.
Proof.
  intros H cs p' P. induction P as [|p m ms r w a cs p' Na Er Ew Ea P IH|p m ms q r w a p1 ran cs p' Au As G P IH]; [intros ? ? ? []| |].
  - cbn [forallb] in H. apply andb_prop in H. destruct H as (Hm & H). intros r' w' a' [Q|I]; [|exact (IH H r' w' a' I)]. injection Q as <- <- <-.
    unfold priced_b in Hm. rewrite Er, Ew in Hm. apply andb_prop in Hm. destruct Hm as (Hm & H2). apply andb_prop in Hm. destruct Hm as (_ & H1). split; now apply Qle_bool_iff.
  - exfalso. cbn [forallb] in H. apply andb_prop in H. destruct H as (Hm & _). unfold priced_b, written_b in Hm. unfold automatic in Au. rewrite Au in Hm. discriminate Hm.
Qed.

(** * One multiplier *)

Definition one_unit : raw_accel := chain_file ex_accelerator.
Lemma one_unit_usable : usable_files one_unit [small_conv] plain_mapping (map meaning_of [small_conv]).
Proof. apply files_b_spec. vm_compute. reflexivity. Qed.
Lemma one_unit_priced : no_negative_price ex_sim 22 [] one_unit.
Proof. apply priced_b_spec. vm_compute. reflexivity. Qed.
Lemma one_unit_alone : one_movement one_unit.
Proof. apply alone_spec. vm_compute. reflexivity. Qed.
Lemma plain_unordered : ~ orders_loops plain_mapping.
Proof. apply no_order_spec. vm_compute. reflexivity. Qed.

(** * A given loop ordering with a limit on the number of factors *)

Definition tall_layer : raw_layer :=
  mkRawLayer (Some 0) None (Some "Gemm") (Some "O[d0][d1]+=I[d0][d2]*W[d2][d1]") (Some []) (Some ["D0"; "D1"; "D2"]) (Some [32; 1; 1])
    (Some [("W", 8); ("I", 8); ("O", 16); ("O_final", 8)]) (Some [("I", 0); ("W", 0)]) None None None.
Definition ordered_mapping : list raw_entry := [mkRaw (Some "default") None None None (Some [("d0", inl 4); ("d0", inl 4)])].
Definition limited_run (n : Z) (hardware : raw_accel) (workload : list raw_layer) (mapping : list raw_entry) (opt : string) :=
  run (fun l => l) (fun l => l) (fun l => l) (fun l => l) first_dim first_oa factorint_td (Some n) UNEVEN false 2 false 100 100 (fun l => l) no_bank no_area ex_sim 22 [] hardware workload mapping opt.
Lemma ordered_usable : usable_files one_unit [tall_layer] ordered_mapping (map meaning_of [tall_layer]).
Proof. apply files_b_spec. vm_compute. reflexivity. Qed.

(** * The accelerator that comes with the project *)

Lemma gemm_priced : no_negative_price ex_sim 22 [] gemm_l1.
Proof. apply priced_b_spec. vm_compute. reflexivity. Qed.
Lemma onnx_unordered : ~ orders_loops onnx_mapping.
Proof. apply no_order_spec. vm_compute. reflexivity. Qed.
