(** Mapping files (C47). *)
From Verif Require Import Base Model_Text Model_Layer Model_MapFile Spec_Layer Spec_MapFile Proof_MapFile.
Open Scope string_scope.
Open Scope list_scope.
Open Scope Z_scope.

(** The entry used is the one of the layer's name, else of its operator type, else the
    default. *)
Theorem C47_priority :
  forall name type data e, select_mapping name type data = Ok e <-> chosen name type data e.
Proof. exact select_spec. Qed.
Print Assumptions C47_priority.

(** There is an error exactly when none of them exists. *)
Theorem C47_error :
  forall name type data x, select_mapping name type data = Err x <->
    x = StopIteration /\ unnamed name data /\ unnamed type data /\ unnamed "default" data.
Proof. exact select_error. Qed.
Print Assumptions C47_error.

(** The order of entries with different names does not matter. *)
Theorem C47_any_order :
  forall name type data data', NoDup (map en_name data) -> Permutation data data' ->
  select_mapping name type data = select_mapping name type data'.
Proof. exact select_perm. Qed.
Print Assumptions C47_any_order.

(** A file that is accepted gives every layer its mapping: the entry by priority, its
    unrollings and hints as written, a memory operand for exactly the three operands, and
    its ordering without dimensions the layer does not have. *)
Theorem C47_accepted_file :
  forall file data name type dims, proper_file file -> parse_mapping file = Ok data ->
  exists e a, chosen name type data e /\ create_mapping_attr name type dims data = Ok a /\
    (match en_spatial e with None => at_spatial a = [] | Some user => describes user (at_spatial a) end) /\
    at_hint a = en_hint e /\
    NoDup (keys (at_links a)) /\ (forall op, In op (keys (at_links a)) <-> In op ["O"; "W"; "I"]) /\ at_links a = en_links e /\
    at_ordering a = filter (fun x => memb (fst x) dims) (create_ordering e).
Proof. exact attr_spec. Qed.
Print Assumptions C47_accepted_file.

(** A spatial mapping written to a file is read back. *)
Theorem C47_written_mapping :
  forall e sm, en_spatial e = Some (map (fun kv => (fst kv, map unrolling_text (snd kv))) sm) -> NoDup (keys sm) ->
  (forall oa m, In (oa, m) sm -> In oa array_dims /\ NoDup (keys m) /\ forall d n, In (d, n) m -> dim_name d /\ 0 <= n) ->
  create_spatial_mapping e = Ok sm.
Proof. exact written_spatial. Qed.
Print Assumptions C47_written_mapping.

(** Exactly the texts "DIM, number" are accepted as unrollings. *)
Theorem C47_accepted_texts :
  forall s, fits_unrolling s = true <-> exists u, unrolls s u.
Proof.
  exact (fun s => conj (fun H => match fits_read s H with ex_intro _ u p => ex_intro _ u (proj1 p) end)
                       (fun H => match H with ex_intro _ u p => proj1 (unrolls_fits s u p) end)).
Qed.
Print Assumptions C47_accepted_texts.

(** Accepted although no layer can be mapped so: two operands with one memory operand, an
    unrolling of zero. *)
Theorem C47_senseless_refuted :
  exists data, parse_mapping [mkRaw (Some "default") (Some (Some [("D1", ["K, 0"])])) (Some [("O", "O"); ("W", "I1"); ("I", "I1")]) None None] = Ok data /\
  exists a, create_mapping_attr "conv1" "Conv" ["K"] data = Ok a /\ at_spatial a = [("D1", [("K", 0)])] /\
    at_links a = [("O", "O"); ("W", "I1"); ("I", "I1")].
Proof. eexists. split; [vm_compute; reflexivity|]. eexists. split; [vm_compute; reflexivity|]. split; reflexivity. Qed.
Print Assumptions C47_senseless_refuted.

Example C47_met :
  proper_file ex_file /\
  match parse_mapping ex_file with
  | Ok data =>
      create_mapping_attr "conv2" "Conv" ["K"; "C"; "FX"] data =
        Ok (mkAttr [("D1", [("K", 32)]); ("D2", [("C", 2); ("FX", 8)])] [("D1", ["K"; "OX"])] [("O", "O"); ("I", "I1"); ("W", "I2")] [("C", Some 4); ("K", None)]) /\
      create_mapping_attr "conv1" "Conv" ["K"] data = Ok (mkAttr [] [] [("O", "O"); ("I", "I2"); ("W", "I1")] []) /\
      create_mapping_attr "add" "Add" ["K"] data = Ok (mkAttr [] [] [("O", "O"); ("I", "I1"); ("W", "I2")] [])
  | Err _ => False
  end.
Proof.
  split; [|vm_compute; repeat split; reflexivity].
  intros r [<-|[<-|[<-|[]]]]; cbn; (split; [|split]); intros m E; try discriminate; injection E as <-; cbn; repeat constructor; cbn; intuition discriminate.
Qed.
