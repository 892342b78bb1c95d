(** Examples for C88. *)
From Coq Require Import QArith Lia.
From Verif Require Import Base Model_DataMove Model_Cost Model_Cme Model_Json Spec_DataMove Spec_Cme Spec_Json Proof_CmeMore Proof_Json Proof_CostExample.
Local Open Scope string_scope.
Local Open Scope list_scope.

Lemma same_text : exists d d', NoDup (map fst d) /\ length d = 2%nat /\
  (forall fuel, (4 <= fuel)%nat -> dump fuel false (VSet [VDict d]) = Ok (JList [JObject d'])) /\ length d' = 1%nat.
Proof.
  exists [(KName "I", VInt 1); (KText "I", VInt 2)], [("I", JInt 2)]. split; [|split; [reflexivity|split; [|reflexivity]]].
  - cbn [map fst]. constructor; [intros [E|[]]; discriminate E|]. constructor; [intros []|constructor].
  - intros fuel L. destruct fuel as [|[|[|[|fuel]]]]; try lia. reflexivity.
Qed.

Lemma names_left : exists v j, stands false true v j /\ (forall fuel, (2 <= fuel)%nat -> dump fuel false v = Err TypeError) /\
  forall fuel, (3 <= fuel)%nat -> dump fuel false (VObject (Some v) None) = Err TypeError.
Proof.
  exists (VDict [(KName "I", VInt 1)]), (JObject [("I", JInt 1)]). split; [|split].
  - apply st_dict; [constructor; [intros []|constructor]|]. constructor; [split; [right; auto|apply st_int]|constructor].
  - intros [|[|fuel]] L; try lia. reflexivity.
  - intros [|[|[|fuel]]] L; try lia. reflexivity.
Qed.

Definition loop_text (x : string * string) : string := ("(" ++ fst x ++ ", " ++ snd x ++ ")")%string.
Definition the_loops : dict string (list (list (string * string))) := [("I", [[("C", "4")]; []]); ("W", [[("C", "4")]; []]); ("O", [[]; [("C", "4")]])].
Definition the_layer : value :=
  VObject (Some (VDict [(KText "name", VText "conv"); (KText "loop_dimensions", VObject (Some (VDict [(KText "K", VInt 32); (KText "C", VInt32 4)])) None);
    (KText "equation_relations", VList [VText "ix = 1*ox + 1*fx"])])) None.
Definition the_utilization : value := VDict [(KName "O", VList [VFloat (1 # 2)])].
Definition the_mapping : value :=
  VObject (Some (VDict [(KText "I", VList [VList [VText "(C, 4)"]; VList []]); (KText "W", VList [VList [VText "(C, 4)"]; VList []]); (KText "O", VList [VList []; VList [VText "(C, 4)"]])])) None.

Lemma the_mapping_value : loops_value loop_text the_loops = Ok the_mapping.
Proof. reflexivity. Qed.

Lemma saved_layer : exists e, NoDup (in_ops shared_ci) /\ cme_of shared_ci 0 "acc" = Ok e /\ exists utilization layer spatial temporal ju jl js jt,
  tidy utilization /\ tidy layer /\ tidy temporal /\ stands false true utilization ju /\ stands false true layer jl /\ stands false true spatial js /\ stands false true temporal jt /\
  exists j, save_complete 20 e utilization (VText "acc") layer spatial temporal = Ok j /\ under ["outputs"; "energy"; "energy_total"] j = Some (JNumber (ev_energy e)) /\
    under ["inputs"; "temporal_mapping"; "W"] j = Some (JList [JList [JText "(C, 4)"]; JList []]) /\ under ["inputs"; "layer"; "loop_dimensions"; "K"] j = Some (JInt 32) /\
    under ["outputs"; "memory"; "utilization"; "O"] j = Some (JList [JNumber (1 # 2)]).
Proof.
  destruct (loops_file loop_text the_loops) as (v & j & E & S & _). { apply texts_apart. reflexivity. }
  rewrite the_mapping_value in E. assert (v = the_mapping) by congruence. subst v.
  eexists. split; [apply texts_apart; vm_compute; reflexivity|]. split; [vm_compute; reflexivity|].
  exists the_utilization, the_layer, the_mapping, the_mapping.
  exists (JObject [("O", JList [JNumber (1 # 2)])]),
    (JObject [("name", JText "conv"); ("loop_dimensions", JObject [("K", JInt 32); ("C", JInt 4)]); ("equation_relations", JList [JText "ix = 1*ox + 1*fx"])]), j, j.
  do 3 (split; [repeat split; try (apply texts_apart; reflexivity)|]).
  split; [apply st_dict; [apply texts_apart; reflexivity|constructor; [split; [right; auto|repeat constructor]|constructor]]|].
  split.
  { eapply st_object; [reflexivity|]. apply st_dict; [apply texts_apart; reflexivity|]. apply entry_stands; [constructor|]. apply entry_stands.
    - eapply st_object; [reflexivity|]. apply st_dict; [apply texts_apart; reflexivity|]. repeat (apply entry_stands; [constructor|]). constructor.
    - apply entry_stands; [repeat constructor|constructor]. }
  split; [apply S|]. split; [apply S|].
  eexists. split; [vm_compute; reflexivity|]. repeat split; vm_compute; reflexivity.
Qed.

Definition the_numbers : imc_numbers :=
  mkImcNumbers [("cells", 3%Q); ("adders", 2%Q)] 5%Q (1 # 2)%Q [("cells", (1 # 4)%Q); ("adders", (1 # 4)%Q)] 7%Q 4%Q 3%Q [("cells", 4%Q)] [("rf", 3%Q)].
Lemma saved_imc : exists e j, cme_of shared_ci 0 "acc" = Ok e /\ well_formed e /\ ev_utils e <> None /\ NoDup (keys (im_energy_parts the_numbers)) /\
  save_complete_imc 20 e the_numbers VNone (VText "acc") (VText "layer") VNone VNone = Ok j /\ imc_file_about e the_numbers j.
Proof.
  assert (X : exists e j, cme_of shared_ci 0 "acc" = Ok e /\ save_complete_imc 20 e the_numbers VNone (VText "acc") (VText "layer") VNone VNone = Ok j /\ imc_file_about e the_numbers j).
  { eexists. eexists. split; [vm_compute; reflexivity|]. split; [vm_compute; reflexivity|]. constructor; repeat split; vm_compute; reflexivity. }
  destruct X as (e & j & Ee & Ej & F). exists e, j.
  destruct (cme_of_ok shared_ci 0 "acc" e) as (W & (a & b & c & d & U & _) & _); [apply texts_apart; vm_compute; reflexivity|exact Ee|].
  split; [exact Ee|]. split; [exact W|]. split; [rewrite U; discriminate|]. split; [apply texts_apart; vm_compute; reflexivity|]. split; [exact Ej|exact F].
Qed.
