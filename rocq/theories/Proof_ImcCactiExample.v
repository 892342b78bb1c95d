(** A table of CACTI and calls. *)
From Coq Require Import QArith Ascii.
From Verif Require Import Base Model_MapFile Model_ImcCacti Spec_ImcCacti Proof_ImcCacti.
Local Open Scope string_scope.
Local Open Scope list_scope.

Definition ex_first : string := "Tech node (nm), Access time (ns), Dynamic read energy (nJ), Dynamic write energy (nJ), Area (mm2)".
Definition ex_float (s : string) : option Q :=
  dget s [("32", 32%Q); (" 1", 1%Q); (" 2", 2%Q); (" 3", 3%Q); (" 4", 4%Q); (" 5", 5%Q)].
(** a run for 32 bits, one for 16 bits; others fail *)
Definition ex_answer (c : config) : option string :=
  match dget "-output/input bus width " c with
  | Some (CNum q) => if Qeq_bool q 32 then Some "32, 1, 2, 3, 4," else if Qeq_bool q 16 then Some "32, 1, 1, 2, 5," else None
  | _ => None
  end.
Definition ex_resolve (cwd path : string) : option string :=
  if eqb cwd "/home" then if eqb path "cacti" then Some "/home/cacti" else None else None.
Definition ex_world : world := mkWorld "/home" [].

Lemma ex_columns : named_columns ex_first.
Proof.
  assert (U : forall name i, nth_error (split ","%char ex_first) i = Some name -> (forall j, nth_error (split ","%char ex_first) j = Some name -> j = i) -> one_column ex_first name)
    by (intros name i H1 H2; exists i; split; assumption).
  unfold named_columns. repeat split.
  1: apply (U _ 1%nat). 3: apply (U _ 4%nat). 5: apply (U _ 2%nat). 7: apply (U _ 3%nat).
  all: try reflexivity.
  all: intros j; do 5 (destruct j as [|j]; [vm_compute; intros; try discriminate; reflexivity|]); destruct j; vm_compute; discriminate.
Qed.
Lemma ex_same : same_answers ex_answer.
Proof.
  intros c c' H. unfold ex_answer.
  assert (X : match dget "-output/input bus width " c, dget "-output/input bus width " c' with
              | Some v, Some v' => same_value v v' | None, None => True | _, _ => False end).
  { induction H as [|(n, v) (n', v') c c' (En & Ev) _ IH]; [exact I|]. cbn [fst snd] in En, Ev. subst n'. cbn [dget].
    destruct (eqb "-output/input bus width " n); [exact Ev|exact IH]. }
  destruct (dget _ c) as [[q|s]|], (dget _ c') as [[q'|s']|]; try contradiction; try reflexivity.
  cbn [same_value] in X. assert (E1 : Qeq_bool q 32 = Qeq_bool q' 32). { apply eq_true_iff_eq. rewrite !Qeq_bool_iff. now rewrite X. }
  assert (E2 : Qeq_bool q 16 = Qeq_bool q' 16). { apply eq_true_iff_eq. rewrite !Qeq_bool_iff. now rewrite X. }
  now rewrite E1, E2.
Qed.
Lemma ex_says : says ex_float ex_first "32, 1, 2, 3, 4," 1 4 2 3.
Proof.
  split; [|split; [|split; [|split]]].
  - intros i cell L. change (length (split ","%char ex_first)) with 5%nat in L.
    do 5 (destruct i as [|i]; [vm_compute; intros E; injection E as <-; eexists; reflexivity|]). lia.
  - exists 1%nat, " 1". repeat split.
  - exists 4%nat, " 4". repeat split.
  - exists 2%nat, " 2". repeat split.
  - exists 3%nat, " 3". repeat split.
Qed.
Lemma ex_good : good_world ex_float ex_first ex_world.
Proof. intros dir lines D. discriminate D. Qed.
