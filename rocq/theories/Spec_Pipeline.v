(** What a user expects of the whole tool (C67), and of saved files (C48). *)
From Coq Require Import QArith Ascii.
From Verif Require Import Base Model_Cme Spec_Cme.
Open Scope string_scope.
Open Scope list_scope.

(** [e] is the evaluation of layer [l] for one of its spatial mappings and one of the
    temporal mappings found for that. *)
Definition candidate {A S C T} (spatials : A -> result (list S)) (convert : A -> S -> result C)
    (temporals : A -> C -> list T * option exn) (evaluate : A -> C -> T -> result eval) (l : A) (e : eval) : Prop :=
  exists ss s c t, spatials l = Ok ss /\ In s ss /\ convert l s = Ok c /\ In t (fst (temporals l c)) /\ evaluate l c t = Ok e.

(** All mappings of a layer could be generated and evaluated, and there are some. *)
Definition explored {A S C T} (spatials : A -> result (list S)) (convert : A -> S -> result C)
    (temporals : A -> C -> list T * option exn) (evaluate : A -> C -> T -> result eval) (l : A) : Prop :=
  exists ss, spatials l = Ok ss /\ ss <> [] /\
    forall s, In s ss -> exists c, convert l s = Ok c /\ fst (temporals l c) <> [] /\ snd (temporals l c) = None /\
      forall t, In t (fst (temporals l c)) -> exists e, evaluate l c t = Ok e.

(** What is minimised. *)
Definition criterion (opt : string) (le : eval -> eval -> Prop) : Prop :=
  opt = "energy" /\ le = energy_le \/ opt = "latency" /\ le = latency_le \/ opt = "EDP" /\ le = edp_le.

(** Names that give the same file differ at most in slashes and underscores. *)
Fixpoint alike (a b : string) : Prop :=
  match a, b with
  | EmptyString, EmptyString => True
  | String c a, String d b =>
      (c = d \/ (c = "/"%char \/ c = "_"%char) /\ (d = "/"%char \/ d = "_"%char)) /\ alike a b
  | _, _ => False
  end.

(** What the file of an evaluation is called after. *)
Definition label (name : nat -> string) (e : eval) : string :=
  match ev_layers e with inl i => name i | inr _ => "overall" end.

(** No two names are alike. *)
Definition pairwise_unlike (names : list string) : Prop := ForallOrdPairs (fun a b => ~ alike a b) names.
