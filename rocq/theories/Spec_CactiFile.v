(** Independent vocabulary for C89: what a configuration file says. *)
From Coq Require Import Ascii.
From Verif Require Import Base Model_CactiFile.
Local Open Scope string_scope.
Local Open Scope list_scope.

(** The lines of a file that begin with a label *)
Definition about (label : string) (file : list string) : list string := filter (String.prefix label) file.
(** The file sets an option to a value, and once. *)
Definition sets (file : list string) (s : setting) (v : string) : Prop := about (st_label s) file = [(st_label s ++ v ++ String "010"%char "")%string].

(** Options have different names, and no label begins another. *)
Record separate (t : dict string setting) : Prop := {
  se_names : NoDup (keys t);
  se_labels : forall a s b s', In (a, s) t -> In (b, s') t -> a <> b -> String.prefix (st_label s) (st_label s') = false }.

(** The value that stands at the place of the first mention of a name *)
Definition given (names values : list string) (name v : string) : Prop :=
  exists i, nth_error names i = Some name /\ nth_error values i = Some v /\ forall j, (j < i)%nat -> nth_error names j <> Some name.
