(** Independent vocabulary for C47 and the reading of mapping files. *)
From Coq Require Import Ascii.
From Verif Require Import Base Model_Text Model_MapFile Spec_Layer.
Open Scope string_scope.
Open Scope list_scope.
Open Scope Z_scope.

(** [e] is the first entry of that name. *)
Definition first_named (name : string) (data : list entry) (e : entry) : Prop :=
  exists pre post, data = pre ++ e :: post /\ en_name e = name /\ forall x, In x pre -> en_name x <> name.

Definition unnamed (name : string) (data : list entry) : Prop := forall x, In x data -> en_name x <> name.

(** The documented priority: layer name, operator type, default. *)
Definition chosen (layer_name operation_type : string) (data : list entry) (e : entry) : Prop :=
  first_named layer_name data e \/
  (unnamed layer_name data /\ first_named operation_type data e) \/
  (unnamed layer_name data /\ unnamed operation_type data /\ first_named "default" data e).

(** Names of dimensions in a mapping file: capitals, then digits. *)
Definition dim_name (d : string) : Prop :=
  exists a b, d = (a ++ b)%string /\ a <> "" /\
    (forall c, In c (characters a) -> In c (characters "ABCDEFGHIJKLMNOPQRSTUVWXYZ")) /\
    (forall c, In c (characters b) -> In c (characters "0123456789")).

(** "K, 32" *)
Definition unrolling_text (u : string * Z) : string := (fst u ++ ", " ++ string_of_Z (snd u))%string.

(** The text names the dimension and, after a comma and a blank, digits that are read as
    the number. *)
Definition unrolls (text : string) (u : string * Z) : Prop :=
  exists w, text = (fst u ++ ", " ++ w)%string /\ dim_name (fst u) /\ w <> "" /\
    (forall c, In c (characters w) -> In c (characters "0123456789")) /\ int_of_word w = Ok (snd u).

(** The last pair of [l] with key [d] has value [n]. *)
Definition last_value {V} (l : list (string * V)) (d : string) (n : V) : Prop :=
  exists pre post, l = pre ++ (d, n) :: post /\ ~ In d (map fst post).

(** [sm] is the mapping that [user] describes: per array dimension the unrollings as
    written, the last one when a dimension is repeated. *)
Definition describes (user : dict string (list string)) (sm : dict string (dict string Z)) : Prop :=
  keys sm = keys user /\
  forall oa texts, In (oa, texts) user -> exists l m, Forall2 unrolls texts l /\ dget oa sm = Some m /\
    NoDup (keys m) /\ forall d n, dget d m = Some n <-> last_value l d n.

(** Dictionaries of a file have distinct keys. *)
Definition proper_file (file : list raw_entry) : Prop :=
  forall r, In r file -> (forall m, rw_spatial r = Some (Some m) -> NoDup (keys m)) /\
    (forall m, rw_hint r = Some m -> NoDup (keys m)) /\ (forall m, rw_links r = Some m -> NoDup (keys m)).
