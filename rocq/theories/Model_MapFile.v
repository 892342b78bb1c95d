(** Model of zigzag/parser/mapping_validator.py, the normalisation of
    zigzag/parser/upgraded_validator.py, zigzag/parser/mapping_factory.py,
    [parse_mapping_data] of zigzag/stages/parser/workload_parser.py and
    [create_mapping_attr] of zigzag/parser/workload_factory.py.

    A mapping file is a list of entries; a dictionary read from a file has distinct keys.
    Values of a type that the schema refuses are not represented. *)
From Coq Require Import Ascii.
From Verif Require Import Base Model_Text Model_Layer.
Open Scope string_scope.
Open Scope list_scope.
Open Scope Z_scope.
Open Scope result_scope.

(** An entry as written: absent fields are [None]; for the spatial mapping [Some None] is a
    written null. *)
Record raw_entry := mkRaw {
  rw_name : option string;
  rw_spatial : option (option (dict string (list string)));
  rw_links : option (dict string string);
  rw_hint : option (dict string (list string));
  rw_ordering : option (list (string * (Z + string))) }.

(** A normalised entry. *)
Record entry := mkEntry {
  en_name : string;
  en_spatial : option (dict string (list string));
  en_links : dict string string;
  en_hint : dict string (list string);
  en_ordering : list (string * (Z + string)) }.

Definition default {A} (d : A) (o : option A) : A := match o with Some x => x | None => d end.

(** [add_defaults_to_doc] with [get_default], upgraded_validator.py:71-92, for the schema of
    mapping_validator.py:13-82. *)
Definition normalise (r : raw_entry) : entry :=
  {| en_name := default "" (rw_name r);
     en_spatial := default None (rw_spatial r);
     en_links := default [("O", "O"); ("I", "I1"); ("W", "I2")] (rw_links r);
     en_hint := default [] (rw_hint r);
     en_ordering := default [] (rw_ordering r) |}.

(** The regular expression [A-Z]+\d*, of which the rest of the text is returned. *)
Definition dim_prefix (s : string) : option string :=
  let u := span is_upper s in
  if eqb (fst u) "" then None else Some (snd (span is_digit (snd u))).

(** "^[A-Z]+\d*, \d+$"; that "$" also accepts a final line break is left out. *)
Definition fits_unrolling (s : string) : bool :=
  match dim_prefix s with
  | Some (String "," (String " " w)) => negb (eqb w "") && eqb (snd (span is_digit w)) ""
  | _ => false
  end.

(** "^[A-Z]+\d*", which the validator reads with a "$" at the end *)
Definition fits_dim (s : string) : bool :=
  match dim_prefix s with Some "" => true | _ => false end.

Definition array_dims : list string := ["D1"; "D2"; "D3"; "D4"].

(** The schema, mapping_validator.py:13-82. *)
Definition fits_schema (e : entry) : bool :=
  match en_spatial e with
  | None => true
  | Some m => forallb (fun kv => memb (fst kv) array_dims && forallb fits_unrolling (snd kv)) m
  end &&
  (forallb (fun op => memb op (keys (en_links e))) ["O"; "W"; "I"] && forallb (fun op => memb op ["O"; "W"; "I"]) (keys (en_links e))) &&
  forallb (fun kv => memb (fst kv) array_dims && forallb fits_dim (snd kv)) (en_hint e) &&
  forallb (fun x => match snd x with inl _ => true | inr s => eqb s "*" end) (en_ordering e).

(** [validate], mapping_validator.py:101-119 *)
Definition valid_file (data : list entry) : bool :=
  forallb fits_schema data && memb "default" (map en_name data).

(** [parse_mapping_data], workload_parser.py:61-69 *)
Definition parse_mapping (file : list raw_entry) : result (list entry) :=
  let data := map normalise file in
  if valid_file data then Ok data else Err ValueError.

(** [next(filter(lambda x: x["name"] == name, mapping_data))] *)
Definition next_named (name : string) (data : list entry) : result entry :=
  of_option StopIteration (find (fun e => eqb (en_name e) name) data).

(** [MappingFactory.__init__], mapping_factory.py:34-49 *)
Definition select_mapping (layer_name operation_type : string) (data : list entry) : result entry :=
  if memb layer_name (map en_name data) then next_named layer_name data
  else if memb operation_type (map en_name data) then next_named operation_type data
  else next_named "default" data.

(** [s.split(",")] for any separator *)
Fixpoint split_from (sep : ascii) (cur s : string) : list string :=
  match s with
  | EmptyString => [cur]
  | String c r => if Ascii.eqb c sep then cur :: split_from sep "" r else split_from sep (cur ++ String c "")%string r
  end.
Definition split (sep : ascii) (s : string) : list string := split_from sep "" s.

(** [int(s)]: surrounding blanks are dropped.  Signs and underscores are a [ValueError]
    here. *)
Definition rev_string (s : string) : string := string_of_list_ascii (rev (list_ascii_of_string s)).
Definition int_of_text (s : string) : result Z :=
  int_of_word (rev_string (skip_space (rev_string (skip_space s)))).

(** [OADimension(name)], datatypes.py:86-91: "^D\d$" *)
Definition oa_dimension (name : string) : result string :=
  match name with
  | String "D" (String c "") => if is_digit c then Ok name else Err AssertionError
  | _ => Err AssertionError
  end.

(** [create_mapping_single_oa_dim], mapping_factory.py:65-74; [LayerDim] turns the name to
    upper case, datatypes.py:67-69. *)
Definition read_unrolling (text : string) : result (string * Z) :=
  let parts := split "," text in
  n <- int_of_text (last parts "") ;;
  Ok (upper (hd "" parts), n).
Definition mapping_single_oa_dim (texts : list string) : result (dict string Z) :=
  l <- rmap read_unrolling texts ;;
  Ok (dict_of l).

(** [create_spatial_mapping], mapping_factory.py:51-63 *)
Definition create_spatial_mapping (e : entry) : result (dict string (dict string Z)) :=
  match en_spatial e with
  | None => Ok []
  | Some m =>
      l <- rmap (fun kv => oa <- oa_dimension (fst kv) ;; d <- mapping_single_oa_dim (snd kv) ;; Ok (oa, d)) m ;;
      Ok (dict_of l)
  end.

(** [create_spatial_mapping_hint], mapping_factory.py:76-85; the sets are lists here. *)
Definition create_hint (e : entry) : result (dict string (list string)) :=
  l <- rmap (fun kv => oa <- oa_dimension (fst kv) ;; Ok (oa, map upper (snd kv))) (en_hint e) ;;
  Ok (dict_of l).

(** [create_memory_operand_links], mapping_factory.py:87-92 *)
Definition create_links (e : entry) : dict string string := dict_of (en_links e).

(** [create_temporal_ordering], mapping_factory.py:94-101, with
    [LayerTemporalOrdering.__init__], layer_attributes.py:194-199 *)
Definition create_ordering (e : entry) : ordering :=
  map (fun x => (upper (fst x), match snd x with inl n => Some n | inr _ => None end)) (en_ordering e).

Record mapping_attr := mkAttr {
  at_spatial : dict string (dict string Z);
  at_hint : dict string (list string);
  at_links : dict string string;
  at_ordering : ordering }.

(** [create_mapping_attr], workload_factory.py:94-113 *)
Definition create_mapping_attr (layer_name operation_type : string) (layer_dims : list string) (data : list entry) : result mapping_attr :=
  match data with
  | [] => Err AssertionError
  | _ =>
      e <- select_mapping layer_name operation_type data ;;
      sm <- create_spatial_mapping e ;;
      hint <- create_hint e ;;
      Ok (mkAttr sm hint (create_links e) (remove_invalid_layer_dims layer_dims (create_ordering e)))
  end.
