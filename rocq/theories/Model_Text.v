(** Python string functions used by the parsers.  Texts are Coq strings (ASCII); other
    Unicode characters are not modelled. *)
From Coq Require Import Ascii DecimalString DecimalZ.
From Verif Require Import Base.
Open Scope result_scope.

Definition code (c : ascii) : nat := nat_of_ascii c.
Definition between (lo hi : nat) (c : ascii) : bool := (Nat.leb lo (code c)) && (Nat.leb (code c) hi).
Definition is_digit : ascii -> bool := between 48 57.
Definition is_upper : ascii -> bool := between 65 90.
Definition is_lower : ascii -> bool := between 97 122.
Definition is_alnum (c : ascii) : bool := is_digit c || is_upper c || is_lower c.

(** The regular expression classes [\w] and [\s]. *)
Definition is_word (c : ascii) : bool := is_alnum c || Nat.eqb (code c) 95.
Definition is_space (c : ascii) : bool := between 9 13 c || between 28 32 c.

(** [str.upper]. *)
Definition upper_char (c : ascii) : ascii :=
  if is_lower c then ascii_of_nat (code c - 32) else c.
Fixpoint upper (s : string) : string :=
  match s with
  | EmptyString => EmptyString
  | String c s' => String (upper_char c) (upper s')
  end.

(** [s.replace(old, new)] for a non-empty [old]: occurrences are found from the left and
    do not overlap.  [skip] counts the characters of an occurrence still to be dropped. *)
Fixpoint replace_from (old new : string) (skip : nat) (s : string) : string :=
  match s with
  | EmptyString => EmptyString
  | String c s' =>
      match skip with
      | S k => replace_from old new k s'
      | O => if String.prefix old s then (new ++ replace_from old new (String.length old - 1) s')%string
             else String c (replace_from old new O s')
      end
  end.
Definition replace (old new s : string) : string := replace_from old new O s.

(** Longest prefix of characters that satisfy [p], and the rest. *)
Fixpoint span (p : ascii -> bool) (s : string) : string * string :=
  match s with
  | EmptyString => (EmptyString, EmptyString)
  | String c s' => if p c then let '(a, b) := span p s' in (String c a, b)
                   else (EmptyString, s)
  end.
Definition skip_space (s : string) : string := snd (span is_space s).

(** [re.findall("[...]+", s)] for a character class [p]: the maximal runs of characters
    of the class.  [cur] is the run read so far. *)
Definition emit (cur : string) : list string :=
  match cur with EmptyString => [] | _ => [cur] end.
Fixpoint runs (p : ascii -> bool) (cur s : string) : list string :=
  match s with
  | EmptyString => emit cur
  | String c s' => if p c then runs p (cur ++ String c EmptyString)%string s'
                   else (emit cur ++ runs p EmptyString s')%list
  end.
Definition findall (p : ascii -> bool) (s : string) : list string := runs p EmptyString s.

(** [f"{z}"] of an integer. *)
Definition string_of_Z (z : Z) : string := NilZero.string_of_int (Z.to_int z).

(** [int(w)] of a word of digits.  Python also accepts underscores between digits; those
    words are a [ValueError] here. *)
Definition int_of_word (w : string) : result Z :=
  match NilZero.uint_of_string w with
  | Some u => Ok (Z.of_int (Decimal.Pos u))
  | None => Err ValueError
  end.

(** A dictionary comprehension over pairs: later pairs overwrite earlier ones. *)
Definition dict_of {K V} `{EqB K} (l : list (K * V)) : dict K V :=
  fold_left (fun d kv => dset (fst kv) (snd kv) d) l [].
