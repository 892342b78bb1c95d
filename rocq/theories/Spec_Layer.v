(** What the properties of layer descriptions say. *)
From Coq Require Import Ascii.
From Verif Require Import Base Model_Text Model_Layer Spec_Pr Spec_Loma.
Open Scope string_scope.
Open Scope list_scope.
Open Scope Z_scope.

(** * Texts of equations *)

Definition characters (s : string) : list ascii := list_ascii_of_string s.

(** Letters and digits only (possibly empty); with the underscore; blanks. *)
Definition plain (s : string) : Prop :=
  forall c, In c (characters s) ->
    In c (characters "abcdefghijklmnopqrstuvwxyzABCDEFGHIJKLMNOPQRSTUVWXYZ0123456789").
Definition wordlike (s : string) : Prop :=
  forall c, In c (characters s) ->
    In c (characters "abcdefghijklmnopqrstuvwxyzABCDEFGHIJKLMNOPQRSTUVWXYZ0123456789_").
Definition blank (s : string) : Prop :=
  forall c, In c (characters s) -> c = " "%char \/ c = "009"%char \/ c = "010"%char.

(** An operand as written: [W[k][c]]; an empty subscript is written [[]]. *)
Record written := mkWritten { wr_name : string; wr_subs : list string }.
Definition subscript (s : string) : string := ("[" ++ s ++ "]")%string.
Definition operand_text (w : written) : string :=
  (wr_name w ++ String.concat "" (map subscript (wr_subs w)))%string.

(** The part of an equation after its first input: an operator with blanks around it,
    and an operand. *)
Record factor := mkFactor { fa_before : string; fa_op : string; fa_after : string; fa_operand : written }.
Definition factor_text (f : factor) : string :=
  (fa_before f ++ fa_op f ++ fa_after f ++ operand_text (fa_operand f))%string.

(** A whole equation: [O[..] += A[..] * B[..] ...], with blanks between the parts.  The
    assignment is written [=], [+=] or, with a gap, [+ =]. *)
Record written_equation := mkWE {
  we_out : written; we_gap1 : string; we_assign : string; we_gap2 : string;
  we_first : written; we_rest : list factor; we_end : string }.
Definition equation_text (e : written_equation) : string :=
  (operand_text (we_out e) ++ we_gap1 e ++ we_assign e ++ we_gap2 e ++ operand_text (we_first e) ++
   String.concat "" (map factor_text (we_rest e)) ++ we_end e)%string.
Definition operands_of (e : written_equation) : list written :=
  we_out e :: we_first e :: map fa_operand (we_rest e).

(** The dimensions an operand is indexed with, capitalised. *)
Definition dims_of (w : written) : list string :=
  map upper (filter (fun s => negb (eqb s "")) (wr_subs w)).

Definition plain_operand (w : written) : Prop :=
  plain (wr_name w) /\ wr_name w <> "" /\ forall s, In s (wr_subs w) -> plain s.
(** Names and subscripts of letters and digits, [+=] in one piece. *)
Definition plain_equation (e : written_equation) : Prop :=
  (forall w, In w (operands_of e) -> plain_operand w) /\
  blank (we_gap1 e) /\ blank (we_gap2 e) /\ blank (we_end e) /\
  (we_assign e = "=" \/ we_assign e = "+=") /\
  (forall f, In f (we_rest e) -> blank (fa_before f) /\ blank (fa_after f) /\
     (fa_op f = "*" \/ fa_op f = "+")).

(** The texts that the validation accepts: output [O], two inputs with names of one
    character; see EQUATION_REGEX in workload_validator.py:12. *)
Definition accepted (e : written_equation) : Prop :=
  wr_name (we_out e) = "O" /\ wr_subs (we_out e) <> [] /\
  (forall s, In s (wr_subs (we_out e)) -> wordlike s /\ s <> "") /\
  blank (we_gap1 e) /\ blank (we_gap2 e) /\ blank (we_end e) /\
  (we_assign e = "=" \/ exists g, blank g /\ we_assign e = ("+" ++ g ++ "=")%string) /\
  (exists c, wr_name (we_first e) = String c "" /\ wordlike (String c "")) /\
  wr_subs (we_first e) <> [] /\ (forall s, In s (wr_subs (we_first e)) -> wordlike s /\ s <> "") /\
  exists f, we_rest e = [f] /\ blank (fa_before f) /\ blank (fa_after f) /\
    (fa_op f = "*" \/ fa_op f = "+") /\
    (exists c, wr_name (fa_operand f) = String c "" /\ wordlike (String c "")) /\
    wr_subs (fa_operand f) <> [] /\ (forall s, In s (wr_subs (fa_operand f)) -> wordlike s).

(** * Relations as written: [ix = 2 * ox + 1 * fx] *)

Record written_term := mkTerm { wt_coef : option (Z * string * string); wt_dim : string }.
Definition term_text (t : written_term) : string :=
  match wt_coef t with
  | None => wt_dim t
  | Some (k, g1, g2) => (string_of_Z k ++ g1 ++ "*" ++ g2 ++ wt_dim t)%string
  end.
Record written_relation := mkWR {
  wl_1 : string; wl_g1 : string; wl_g2 : string; wl_2 : written_term;
  wl_g3 : string; wl_g4 : string; wl_3 : written_term }.
Definition relation_text (r : written_relation) : string :=
  (wl_1 r ++ wl_g1 r ++ "=" ++ wl_g2 r ++ term_text (wl_2 r) ++ wl_g3 r ++ "+" ++ wl_g4 r ++ term_text (wl_3 r))%string.
Definition good_term (t : written_term) : Prop :=
  wordlike (wt_dim t) /\ wt_dim t <> "" /\
  match wt_coef t with None => True | Some (k, g1, g2) => 0 <= k /\ blank g1 /\ blank g2 end.
Definition good_relation (r : written_relation) : Prop :=
  wordlike (wl_1 r) /\ wl_1 r <> "" /\ blank (wl_g1 r) /\ blank (wl_g2 r) /\ blank (wl_g3 r) /\
  blank (wl_g4 r) /\ good_term (wl_2 r) /\ good_term (wl_3 r).
Definition coef_of (t : written_term) : Z :=
  match wt_coef t with None => 1 | Some (k, _, _) => k end.

(** * Temporal orderings given by the user *)

Definition is_wild (e : string * option Z) : Prop := e = ("*", None).

(** Entry [i] is written before every wildcard. *)
Definition before_wild (o : ordering) (i : nat) : Prop :=
  forall j e, (j <= i)%nat -> nth_error o j = Some e -> ~ is_wild e.

(** The loop found where the entry pins it: the dimension, and the size if one is given. *)
Definition fits (e : string * option Z) (x : string * Z) : Prop :=
  fst x = fst e /\ forall n, snd e = Some n -> snd x = n.

(** Every entry is met: entry [i] before the wildcard is loop [i] from the inside; an
    entry after it is counted from the outside, the last entry being the outermost loop. *)
Definition meets (o : ordering) (perm : list (string * Z)) : Prop :=
  forall i e, nth_error o i = Some e -> ~ is_wild e ->
    exists x, fits e x /\
      (before_wild o i -> nth_error perm i = Some x) /\
      (~ before_wild o i -> nth_error (rev perm) (length o - 1 - i) = Some x).

(** All factors are given; the loops. *)
Definition all_given (o : ordering) (loops : list (string * Z)) : Prop :=
  o = map (fun l => (fst l, Some (snd l))) loops.

(** * Relevance *)

(** Dimension [d] is used by a derived dimension of [pr]. *)
Definition part_of (pr : list (string * (string * string))) (d : string) : Prop :=
  exists p a b, In (p, (a, b)) pr /\ (d = p \/ d = a \/ d = b).

(** Exactly one of three. *)
Definition one_of (A B C : Prop) : Prop :=
  (A \/ B \/ C) /\ ~ (A /\ B) /\ ~ (A /\ C) /\ ~ (B /\ C).

(** The value of subscript [s] at a point [x] of the iteration space: a derived dimension
    is a linear combination of two loops. *)
Definition index_at (rels : list relation) (x : string -> Z) (s : string) : Z :=
  match find (fun r => eqb (rel_1 r) s) rels with
  | Some r => rel_coef_2 r * x (rel_2 r) + rel_coef_3 r * x (rel_3 r)
  | None => x s
  end.

(** The operand with subscripts [subs] does not depend on loop [d]: its element stays the
    same when only [d] changes. *)
Definition independent (rels : list relation) (subs : list string) (d : string) : Prop :=
  forall x y : string -> Z, (forall d', d' <> d -> x d' = y d') ->
    map (index_at rels x) subs = map (index_at rels y) subs.

(** All points of an iteration space given by its loops. *)
Fixpoint points (loops : list (string * Z)) : list (string -> Z) :=
  match loops with
  | [] => [fun _ => 0]
  | (d, n) :: l =>
      flat_map (fun i => map (fun x d' => if eqb d' d then i else x d') (points l)) (zrange n)
  end.

(** How many different elements of the operand the layer touches. *)
Definition elements_touched (rels : list relation) (subs : list string) (loops : list (string * Z)) : Z :=
  Z.of_nat (length (nodup (list_eq_dec Z.eq_dec)
                      (map (fun x => map (index_at rels x) subs) (points loops)))).

(** The same, counting only elements that lie in the tensor proper: [inside s v] says
    whether index [v] of subscript [s] does. *)
Definition elements_inside (inside : string -> Z -> bool) (rels : list relation)
    (subs : list string) (loops : list (string * Z)) : Z :=
  Z.of_nat (length (nodup (list_eq_dec Z.eq_dec)
    (filter (fun t => forallb (fun sv => inside (fst sv) (snd sv)) (combine subs t))
       (map (fun x => map (index_at rels x) subs) (points loops))))).

(** The loops that subscript [s] is computed from. *)
Definition loops_of (rels : list relation) (s : string) : list string :=
  match find (fun r => eqb (rel_1 r) s) rels with
  | Some r => [rel_2 r; rel_3 r]
  | None => [s]
  end.

(** No loop is used twice by the subscripts of an operand, and all are loops of the layer. *)
Definition separate (rels : list relation) (subs : list string) (loops : list (string * Z)) : Prop :=
  NoDup (flat_map (loops_of rels) subs) /\
  forall d, In d (flat_map (loops_of rels) subs) -> In d (map fst loops).

(** Relations between a derived dimension and two loops of the layer, with positive
    coefficients, one relation per derived dimension. *)
Definition sensible (rels : list relation) (loops : list string) : Prop :=
  NoDup (map rel_1 rels) /\
  forall r, In r rels -> 0 < rel_coef_2 r /\ 0 < rel_coef_3 r /\
    ~ In (rel_1 r) loops /\ In (rel_2 r) loops /\ In (rel_3 r) loops.

(** The operand has all derived dimensions as subscripts or none of them. *)
Definition all_or_none (rels : list relation) (subs : list string) : Prop :=
  (forall r, In r rels -> In (rel_1 r) subs) \/ (forall r, In r rels -> ~ In (rel_1 r) subs).

Definition size_of (loops : list (string * Z)) (d : string) : Z :=
  match dget d loops with Some n => n | None => 1 end.

(** Largest index of a derived dimension, plus one. *)
Definition extent (loops : list (string * Z)) (r : relation) : Z :=
  rel_coef_2 r * (size_of loops (rel_2 r) - 1) + rel_coef_3 r * (size_of loops (rel_3 r) - 1) + 1.

(** Every multiple of the common divisor within the extent is an index, or none is an
    index twice: here the formula of the layer for derived dimensions counts exactly (C01). *)
Definition exact_count (loops : list (string * Z)) (r : relation) : Prop :=
  let g := Z.gcd (rel_coef_2 r) (rel_coef_3 r) in
  size_of loops (rel_3 r) <= rel_coef_2 r / g \/ rel_coef_3 r / g <= size_of loops (rel_2 r).

(** Whether an index of a subscript lies in the tensor, [pad d] positions being padding
    before and after dimension [d]. *)
Definition in_tensor (rels : list relation) (loops : list (string * Z)) (pad : string -> Z * Z)
    (s : string) (v : Z) : bool :=
  match find (fun r => eqb (rel_1 r) s) rels with
  | Some r => (fst (pad s) <=? v) && (v <? extent loops r - snd (pad s))
  | None => true
  end.

(** No padding; or padding with unit second stride and a wide enough kernel. *)
Definition padding_ok (loops : list (string * Z)) (pad : string -> Z * Z) (r : relation) : Prop :=
  (pad (rel_1 r) = (0, 0) /\ exact_count loops r) \/
  (rel_coef_3 r = 1 /\ rel_coef_2 r <= size_of loops (rel_3 r) /\
   0 <= fst (pad (rel_1 r)) /\ 0 <= snd (pad (rel_1 r)) /\
   fst (pad (rel_1 r)) + snd (pad (rel_1 r)) <= extent loops r).
