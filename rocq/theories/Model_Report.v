(** Model of zigzag/mapping/utils.py and zigzag/visualization/results/print_mapping.py.

    [links] is the layer's memory_operand_links (layer operand to memory operand), [tm]
    the stationary temporal mapping, [names] the names of the memories of a memory
    operand, lowest first ([accelerator.get_memory_level], accelerator.py:47-51). *)
From Verif Require Import Base Model_Alloc Model_Temporal.
Open Scope string_scope.
Open Scope list_scope.
Open Scope Z_scope.
Local Open Scope result_scope.

(** [tl in level] *)
Definition loop_in (x : tloop) (l : list tloop) : bool := existsb (fun y => loop_eqb y x) l.

(** [contains.index(True)]: the first level with the loop; ValueError otherwise. *)
Fixpoint level_with (x : tloop) (levels : tmlevels) : result nat :=
  match levels with
  | [] => Err ValueError
  | l :: r => if loop_in x l then Ok O else n <- level_with x r ;; Ok (S n)
  end.

(** [tm[layer_op][level].pop(tm[layer_op][level].index(tl))] *)
Fixpoint pop_loop (x : tloop) (k : nat) (levels : tmlevels) : result tmlevels :=
  match levels, k with
  | [], _ => Err IndexError
  | l :: r, O => l' <- py_remove x l ;; Ok (l' :: r)
  | l :: r, S k' => r' <- pop_loop x k' r ;; Ok (l :: r')
  end.

(** One operand, utils.py:28-39. *)
Definition report_operand (names : dict string (list string)) (x : tloop)
    (st : dict string tmlevels * list string) (link : string * string) : result (dict string tmlevels * list string) :=
  levels <- dgetr (fst link) (fst st) ;;
  level <- level_with x levels ;;
  levels' <- pop_loop x level levels ;;
  memories <- dgetr (snd link) names ;;
  name <- of_option IndexError (nth_error memories level) ;;
  Ok (dset (fst link) levels' (fst st), snd st ++ [name]).

(** One loop, utils.py:26-42; the lower bound 0 of the range is left out. *)
Definition report_loop (links : list (string * string)) (names : dict string (list string))
    (st : dict string tmlevels * list (tloop * list string)) (x : tloop)
  : result (dict string tmlevels * list (tloop * list string)) :=
  r <- rfold (report_operand names x) (fst st, []) links ;;
  Ok (fst r, snd st ++ [(x, snd r)]).

(** [get_temporal_loops], utils.py:20-43 *)
Definition report_temporal (links : list (string * string)) (names : dict string (list string)) (tm : dict string tmlevels)
  : result (list (tloop * list string)) :=
  levels <- dgetr "O" tm ;;
  r <- rfold (report_loop links names) (tm, []) (concat levels) ;;
  Ok (snd r).

(** [get_spatial_loops], utils.py:10-17, on [spatial_mapping_dict_int["O"]] *)
Definition report_spatial (levels : tmlevels) : list (tloop * list string) :=
  rev (map (fun x => (x, [""; ""; ""])) (concat levels)).

(** A printed line: a heading with the operands, or a loop behind an indentation. *)
Inductive line :=
| Heading (text : string) (operands : list string)
| Loop (indent : nat) (keyword dim : string) (size : Z) (memories : list string).

(** [recursive_print], print_mapping.py:49-66: the lines and the last indentation.  Only the
    first three memories are printed; IndexError when there are fewer. *)
Fixpoint print_loops (step : nat) (keyword : string) (indent : nat) (loops : list (tloop * list string))
  : result (list line * nat) :=
  match loops with
  | [] => Ok ([], indent)
  | (x, memories) :: rest =>
      if Nat.ltb (length memories) 3 then Err IndexError
      else
        r <- print_loops step keyword (indent + step) rest ;;
        Ok (Loop indent keyword (fst x) (snd x) (firstn 3 memories) :: fst r, snd r)
  end.

(** [print_mapping], print_mapping.py:10-90, for a single evaluation.  The widths of the
    columns and the rules between the lines are left out; finding the widths fails when
    there is no temporal loop ([max] of nothing). *)
Definition print_mapping (step : nat) (links : list (string * string)) (names : dict string (list string))
    (tm : dict string tmlevels) (spatial : tmlevels) : result (list line) :=
  temporal <- report_temporal links names tm ;;
  match temporal with
  | [] => Err ValueError
  | _ =>
      if negb (Nat.eqb (length links) 3) then Err AssertionError
      else
        t <- print_loops step "for" 0 (rev temporal) ;;
        s <- print_loops 0 "parfor" (snd t) (report_spatial spatial) ;;
        Ok (Heading "Temporal Loops" (map fst links) :: fst t ++ Heading "Spatial Loops" [""; ""; ""] :: fst s)
  end.
