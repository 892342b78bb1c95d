(** Model of the ordering generator (zigzag/opt/loma/multipermute.py): the pointer
    program on a heap of list nodes, and the constraint filter. *)
From Verif Require Import Base.
Open Scope result_scope.

Section Multipermute.
  (** Elements with Python's [<]; [x >= y] is the negation of [x < y] (the elements
      are (LayerDim, int) tuples, compared lexicographically). *)
  Context {A : Type} (ltb : A -> A -> bool).

  (** multipermute.py:43-46 [ListElement].  A node is its index in the heap. *)
  Record node := mkNode { value : A; next_elem : option nat }.
  Definition heap := list node.

  (** Attribute access through a pointer; [None] has no attributes. *)
  Definition deref (hp : heap) (p : option nat) : result node :=
    match p with
    | None => Err AttributeError
    | Some a => of_option AttributeError (nth_error hp a)
    end.

  (** [p.next_elem = q] *)
  Fixpoint set_next (hp : heap) (a : nat) (q : option nat) : heap :=
    match hp, a with
    | [], _ => []
    | n :: hp', O => mkNode (value n) q :: hp'
    | n :: hp', S a' => n :: set_next hp' a' q
    end.

  (** [ListElement.nth], multipermute.py:48-54: [n] steps or until the last node. *)
  Fixpoint nth_elem (hp : heap) (o : nat) (n : nat) : result nat :=
    match n with
    | O => Ok o
    | S n' => nd <- deref hp (Some o) ;;
              match next_elem nd with
              | None => Ok o
              | Some o' => nth_elem hp o' n'
              end
    end.

  (** [list.sort]: insertion sort (equal elements are identical, so the result of
      any sort is the same list). *)
  Fixpoint insert_asc (x : A) (l : list A) : list A :=
    match l with
    | [] => [x]
    | y :: ys => if ltb y x then y :: insert_asc x ys else x :: l
    end.
  Fixpoint sort_asc (l : list A) : list A :=
    match l with [] => [] | x :: xs => insert_asc x (sort_asc xs) end.

  (** multipermute.py:103-106: the nodes in allocation order; node [k+1] points to
      node [k], so the head is the largest element. *)
  Fixpoint build (k : nat) (prev : option nat) (l : list A) : heap :=
    match l with
    | [] => []
    | x :: xs => mkNode x prev :: build (S k) (Some k) xs
    end.

  (** The variables of the generator: heap, h, i, j. *)
  Definition pstate := (heap * nat * nat * option nat)%type.

  (** [init], multipermute.py:102-107.  [multiset[0]] of an empty list is an
      [IndexError]; [nth (len - 2)] with a negative argument is the head. *)
  Definition init (multiset : list A) : result pstate :=
    let m := sort_asc multiset in
    match m with
    | [] => Err IndexError
    | _ =>
        let hp := build O None m in
        let h := (length m - 1)%nat in
        i <- nth_elem hp h (length m - 2) ;;
        j <- nth_elem hp h (length m - 1) ;;
        Ok (hp, h, i, Some j)
    end.

  (** [visit], multipermute.py:110-117.  The fuel exceeds the number of nodes. *)
  Fixpoint visit_from (fuel : nat) (hp : heap) (o : option nat) : result (list A) :=
    match o with
    | None => Ok []
    | Some _ =>
        match fuel with
        | O => Err OutOfFuel
        | S fuel' => nd <- deref hp o ;;
                     l <- visit_from fuel' hp (next_elem nd) ;;
                     Ok (value nd :: l)
        end
    end.
  Definition visit (hp : heap) (h : nat) : result (list A) :=
    visit_from (S (length hp)) hp (Some h).

  (** The [while] condition, multipermute.py:125 and 145. *)
  Definition continues (st : pstate) : result bool :=
    let '(hp, h, i, j) := st in
    nj <- deref hp j ;;
    nh <- deref hp (Some h) ;;
    Ok (match next_elem nj with Some _ => true | None => ltb (value nj) (value nh) end).

  (** The body of the [while], multipermute.py:126-136 and 146-156. *)
  Definition body (st : pstate) : result pstate :=
    let '(hp, h, i, j) := st in
    nj <- deref hp j ;;
    ni <- deref hp (Some i) ;;
    s <- match next_elem nj with
         | Some jn => njn <- deref hp (Some jn) ;;
                      if negb (ltb (value ni) (value njn)) then of_option AttributeError j
                      else Ok i
         | None => Ok i
         end ;;
    ns <- deref hp (Some s) ;;
    t <- of_option AttributeError (next_elem ns) ;;
    nt <- deref hp (Some t) ;;
    nh <- deref hp (Some h) ;;
    let hp1 := set_next hp s (next_elem nt) in
    let hp2 := set_next hp1 t (Some h) in
    let i' := if ltb (value nt) (value nh) then t else i in
    ni' <- deref hp2 (Some i') ;;
    Ok (hp2, t, i', next_elem ni').

  (** The loop, collecting what is yielded: multipermute.py:144-157.  [keep] is the
      test in front of each [yield] of the constrained version (lines 123, 137). *)
  Fixpoint loop_from (keep : list A -> result bool) (fuel : nat) (st : pstate)
    : result (list (list A)) :=
    match fuel with
    | O => Err OutOfFuel
    | S fuel' =>
        let '(hp, h, _, _) := st in
        l <- visit hp h ;;
        k <- keep l ;;
        go <- continues st ;;
        rest <- (if go then st' <- body st ;; loop_from keep fuel' st' else Ok []) ;;
        Ok (if k then l :: rest else rest)
    end.

  (** [permutations], multipermute.py:141-157. *)
  Definition permutations (fuel : nat) (multiset : list A) : result (list (list A)) :=
    st <- init multiset ;; loop_from (fun _ => Ok true) fuel st.

  (** [constrainded_permutations], multipermute.py:120-138, for constraints that are
      fallible predicates; [all] stops at the first constraint that is not met. *)
  Fixpoint all_valid (constraints : list (list A -> result bool)) (l : list A)
    : result bool :=
    match constraints with
    | [] => Ok true
    | c :: cs => b <- c l ;; if b then all_valid cs l else Ok false
    end.
  Definition constrained_permutations (fuel : nat) (multiset : list A)
      (constraints : list (list A -> result bool)) : result (list (list A)) :=
    st <- init multiset ;; loop_from (all_valid constraints) fuel st.
End Multipermute.

(** * Position constraints on orderings of (dimension, size) loops *)

(** [permutation[position]]: negative positions count from the end. *)
Definition py_index {A} (l : list A) (pos : Z) : result A :=
  let n := Z.of_nat (length l) in
  let p := if pos <? 0 then pos + n else pos in
  if (p <? 0) || (n <=? p) then Err IndexError
  else of_option IndexError (nth_error l (Z.to_nat p)).

(** [StaticPositionsConstraint.is_valid], multipermute.py:76-77; [all] stops early. *)
Fixpoint positions_valid (ps : dict Z string) (perm : list (string * Z)) : result bool :=
  match ps with
  | [] => Ok true
  | (pos, d) :: ps' =>
      x <- py_index perm pos ;;
      if eqb (fst x) d then positions_valid ps' perm else Ok false
  end.

(** [StaticPositionsAndSizesConstraint.is_valid], multipermute.py:92-96. *)
Fixpoint positions_sizes_valid (ps : dict Z (string * Z)) (perm : list (string * Z))
  : result bool :=
  match ps with
  | [] => Ok true
  | (pos, (d, n)) :: ps' =>
      x <- py_index perm pos ;;
      if eqb (fst x) d && (snd x =? n) then positions_sizes_valid ps' perm else Ok false
  end.

(** Python's tuple comparison on (LayerDim, int): LayerDim compares by name
    (zigzag/datatypes.py:36-40); strings compare by character code. *)
Definition loop_ltb (x y : string * Z) : bool :=
  match String.compare (fst x) (fst y) with
  | Lt => true
  | Eq => snd x <? snd y
  | Gt => false
  end.
