(** Model of zigzag/mapping/mapping_assist_funcs.py: decoupling of loops over
    dimensions that are partially relevant (pr) for an operand into a loop that
    changes the data and a loop that reuses it.  Sizes are exact rationals. *)
From Verif Require Import Base Model_Pr Model_Alloc.
Local Open Scope result_scope.
Local Open Scope string_scope.

Notation qloop := (string * Q)%type.

(** [create_r_version] / [create_ir_version], zigzag/datatypes.py:73-83; names are
    upper-cased by the constructor (layer dimensions are upper case already). *)
Definition r_version (d : string) : string := d ++ "_R".
Definition ir_version (d : string) : string := d ++ "_IR".

Definition qis0 (q : Q) : bool := Qeq_bool q 0.
(** Python's [/] *)
Definition pdiv (a b : Q) : result Q := if qis0 b then Err ZeroDivisionError else Ok (a / b)%Q.

(** [any(lp_type == loop_type for lp_type in pr_loop[pr_data_dim])] *)
Definition related (d : string) (ab : string * string) : bool := eqb (fst ab) d || eqb (snd ab) d.

Section Decouple.
  Variable ly : layer.

  (** mapping_assist_funcs.py:70-87 for one pr dimension [p] with related dimensions
      [ab] and one level; the loop over the pr dimensions is the outer one here, which
      is the same because their accumulated sizes are independent. *)
  Fixpoint cabl_level (rir : list string) (p : string) (ab : string * string)
      (sizes : dict string Q) (loops : list qloop) : result (dict string Q * list (Q * Q)) :=
    match loops with
    | [] => Ok (sizes, [])
    | (d, s) :: loops' =>
        if memb d rir then cabl_level rir p ab sizes loops'
        else if related d ab then
          let sizes' := dset d (size_of_dim sizes d * s)%Q sizes in
          r <- calc_tensor_dim ly sizes' p ;;
          ir <- pdiv (qprod (values sizes')) r ;;
          rest <- cabl_level rir p ab sizes' loops' ;;
          Ok (fst rest, (r, ir) :: snd rest)
        else cabl_level rir p ab sizes loops'
    end.
  Fixpoint cabl_levels (rir : list string) (p : string) (ab : string * string)
      (sizes : dict string Q) (ls : list (list qloop)) : result (list (list (Q * Q))) :=
    match ls with
    | [] => Ok []
    | l :: ls' =>
        x <- cabl_level rir p ab sizes l ;;
        rest <- cabl_levels rir p ab (fst x) ls' ;;
        Ok (snd x :: rest)
    end.

  (** mapping_assist_funcs.py:91-105 for one pr dimension. *)
  Fixpoint ratios_level (prev : Q * Q) (xs : list (Q * Q)) : result ((Q * Q) * list (Q * Q)) :=
    match xs with
    | [] => Ok (prev, [])
    | x :: xs' =>
        a <- pdiv (fst x) (fst prev) ;;
        b <- pdiv (snd x) (snd prev) ;;
        rest <- ratios_level x xs' ;;
        Ok (fst rest, (a, b) :: snd rest)
    end.
  Fixpoint ratios (prev : Q * Q) (xss : list (list (Q * Q))) : result (list (list (Q * Q))) :=
    match xss with
    | [] => Ok []
    | xs :: xss' =>
        x <- ratios_level prev xs ;;
        rest <- ratios (fst x) xss' ;;
        Ok (snd x :: rest)
    end.

  (** Size and reuse per pr dimension, level and loop; initial sizes are 1,
      mapping_assist_funcs.py:44-47. *)
  Definition per_pr (rir : list string) (ls : list (list qloop)) (pab : string * (string * string))
    : result (string * list (list (Q * Q))) :=
    let '(p, ab) := pab in
    c <- cabl_levels rir p ab (dset (snd ab) 1%Q [(fst ab, 1%Q)]) ls ;;
    x <- ratios (1%Q, 1%Q) c ;;
    Ok (p, x).

  (** [l[i] = x] and [l.insert(i, x)] *)
  Fixpoint set_nth {A} (i : nat) (x : A) (l : list A) : result (list A) :=
    match l, i with
    | [], _ => Err IndexError
    | _ :: l', O => Ok (x :: l')
    | y :: l', S i' => r <- set_nth i' x l' ;; Ok (y :: r)
    end.
  Fixpoint insert_at {A} (i : nat) (x : A) (l : list A) : list A :=
    match i, l with
    | O, _ => x :: l
    | _, [] => [x]
    | S i', y :: l' => y :: insert_at i' x l'
    end.

  (** State of the replacement in one level: the new list, the number of loops of each
      pr dimension seen and the number of insertions made. *)
  Definition rstate := (list qloop * dict string nat * nat)%type.

  (** The loop over the pr dimensions, mapping_assist_funcs.py:135-158; [sz] are the
      sizes and reuses of this level. *)
  Definition replace_pr (sz : dict string (list (Q * Q))) (idx : nat) (d : string)
      (st : rstate) (pab : string * (string * string)) : result rstate :=
    let '(new, local, global) := st in
    let '(p, ab) := pab in
    if related d ab then
      li <- dgetr p local ;;
      xs <- dgetr p sz ;;
      x <- of_option IndexError (nth_error xs li) ;;
      new1 <- set_nth (idx + global)%nat (r_version p, fst x) new ;;
      let new2 := insert_at (idx + global + 1)%nat (ir_version p, snd x) new1 in
      Ok (new2, dset p (S li) local, S global)
    else Ok st.
  (** mapping_assist_funcs.py:132-158 *)
  Fixpoint replace_level (rir : list string) (sz : dict string (list (Q * Q))) (idx : nat)
      (loops : list qloop) (st : rstate) : result rstate :=
    match loops with
    | [] => Ok st
    | (d, _) :: loops' =>
        if memb d rir then replace_level rir sz (S idx) loops' st
        else
          st' <- rfold (replace_pr sz idx d) st (l_pr_loop ly) ;;
          replace_level rir sz (S idx) loops' st'
    end.
  (** [replace_pr_loop_in_mapping], mapping_assist_funcs.py:118-160 *)
  Fixpoint replace_levels (rir : list string) (per : dict string (list (list (Q * Q))))
      (level : nat) (ls : list (list qloop)) : result (list (list qloop)) :=
    match ls with
    | [] => Ok []
    | l :: ls' =>
        sz <- rmap (fun kv => x <- of_option IndexError (nth_error (snd kv) level) ;; Ok (fst kv, x)) per ;;
        st <- replace_level rir sz 0 l (l, map (fun p => (p, O)) (keys (l_pr_loop ly)), O) ;;
        rest <- replace_levels rir per (S level) ls' ;;
        Ok (fst (fst st) :: rest)
    end.

  (** One operand with pr dimensions, mapping_assist_funcs.py:42-113 *)
  Definition decouple_operand (rir : list string) (ls : list (list qloop))
    : result (list (list qloop)) :=
    per <- rmap (per_pr rir ls) (l_pr_loop ly) ;;
    replace_levels rir per 0 ls.

  (** [decouple_pr_loop], mapping_assist_funcs.py:12-115.  [rir]: relevant plus
      irrelevant dimensions per operand; [pr_ops]: the operands with pr dimensions,
      for all of which these are [pr_loop] (layer_node.py:93). *)
  Definition decouple_pr_loop (rir : dict string (list string)) (pr_ops : list string)
      (mapping : dict string (list (list qloop))) : result (dict string (list (list qloop))) :=
    rfold (fun m op =>
             dims <- dgetr op rir ;;
             ls <- dgetr op mapping ;;
             ls' <- decouple_operand dims ls ;;
             Ok (dset op ls' m)) mapping pr_ops.
End Decouple.
