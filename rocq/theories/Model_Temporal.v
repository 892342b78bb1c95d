(** Model of zigzag/mapping/temporal_mapping.py.

    A temporal mapping is a dict from layer operands to lists of levels (inner to
    outer), a level a list of (dimension, size) loops.  The relevancy sets are
    arguments. *)
From Verif Require Import Base Model_Alloc.
Local Open Scope result_scope.

Notation tmlevels := (list (list tloop)).

Definition loop_eqb (x y : tloop) : bool := eqb (fst x) (fst y) && (snd x =? snd y)%Z.

(** [list.remove(x)]: the first equal element; ValueError otherwise. *)
Fixpoint py_remove (x : tloop) (l : list tloop) : result (list tloop) :=
  match l with
  | [] => Err ValueError
  | y :: l' => if loop_eqb y x then Ok l' else r <- py_remove x l' ;; Ok (y :: r)
  end.

(** [st[k].append(..)] / [st[k].extend(..)]: update of the k-th level. *)
Fixpoint extend_at (k : nat) (xs : list tloop) (st : tmlevels) : tmlevels :=
  match st, k with
  | [], _ => []
  | l :: st', O => (l ++ xs) :: st'
  | l :: st', S k' => l :: extend_at k' xs st'
  end.

Section Temporal.
  (** [get_ir_layer_dims(operand)], [get_r_layer_dims(operand)] *)
  Variables (ir_dims r_dims : dict string (list string)).

  (** Body of the loop over [current_level_loops], temporal_mapping.py:75-86;
      [prev] is iterated, [cur] is [mapping_current[operand][level]]. *)
  Fixpoint scan_level (ir : list string) (level : nat) (prev cur : list tloop)
      (st : tmlevels) (mac : Z) : result (tmlevels * Z) :=
    match prev with
    | [] => Ok (st, mac)
    | x :: prev' =>
        if memb (fst x) ir then
          match level with
          | O => cur' <- py_remove x cur ;; scan_level ir level prev' cur' (extend_at 0 [x] st) (mac * snd x)
          | S k => cur' <- py_remove x cur ;; scan_level ir level prev' cur' (extend_at k [x] st) mac
          end
        else Ok (extend_at level cur st, mac)
    end.

  (** temporal_mapping.py:71-86: all levels of one operand.  An empty level is copied
      as an empty level, i.e. left as initialised. *)
  Fixpoint scan_levels (ir : list string) (level : nat) (todo st : tmlevels) (mac : Z)
    : result (tmlevels * Z) :=
    match todo with
    | [] => Ok (st, mac)
    | loops :: todo' =>
        r <- scan_level ir level loops loops st mac ;;
        scan_levels ir (S level) todo' (fst r) (snd r)
    end.

  (** One pass over one operand, temporal_mapping.py:69-86. *)
  Definition pass_operand (kv : string * tmlevels) : result (string * (tmlevels * Z)) :=
    ir <- dgetr (fst kv) ir_dims ;;
    r <- scan_levels ir 0 (snd kv) (map (fun _ => []) (snd kv)) 1 ;;
    Ok (fst kv, r).

  Definition level_eqb (a b : list tloop) : bool :=
    Nat.eqb (length a) (length b) && forallb (fun p => loop_eqb (fst p) (snd p)) (combine a b).
  Definition levels_eqb (a b : tmlevels) : bool :=
    Nat.eqb (length a) (length b) && forallb (fun p => level_eqb (fst p) (snd p)) (combine a b).

  (** The while loop, temporal_mapping.py:67-93.  Result: mapping_dic_stationary and
      mac_level_data_stationary_cycle. *)
  Fixpoint merge_down (fuel : nat) (mapping : dict string tmlevels)
    : result (dict string tmlevels * dict string Z) :=
    match fuel with
    | O => Err OutOfFuel
    | S fuel' =>
        new <- rmap pass_operand mapping ;;
        let st := map (fun kv => (fst kv, fst (snd kv))) new in
        if forallb (fun p => levels_eqb (snd (fst p)) (snd (snd p))) (combine st mapping)
        then Ok (st, map (fun kv => (fst kv, snd (snd kv))) new)
        else merge_down fuel' st
    end.

  (** [calc_cycle_cabl_level], temporal_mapping.py:98-121 *)
  Definition iterations (ls : tmlevels) : list Z := map (fun l => zprod (map snd l)) ls.
  Definition cycles_cabl (ls : tmlevels) : list Z :=
    map (fun lv => zprod (firstn (S lv) (iterations ls))) (seq 0 (length ls)).
  Definition calc_cycles (st : dict string tmlevels) : result (dict string (list Z) * Z) :=
    let cabl := map (fun kv => (fst kv, cycles_cabl (snd kv))) st in
    totals <- rmap (fun kv => of_option IndexError
                      (nth_error (snd kv) (length (snd kv) - 1))) cabl ;;
    match totals with
    | [] => Err IndexError
    | t0 :: _ => if forallb (fun x => x =? t0)%Z totals then Ok (cabl, t0) else Err AssertionError
    end.

  (** Product of the outermost loops of a level while they are in [dims],
      temporal_mapping.py:143-152. *)
  Fixpoint top_run (dims : list string) (rev_loops : list tloop) : Z :=
    match rev_loops with
    | [] => 1
    | x :: l => if memb (fst x) dims then snd x * top_run dims l else 1
    end.
  (** [calc_top_r_and_ir_loop], temporal_mapping.py:123-155, for one operand: entry 0
      is the placeholder of the operational array level. *)
  Definition top_sizes (dims : list string) (ls : tmlevels) : list Z :=
    1 :: map (fun l => top_run dims (rev l)) ls.

  (** The constructor, temporal_mapping.py:22-43 *)
  Definition build_temporal_mapping (fuel : nat) (mapping : dict string tmlevels)
    : result (dict string tmlevels * dict string Z * dict string (list Z) * Z) :=
    m <- merge_down fuel mapping ;;
    c <- calc_cycles (fst m) ;;
    Ok (fst m, snd m, fst c, snd c).
End Temporal.
