(** Model of zigzag/stages/mapping/spatial_mapping_conversion.py: limiting the user's
    unrollings and attaching them to memory levels. *)
From Coq Require Import QArith.
From Verif Require Import Base Model_SpatialMap.
Local Open Scope result_scope.

(** [mapping[dim] if dim in mapping.layer_dims else 0] *)
Definition dim_or_zero (d : string) (m : dict string Q) : Q :=
  match dget d m with Some u => u | None => 0 end.

(** [check_if_oa_dim_mapping_is_first_max], spatial_mapping_conversion.py:248-273 *)
Definition is_first_max (o d : string) (sm : dict string (dict string Q)) : result bool :=
  mx <- of_option ValueError (qmax_list (map (dim_or_zero d) (values sm))) ;;
  if negb (qgt mx 0) then Err AssertionError
  else
    match find (fun om => match dget d (snd om) with Some u => Qeq_bool u mx | None => false end) sm with
    | Some om => Ok (eqb o (fst om))
    | None => Err StopIteration
    end.

(** [calc_unrolled_loop_size_on_early_oa_dims], spatial_mapping_conversion.py:275-291 *)
Fixpoint early_size (o d : string) (sm : list (string * dict string Q)) : Q :=
  match sm with
  | [] => 1
  | (o', m) :: sm =>
      if eqb o o' then 1
      else (qprod (map snd (filter (fun kv => eqb d (fst kv)) m)) * early_size o d sm)%Q
  end.

(** Python's [int(q)]: truncation *)
Definition trunc (q : Q) : Z := Z.quot (Qnum q) (Zpos (Qden q)).

(** [generate_limited_user_spatial_mapping], spatial_mapping_conversion.py:135-190.  True
    division is exact here; the quotients are of small integers, for which ceiling and
    truncation of the rounded quotient agree with the exact ones. *)
Definition limited (sizes : dict string Z) (oa_sizes : dict string Z) (o : string)
    (loop : string * Q) (user limited_sm : dict string (dict string Q)) (decimal : bool)
  : result (option (string * Q)) :=
  let d := fst loop in
  match dget d sizes with
  | None => Ok None
  | Some l =>
      oas <- dgetr o oa_sizes ;;
      let u := if qgt (snd loop) (inject_Z oas) then inject_Z oas else snd loop in
      if negb (Qle_bool u (inject_Z l)) then Err AssertionError
      else
        first <- is_first_max o d user ;;
        if first then
          let early := early_size o d limited_sm in
          if Qeq_bool (u * early) 0 then Err ZeroDivisionError
          else
            let t := Qceiling (inject_Z l / (u * early)) in
            if (t =? 0)%Z then Err ZeroDivisionError
            else
              let r := (inject_Z l / inject_Z t / early)%Q in
              Ok (Some (d, if decimal then r else inject_Z (trunc r)))
        else Ok (Some (d, u))
  end.

(** One array dimension, spatial_mapping_conversion.py:85-119 *)
Definition convert_oa (sizes oa_sizes : dict string Z) (user : dict string (dict string Q))
    (acc : dict string (dict string Q) * dict string (dict string Q))
    (om : string * dict string Q)
  : result (dict string (dict string Q) * dict string (dict string Q)) :=
  let '(lim, lim_int) := acc in
  rows <- rmap (fun loop =>
      a <- limited sizes oa_sizes (fst om) loop user lim true ;;
      b <- limited sizes oa_sizes (fst om) loop user lim_int false ;;
      Ok (match a, b with Some x, Some y => [(x, y)] | _, _ => [] end)) (snd om) ;;
  match concat rows with
  | [] => Ok (lim, lim_int)
  | rs => Ok (dset (fst om) (fold_left (fun m x => dset (fst x) (snd x) m) (map fst rs) []) lim,
              dset (fst om) (fold_left (fun m x => dset (fst x) (snd x) m) (map snd rs) []) lim_int)
  end.

(** The two limited mappings of [convert_user_spatial_mapping],
    spatial_mapping_conversion.py:81-119 *)
Definition limit_mapping (sizes oa_sizes : dict string Z) (user : dict string (dict string Q))
  : result (dict string (dict string Q) * dict string (dict string Q)) :=
  rfold (convert_oa sizes oa_sizes user) ([], []) user.

(** Merging the loops of one array dimension into a level,
    spatial_mapping_conversion.py:217-221 and 235-240 *)
Definition merge_loops (acc : dict string Q) (m : dict string Q) : dict string Q :=
  fold_left (fun acc du => dset (fst du) (match dget (fst du) acc with
                                          | Some v => (v * snd du)%Q
                                          | None => snd du end) acc) m acc.

(** One memory level, spatial_mapping_conversion.py:207-227: the dimensions it serves (a
    set, in the order Python visits it) leave the user mapping *)
Fixpoint level_loops (served : list string) (usm : dict string (dict string Q)) (acc : dict string Q)
  : dict string Q * dict string (dict string Q) :=
  match served with
  | [] => (acc, usm)
  | o :: served =>
      match dget o usm with
      | Some m => level_loops served (ddel o usm) (merge_loops acc m)
      | None => level_loops served usm acc
      end
  end.

(** [generate_mapping_per_mem_lvl] for one operand, given the served dimensions of each of
    its memory levels, spatial_mapping_conversion.py:200-245 *)
Fixpoint per_mem_lvl (levels : list (list string)) (usm : dict string (dict string Q))
  : list (list (string * Q)) :=
  match levels with
  | [] => [fold_left merge_loops (values usm) []]
  | served :: levels =>
      let '(lv, usm') := level_loops served usm [] in
      lv :: per_mem_lvl levels usm'
  end.

Definition mapping_per_mem_lvl (levels_of : dict string (list (list string)))
    (usm : dict string (dict string Q)) : dict string (list (list (string * Q))) :=
  map (fun ol => (fst ol, per_mem_lvl (snd ol) usm)) levels_of.
