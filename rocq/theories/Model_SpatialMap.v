(** Model of zigzag/mapping/spatial_mapping.py: validity and reduction of a user spatial
    mapping.  A mapping is a dict from array dimensions to dicts from layer dimensions
    to unrollings (exact rationals). *)
From Coq Require Import QArith.
From Verif Require Import Base.
Local Open Scope result_scope.

Notation oamap := (dict string Q) (only parsing).
Notation spmap := (dict string (dict string Q)) (only parsing).

(** [a > b] on Python numbers *)
Definition qgt (a b : Q) : bool := negb (Qle_bool a b).

(** [MappingSingleOADim.utilization], spatial_mapping.py:21-24 *)
Definition utilization (m : oamap) : Q := qprod (values m).

(** [flatten_unrollings], spatial_mapping.py:251-258 *)
Definition flatten_unrollings (sm : spmap) : list (string * Q) := concat (values sm).

(** [all_contained_layer_dims], spatial_mapping.py:223-226 (a set: every dimension
    once, order chosen by the caller) *)
Definition contained_dims (sm : spmap) : list string :=
  nodup string_dec (map fst (flatten_unrollings sm)).

(** [get_total_unrolling_of_layer_dim], spatial_mapping.py:228-230 *)
Definition total_unrolling (d : string) (sm : spmap) : Q :=
  qprod (map snd (filter (fun kv => eqb (fst kv) d) (flatten_unrollings sm))).

(** [is_valid], spatial_mapping.py:97-145.  [oa = None] when the array dimensions
    are not initialised.  The set of array dimensions is visited in the order of the
    dict; only the exception raised can depend on it. *)
Section Valid.
  Variable maxu : dict string (dict string Q).
  Variable sizes : dict string Q.
  Variable oa_sizes : dict string Q.

  Fixpoint dims_valid (lim : dict string Q) (l : list (string * Q)) : bool :=
    match l with
    | [] => true
    | (d, u) :: l =>
        match dget d lim with
        | None => false
        | Some m => if qgt u m then false else dims_valid lim l
        end
    end.

  Fixpoint oa_valid (l : list (string * dict string Q)) : result bool :=
    match l with
    | [] => Ok true
    | (o, m) :: l =>
        ok <- match m with
        | [] => Ok true
        | _ => lim <- dgetr o maxu ;; Ok (dims_valid lim m)
        end ;;
        if ok then
          s <- dgetr o oa_sizes ;;
          if qgt (utilization m) s then Ok false else oa_valid l
        else Ok false
    end.
End Valid.

Definition is_valid (oa : option (dict string Q)) (maxu : dict string (dict string Q))
    (sizes : dict string Q) (sm : spmap) : result bool :=
  match oa with
  | None => Err AssertionError
  | Some oa_sizes =>
      if negb (forallb (fun o => dmem o oa_sizes) (keys sm)) then Err AssertionError
      else if negb (forallb (fun o => dmem o sm) (keys oa_sizes)) then Err AssertionError
      else
        ok <- oa_valid maxu oa_sizes sm ;;
        if ok then
          if negb (forallb (fun d => dmem d sizes) (contained_dims sm)) then Ok false
          else Ok (forallb (fun ds => Qle_bool (total_unrolling (fst ds) sm) (snd ds)) sizes)
        else Ok false
  end.

(** [delete_layer_dim], spatial_mapping.py:260-264 *)
Definition delete_layer_dim (d : string) (sm : spmap) : spmap :=
  map (fun om => (fst om, ddel d (snd om))) sm.

(** [check_and_reduce], spatial_mapping.py:147-216.  Python's choices of set elements
    are oracles: the two orders in which the sets of layer dimensions are visited, the
    layer dimension dropped from an over-utilised array dimension, and the array
    dimension a layer dimension is dropped from. *)
Section Reduce.
  Variables order1 order2 : list string -> list string.
  Variable pick_dim : string -> oamap -> string.
  Variable pick_oa : string -> spmap -> string.
  Variable oa_sizes : dict string Q.
  Variable maxu : dict string (dict string Q).
  Variable sizes : dict string Q.

  (** lines 161-170 *)
  Definition drop_unknown (sm : spmap) : spmap :=
    fold_left (fun sm d => if dmem d sizes then sm else delete_layer_dim d sm)
      (order1 (contained_dims sm)) sm.

  (** lines 175-186: limit each unrolling of one array dimension *)
  Fixpoint limit_dims (o : string) (m : list (string * Q)) : result (list (string * Q)) :=
    match m with
    | [] => Ok []
    | (d, u) :: m =>
        lim <- dgetr o maxu ;; x <- dgetr d lim ;;
        rest <- limit_dims o m ;;
        Ok ((d, if qgt u x then x else u) :: rest)
    end.

  (** lines 189-200: [while utilization > size]; an empty set has no next element *)
  Fixpoint shrink_oa (fuel : nat) (o : string) (s : Q) (m : oamap) : result oamap :=
    if qgt (utilization m) s then
      match fuel with
      | O => Err OutOfFuel
      | S f =>
          match m with
          | [] => Err StopIteration
          | _ => shrink_oa f o s (ddel (pick_dim o m) m)
          end
      end
    else Ok m.

  (** lines 173-200 *)
  Fixpoint limit_oas (l : list (string * dict string Q)) : result spmap :=
    match l with
    | [] => Ok []
    | (o, m) :: l =>
        m1 <- limit_dims o m ;;
        s <- dgetr o oa_sizes ;;
        m2 <- shrink_oa (length m1) o s m1 ;;
        rest <- limit_oas l ;;
        Ok ((o, m2) :: rest)
    end.

  (** lines 212-216; [set().pop()] of an empty set is a KeyError *)
  Fixpoint shrink_dim (fuel : nat) (d : string) (s : Q) (sm : spmap) : result spmap :=
    if qgt (total_unrolling d sm) s then
      match fuel with
      | O => Err OutOfFuel
      | S f =>
          match filter (fun om => dmem d (snd om)) sm with
          | [] => Err KeyError
          | _ =>
              let o := pick_oa d sm in
              m <- dgetr o sm ;;
              shrink_dim f d s (dset o (ddel d m) sm)
          end
      end
    else Ok sm.

  (** lines 203-216 *)
  Definition limit_layer_dims (sm : spmap) : result spmap :=
    rfold (fun sm d => s <- dgetr d sizes ;; shrink_dim (length sm) d s sm) sm
      (order2 (contained_dims sm)).

  Definition check_and_reduce (sm : spmap) : result spmap :=
    sm1 <- limit_oas (drop_unknown sm) ;; limit_layer_dims sm1.
End Reduce.

(** [hw_utilization] and [get_performance_indicator], spatial_mapping.py:218-221, 232-249;
    [max] of an empty list is a ValueError. *)
Definition hw_utilization (sm : spmap) : Z :=
  let q := qprod (map (fun om => utilization (snd om)) sm) in
  Z.quot (Qnum q) (Zpos (Qden q)).
Fixpoint qmax_list (l : list Q) : option Q :=
  match l with
  | [] => None
  | x :: l => match qmax_list l with None => Some x | Some y => Some (if qgt y x then y else x) end
  end.
Definition performance_indicator (sm : spmap) : result Q :=
  let hw := inject_Z (hw_utilization sm) in
  mx <- of_option ValueError (qmax_list (map (fun d => total_unrolling d sm) (contained_dims sm))) ;;
  if Qeq_bool mx 0 then Err ZeroDivisionError
  else
    let div := (hw / mx - 1)%Q in
    if qgt hw div then Ok (hw + div)%Q else Err AssertionError.
