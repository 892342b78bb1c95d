(** Model of zigzag/mapping/spatial_mapping_internal.py: unit counts, broadcast scope
    and bandwidth boost of a spatial mapping split over the architecture levels. *)
From Verif Require Import Base Model_Alloc Model_Decouple.
Local Open Scope result_scope.

(** Python's [round(q)]: nearest integer, ties to even. *)
Definition py_round (q : Q) : Z :=
  let f := Qfloor q in
  match Qcompare (q - inject_Z f) (1 # 2) with
  | Lt => f
  | Gt => f + 1
  | Eq => if Z.even f then f else f + 1
  end.
(** [round(q, 3)] in decimal arithmetic. *)
Definition py_round3 (q : Q) : Q := (inject_Z (py_round (q * 1000)) / 1000)%Q.

Section Internal.
  Variable ly : layer.
  (** r and ir dimensions per operand, operands with pr dimensions *)
  Variables (r_dims ir_dims : dict string (list string)) (pr_ops : list string).
  Variable layer_operands : list string.

  (** [create_pr_decoupled_relevancy_info().get_r_layer_dims], layer_node.py:55-66 *)
  Definition decoupled_r_dims (op : string) : result (list string) :=
    r <- dgetr op r_dims ;; Ok (r ++ map r_version (keys (l_pr_loop ly))).
  Definition rir_dims : dict string (list string) :=
    map (fun kv => (fst kv, snd kv ++ match dget (fst kv) ir_dims with Some l => l | None => [] end)) r_dims.

  (** [calc_unroll_size], spatial_mapping_internal.py:79-106, for one operand *)
  Definition unroll_size_r (rd : list string) (ls : list (list qloop)) : list Q :=
    map (fun l => qprod (map snd (filter (fun x => memb (fst x) rd) l))) ls.
  Definition unroll_size_ir (rd : list string) (ls : list (list qloop)) : list Q :=
    map (fun l => qprod (map snd (filter (fun x => negb (memb (fst x) rd)) l))) ls.
  Definition unroll_size_total (ls : list (list qloop)) : list Q :=
    map (fun l => qprod (map snd l)) ls.

  (** [prod(sizes[lv:])] for every level *)
  Definition prods_from (sizes : list Q) : list Q :=
    map (fun lv => qprod (skipn lv sizes)) (seq 0 (length sizes)).

  (** Ratio of every level to the next, spatial_mapping_internal.py:153, 169 *)
  Fixpoint ratios_next (qs : list Q) : result (list Q) :=
    match qs with
    | q :: (q' :: _) as rest => x <- pdiv q q' ;; xs <- ratios_next rest ;; Ok (x :: xs)
    | _ => Ok []
    end.

  Record opcounts := mkCounts {
    unit_count : list Z;
    unit_unique : list Q;
    unit_duplicate : list Q;
    data_serve_scope : list Q;
    mem_bw_boost : list Z }.

  (** spatial_mapping_internal.py:79-173 for one operand of the decoupled mapping *)
  Definition counts_of (rd : list string) (ls : list (list qloop)) : result opcounts :=
    let uniq := prods_from (unroll_size_r rd ls) in
    let dup := prods_from (unroll_size_ir rd ls) in
    scope <- ratios_next dup ;;
    boost <- ratios_next uniq ;;
    Ok (mkCounts (map (fun q => py_round (py_round3 q)) (prods_from (unroll_size_total ls)))
          uniq dup scope (map py_round boost)).

  (** The constructor, spatial_mapping_internal.py:15-41.  The check on the MAC level
      unit counts (115-120) precedes the ratios in the code; a division by zero there
      is reported after it. *)
  Definition build_spatial (mapping : dict string (list (list qloop)))
    : result (dict string opcounts) :=
    reform <- decouple_pr_loop ly rir_dims pr_ops mapping ;;
    per_op <- rmap (fun op => ls <- dgetr op reform ;; rd <- decoupled_r_dims op ;; Ok (op, (rd, ls)))
                layer_operands ;;
    bottom <- rmap (fun x => of_option IndexError
                 (nth_error (map (fun q => py_round (py_round3 q))
                               (prods_from (unroll_size_total (snd (snd x))))) 0)) per_op ;;
    _ <- match bottom with
    | b0 :: _ => if forallb (fun b => b =? b0)%Z bottom then Ok tt else Err AssertionError
    | [] => Ok tt
    end ;;
    rmap (fun x => c <- counts_of (fst (snd x)) (snd (snd x)) ;; Ok (fst x, c)) per_op.
End Internal.
