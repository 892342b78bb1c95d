(** Model of zigzag/mapping/mapping.py: the complete mapping of a layer, its data sizes,
    access counts and transfer rates.

    Loop sizes are exact rationals.  The quantities of an operand are computed operand
    by operand, where the code computes one quantity for all operands before the next:
    which exception comes first when several operands fail may differ. *)
From Verif Require Import Base Model_Alloc Model_Temporal Model_Decouple Model_SpatialInt Model_DataMove.
Local Open Scope result_scope.

Notation qlevels := (list (list qloop)).

(** Python's [int(q)]: towards zero *)
Definition py_int (q : Q) : Z := Z.quot (Qnum q) (Zpos (Qden q)).
(** [l[i]] for a non-negative index *)
Definition at_ {A} (l : list A) (i : nat) : result A := of_option IndexError (nth_error l i).
(** Python's [//] on integers *)
Definition zfloordiv (a b : Z) : result Z := if (b =? 0)%Z then Err ZeroDivisionError else Ok (a / b).

Definition q_levels (ls : tmlevels) : qlevels := map (map (fun x => (fst x, inject_Z (snd x)))) ls.

(** [combine_spatial_temporal_mapping_dict], mapping.py:87-119, for one operand:
    [seed] is tm_dict_seed[operand].  The 1s2t levels come without their empty level 0. *)
Fixpoint combine_levels (su seed : qlevels) : result (qlevels * qlevels) :=
  match su with
  | [] => Ok ([], [])
  | s :: su' =>
      match seed with
      | cur :: ((above :: _) as seed') =>
          r <- combine_levels su' seed' ;;
          Ok ((cur ++ s) :: fst r, (above ++ s) :: snd r)
      | _ => Err IndexError
      end
  end.
Definition combined (su : qlevels) (tm : tmlevels) : result (qlevels * qlevels) :=
  r <- combine_levels su ([[]] ++ q_levels tm ++ [[]]) ;;
  Ok (fst r, [] :: snd r).

(** [get_psum_flags], mapping.py:121-144: [ir] are the pr-decoupled ir dimensions of the
    output, [ls] its decoupled 1s1t levels (as many as there are architecture levels). *)
Definition ir_flags (ir : list string) (ls : qlevels) : list bool :=
  map (existsb (fun x => memb (fst x) ir && negb (Qle_bool (snd x) 1))) ls.
Definition psum_flags (ir : list string) (ls : qlevels) : list bool :=
  let fs := ir_flags ir ls in
  tl (map (fun lv => existsb (fun b => b) (skipn lv fs)) (seq 0 (length fs))) ++ [false].

(** Product per level of the loops over [dims], mapping.py:170-221 *)
Definition sizes_in (dims : list string) (ls : qlevels) : list Q :=
  map (fun l => qprod (map snd (filter (fun x => memb (fst x) dims) l))) ls.
(** Current and below levels, mapping.py:223-249 *)
Definition cabl (sizes : list Q) : list Q :=
  map (fun lv => qprod (firstn (S lv) sizes)) (seq 0 (length sizes)).
(** Current and above levels with two extra ones, mapping.py:252-259 *)
Definition caal (sizes : list Q) : list Q :=
  map (fun lv => qprod (skipn lv sizes)) (seq 0 (length sizes)) ++ [1%Q; 1%Q].

(** Attributes [r_loop_size_cabl(2)], [ir_loop_size_cabl(2)], [ir_loop_size_per_level],
    [data_elem_per_level(_unrolled)], [data_bit_per_level(_unrolled)],
    [effective_data_elem], [effective_data_bit], [data_access_raw(2)],
    [data_precision_dict] of one operand. *)
Record opdata := mkOpdata {
  od_r_cabl : list Z; od_r_cabl2 : list Z;
  od_ir_level : list Q;
  od_ir_cabl : list Q; od_ir_cabl2 : list Q;
  od_precision : list Z;
  od_elem_unrolled : list Z; od_bit_unrolled : list Z;
  od_elem : list Z; od_bit : list Z;
  od_effective_elem : list Z; od_effective_bit : list Z;
  od_raw : list Z; od_raw2 : list Z }.

(** What the mapping reads of one operand from the temporal and spatial mapping. *)
Record opinput := mkOpinput {
  oi_spatial : qlevels;          (* spatial_mapping.mapping_dict_origin *)
  oi_counts : opcounts;          (* unit_unique, mem_bw_boost, ... *)
  oi_temporal : tmlevels;        (* temporal_mapping.mapping_dic_stationary *)
  oi_mac_stationary : Z;         (* mac_level_data_stationary_cycle *)
  oi_cycles : list Z;            (* cycle_cabl_level *)
  oi_top_r : list Z;             (* top_r_loop_size *)
  oi_top_ir : list Z }.          (* top_ir_loop_size *)

Section Mapping.
  Variable ly : layer.
  Variables (r_dims ir_dims : dict string (list string)) (pr_ops : list string).
  (** input operands and output operand of the layer *)
  Variables (inputs : list string) (out : string).
  (** layer_node.total_mac_count, operand_size_elem[output_operand] *)
  Variables (macs size_out : Z).
  (** temporal_mapping.total_cycle *)
  Variable total : Z.
  (** access_same_data_considered_as_no_access *)
  Variable same_data_free : bool.
  (** read bandwidth towards the array of the memory level of an operand,
      mapping.py:366-369 *)
  Variable read_bw : string -> nat -> Z.

  (** [create_pr_decoupled_relevancy_info().get_ir_layer_dims], layer_node.py:55-66 *)
  Definition decoupled_ir_dims (op : string) : result (list string) :=
    ir <- dgetr op ir_dims ;; Ok (ir ++ map ir_version (keys (l_pr_loop ly))).

  (** [gen_data_precision_dict], mapping.py:146-161 *)
  Definition precision_in (op : string) (mem_levels : nat) : result (list Z) :=
    p <- dgetr op (l_precision ly) ;; Ok (repeat p (S mem_levels)).
  Definition precision_out (flags : list bool) (mem_levels : nat) : result (list Z) :=
    rmap (fun i => b <- at_ flags i ;;
                   if b then dgetr out (l_precision ly) else Ok (l_final_precision ly))
      (seq 0 (S mem_levels)).

  (** [gen_r_ir_loop_list], [calc_data_size], [calc_effective_data_size] and the raw
      counts of [calc_data_access] (mapping.py:163-357) for one operand; [reform1] and
      [reform2] are its decoupled levels. *)
  Definition calc_opdata (op : string) (oi : opinput) (reform1 reform2 : qlevels) (precision : list Z)
    : result opdata :=
    rd <- decoupled_r_dims ly r_dims op ;;
    ird <- decoupled_ir_dims op ;;
    let arch := length (oi_spatial oi) in
    let ls1 := firstn arch reform1 in
    let ls2 := firstn arch reform2 in
    let r1 := map py_round (cabl (sizes_in rd ls1)) in
    let r2 := map py_round (cabl (sizes_in rd ls2)) in
    let ir1 := cabl (sizes_in ird ls1) in
    let ir2 := cabl (sizes_in ird ls2) in
    bit_unrolled <- rmap (fun lv => e <- at_ r2 lv ;; p <- at_ precision lv ;; Ok (e * p)) (seq 0 arch) ;;
    elem <- rmap (fun lv => e <- at_ r2 lv ;; u <- at_ (unit_unique (oi_counts oi)) lv ;;
                            Ok (py_round (inject_Z e * u))) (seq 0 arch) ;;
    bit <- rmap (fun lv => e <- at_ elem lv ;; p <- at_ precision lv ;; Ok (e * p)) (seq 0 arch) ;;
    eff_elem <- rmap (fun lv => e <- at_ r2 lv ;; t <- at_ (oi_top_r oi) lv ;; zfloordiv e t) (seq 0 arch) ;;
    eff_bit <- rmap (fun lv => e <- at_ bit_unrolled lv ;; t <- at_ (oi_top_r oi) lv ;; zfloordiv e t) (seq 0 arch) ;;
    raw <- rmap (fun q => x <- pdiv (inject_Z macs) q ;; Ok (py_round x)) ir1 ;;
    raw2 <- rmap (fun q => x <- pdiv (inject_Z macs) q ;; Ok (py_round x)) ir2 ;;
    Ok (mkOpdata r1 r2 (sizes_in ird ls1) ir1 ir2 precision r2 bit_unrolled elem bit eff_elem eff_bit raw raw2).

  (** The four values of an attribute *)
  Definition values4 (rd_low wr_low rd_high wr_high : Z) : dict direction Z :=
    [(RdLow, rd_low); (WrLow, wr_low); (RdHigh, rd_high); (WrHigh, wr_high)].

  (** [calc_data_access], mapping.py:359-400: input operand at memory level [i] *)
  Definition access_input (op : string) (oi : opinput) (od : opdata) (i : nat) : result pattern :=
    p0 <- new_pattern ;;
    units <- at_ (unit_unique (oi_counts oi)) (S i) ;;
    bits <- at_ (od_bit od) i ;;
    x <- pdiv (inject_Z bits) units ;;
    raw <- at_ (od_raw od) i ;;
    rd_low <- (if same_data_free && Nat.eqb i 0 && (Qfloor x <=? read_bw op i)%Z
               then y <- pdiv (inject_Z raw) (inject_Z (oi_mac_stationary oi)) ;; Ok (py_int y)
               else Ok raw) ;;
    wr_high <- at_ (od_raw2 od) (S i) ;;
    p1 <- set_attribute MoveCount (values4 rd_low 0 0 wr_high) p0 ;;
    prec <- dgetr op (l_precision ly) ;;
    set_attribute Precision (values4 prec 0 0 prec) p1.

  (** mapping.py:402-454: output operand at memory level [i] *)
  Definition access_output (od : opdata) (i : nat) : result pattern :=
    p0 <- new_pattern ;;
    wr_low <- at_ (od_raw od) i ;;
    c1 <- at_ (caal (od_ir_level od)) (S i) ;;
    rd_high <- at_ (od_raw2 od) (S i) ;;
    c2 <- at_ (caal (od_ir_level od)) (S (S i)) ;;
    let rd_low := py_int (inject_Z size_out * (c1 - 1)) in
    let wr_high := py_int (inject_Z size_out * (c2 - 1)) in
    p1 <- set_attribute MoveCount (values4 rd_low wr_low rd_high wr_high) p0 ;;
    full <- dgetr out (l_precision ly) ;;
    let final := l_final_precision ly in
    let '(rl, wl) := if negb (rd_low =? 0)%Z then (full, full) else (0, final) in
    let '(rh, wh) := if negb (wr_high =? 0)%Z then (full, full) else (final, 0) in
    set_attribute Precision (values4 rl wl rh wh) p1.

  (** [cycle_each_level], mapping.py:460-474 *)
  Definition cycle_each_level (op : string) (oi : opinput) : list Z :=
    (if same_data_free && memb op inputs then oi_mac_stationary oi else 1) :: oi_cycles oi.

  (** [req_mem_bw_low_raw] and [req_mem_bw_high_raw], mapping.py:479-500 *)
  Definition bw_raw (op : string) (oi : opinput) (od : opdata) : result (list Q * list Q) :=
    let cyc := cycle_each_level op oi in
    let boost := mem_bw_boost (oi_counts oi) ++ [1] in
    low <- rmap (fun lv => e <- at_ (od_elem_unrolled od) lv ;; p <- at_ (od_precision od) lv ;;
                           c <- at_ cyc lv ;; pdiv (inject_Z (e * p)) (inject_Z c))
             (seq 0 (length (oi_spatial oi))) ;;
    high <- rmap (fun lv => x <- at_ low lv ;; b <- at_ boost lv ;; Ok (x * inject_Z b)%Q)
             (seq 0 (length (oi_spatial oi))) ;;
    Ok (low, high).

  (** mapping.py:504-563 *)
  Definition rates_input (op : string) (oi : opinput) (od : opdata) (bw : list Q * list Q)
      (i : nat) (p0 : pattern) : result pattern :=
    let cyc := cycle_each_level op oi in
    let boost := mem_bw_boost (oi_counts oi) ++ [1] in
    bh <- at_ (snd bw) i ;; bl <- at_ (fst bw) (S i) ;;
    p1 <- set_attribute BwAver (values4 (py_int bh) 0 0 (py_int bl)) p0 ;;
    c <- at_ cyc i ;; c' <- at_ cyc (S i) ;;
    p2 <- set_attribute Period (values4 c 0 0 c') p1 ;;
    n <- zfloordiv total c ;; n' <- zfloordiv total c' ;;
    p3 <- set_attribute PeriodCount (values4 n 0 0 n') p2 ;;
    e <- at_ (od_elem_unrolled od) i ;; b <- at_ boost i ;; e' <- at_ (od_elem_unrolled od) (S i) ;;
    set_attribute AmountPerPeriod (values4 (e * b) 0 0 e') p3.

  (** mapping.py:564-641 *)
  Definition rates_output (flags : list bool) (oi : opinput) (od : opdata) (bw : list Q * list Q)
      (i : nat) (p0 : pattern) : result pattern :=
    let cyc := cycle_each_level out oi in
    let boost := mem_bw_boost (oi_counts oi) ++ [1] in
    bh <- at_ (snd bw) i ;; bl <- at_ (fst bw) (S i) ;;
    c <- at_ cyc i ;; c' <- at_ cyc (S i) ;;
    n <- zfloordiv total c ;; n' <- zfloordiv total c' ;;
    e <- at_ (od_elem_unrolled od) i ;; b <- at_ boost i ;; e' <- at_ (od_elem_unrolled od) (S i) ;;
    f <- at_ flags i ;; f' <- at_ flags (S i) ;;
    let low (x : Z) := if f then x else 0 in
    let high (x : Z) := if f' then x else 0 in
    let entry (l h : Z) := values4 (low l) l h (high h) in
    p1 <- set_attribute BwAver (entry (py_int bh) (py_int bl)) p0 ;;
    p2 <- set_attribute Period (entry c c') p1 ;;
    p3 <- set_attribute PeriodCount (entry n n') p2 ;;
    set_attribute AmountPerPeriod (entry (e * b) e') p3.

  (** Instant behaviour, mapping.py:643-668 *)
  Definition instants (oi : opinput) (i : nat) (p0 : pattern) : result pattern :=
    aver <- get_attribute BwAver p0 ;;
    cur <- at_ (oi_top_ir oi) i ;;
    next <- at_ (oi_top_ir oi) (S i) ;;
    let factor (k : direction) := match k with RdLow | WrLow => cur | _ => next end in
    inst <- rmap (fun k => x <- four_get k aver ;; Ok (k, x * factor k)) directions ;;
    p1 <- set_attribute BwInst inst p0 ;;
    period <- get_attribute Period p1 ;;
    win <- rmap (fun k => x <- four_get k period ;;
                          y <- pdiv (inject_Z x) (inject_Z (factor k)) ;; Ok (k, py_int y)) directions ;;
    set_attribute TransWindow win p1.

  (** [disable_data_traffic_external], mapping.py:670-677, for one operand; without
      memory levels the index -1 is out of range. *)
  Fixpoint disable_external (ps : list pattern) : result (list pattern) :=
    match ps with
    | [] => Err IndexError
    | [p] => Ok [update_single_dir_data WrHigh 0 (update_single_dir_data RdHigh 0 p)]
    | p :: ps' => r <- disable_external ps' ;; Ok (p :: r)
    end.

  (** One operand: its data and its unit memories before external traffic is disabled *)
  Definition operand_movement (flags : list bool) (op : string) (oi : opinput)
      (reform1 reform2 : qlevels) : result (opdata * list pattern) :=
    let mem := length (oi_temporal oi) in
    prec <- (if memb op inputs then precision_in op mem else precision_out flags mem) ;;
    od <- calc_opdata op oi reform1 reform2 prec ;;
    bw <- bw_raw op oi od ;;
    ps <- rmap (fun i =>
            p <- (if memb op inputs then p <- access_input op oi od i ;; rates_input op oi od bw i p
                  else p <- access_output od i ;; rates_output flags oi od bw i p) ;;
            instants oi i p) (seq 0 mem) ;;
    Ok (od, ps).

  (** Combined and decoupled levels of all operands, mapping.py:47-57 *)
  Definition reforms (ois : dict string opinput)
    : result (dict string qlevels * dict string qlevels) :=
    both <- rmap (fun kv => c <- combined (oi_spatial (snd kv)) (oi_temporal (snd kv)) ;; Ok (fst kv, c)) ois ;;
    let rir := rir_dims r_dims ir_dims in
    one <- decouple_pr_loop ly rir pr_ops (map (fun kv => (fst kv, fst (snd kv))) both) ;;
    two <- decouple_pr_loop ly rir pr_ops (map (fun kv => (fst kv, snd (snd kv))) both) ;;
    Ok (one, two).

  (** The constructor [Mapping.__init__], mapping.py:22-85; [ois] has an entry per layer
      operand.  Result: psum flags and per operand its data and unit memories. *)
  Definition build_mapping (ois : dict string opinput)
    : result (list bool * dict string (opdata * list pattern)) :=
    rs <- reforms ois ;;
    ird <- decoupled_ir_dims out ;;
    lsO <- dgetr out (fst rs) ;;
    let flags := psum_flags ird lsO in
    r <- rmap (fun kv =>
           l1 <- dgetr (fst kv) (fst rs) ;;
           l2 <- dgetr (fst kv) (snd rs) ;;
           m <- operand_movement flags (fst kv) (snd kv) l1 l2 ;;
           ps <- disable_external (snd m) ;;
           Ok (fst kv, (fst m, ps))) ois ;;
    Ok (flags, r).
End Mapping.
