(** Model of zigzag/cost_model/cost_model.py, second part: transfer cycles, stalls per
    port, on- and off-loading, and the overall latency.

    Floats are exact rationals. *)
From Coq Require Import Qround.
From Verif Require Import Base Model_Alloc Model_Decouple Model_SpatialInt Model_DataMove Model_Mapping Model_Links
  Model_Generation Model_Cost.
Local Open Scope result_scope.

(** Python's [max] of a list of integers *)
Definition zmax_list (l : list Z) : Z := fold_left Z.max l 0.
Definition qmax (x y : Q) : Q := if Qle_bool x y then y else x.
Definition qmin (x y : Q) : Q := if Qle_bool x y then x else y.

(** [PortActivity], port_activity.py:9-46; served_op_lv_dir identifies it. *)
Record activity := mkActivity {
  pa_real : Z; pa_allowed : Z; pa_period : Z; pa_count : Z; pa_served : string * nat * direction }.
(** stall_or_slack and mem_updating_window, port_activity.py:43-46 *)
Definition stall_or_slack (a : activity) : Z := (pa_real a - pa_allowed a) * (pa_count a - 1).
Definition updating_window (a : activity) : Z := pa_allowed a * (pa_count a - 1).

(** * Union of updating windows *)

(** The stop of the slice [: A] on an axis of length [P] *)
Definition slice_stop (a p : Z) : Z := if (a <? 0)%Z then Z.max 0 (p + a) else Z.min a p.

(** Entries [input_dict[key]] as (P, A, PC). *)
Definition windows := dict (string * nat * direction) (Z * Z * Z).

(** cost_model.py:408-416: the first activity that may use its whole period decides *)
Fixpoint collect_windows (l : list activity) (d : windows) : Z + windows :=
  match l with
  | [] => inr d
  | a :: l' =>
      if (pa_period a =? pa_allowed a)%Z then inl (pa_period a * pa_count a)
      else collect_windows l' (dset (pa_served a) (pa_period a, pa_allowed a, pa_count a) d)
  end.
(** cost_model.py:418-423: the first entry with the longest period *)
Definition longest (d : windows) : Z * option Z :=
  fold_left (fun (best : Z * option Z) kv =>
               let '(p, _, c) := snd kv in if (fst best <? p)%Z then (p, Some c) else best) d (0, None).
(** cost_model.py:425-430: [numpy] can reshape to periods of [p] only when they divide
    the longest one; a period of zero cannot be reshaped to either. *)
Definition reshapable (max_period p : Z) : bool := (0 <? p)%Z && (max_period mod p =? 0)%Z.
(** column [t] of the indicators: some window is open *)
Definition window_open (d : windows) (t : Z) : bool :=
  existsb (fun kv => let '(p, a, _) := snd kv in (t mod p <? slice_stop a p)%Z) d.
(** [__calc_mem_updating_window_union], cost_model.py:392-435 *)
Definition window_union (l : list activity) : result Z :=
  match collect_windows l [] with
  | inl x => Ok x
  | inr d =>
      let '(max_period, count) := longest d in
      if forallb (fun kv => let '(p, _, _) := snd kv in reshapable max_period p) d then
        let closed := length (filter (fun t => negb (window_open d t)) (map Z.of_nat (seq 0 (Z.to_nat max_period)))) in
        c <- of_option KeyError count ;;
        Ok ((max_period - Z.of_nat closed) * c)
      else Err ValueError
  end.

(** * Balanced reduction *)

(** One iteration, cost_model.py:1189-1203: entries (c, (index, m, reduction)) in sorted
    order; the first [i]+1 are lowered. *)
Definition bal_entry := (Q * (nat * Q * Q))%type.
Definition lower (d : Q) (e : bal_entry) : bal_entry :=
  let '(c, (i, m, r)) := e in (c - d, (i, m, r + d))%Q.
Fixpoint reduce_loop (i n : nat) (s : Q) (es : list bal_entry) : list bal_entry :=
  match n with
  | O => es
  | S n' =>
      match nth_error es i with
      | None => es
      | Some (c, (_, m, _)) =>
          let k := inject_Z (Z.of_nat (S i)) in
          let max_reducible := ((c - m) * k)%Q in
          if Qle_bool max_reducible s then
            reduce_loop (S i) n' (s - max_reducible)%Q (map (lower (c - m)%Q) (firstn (S i) es) ++ skipn (S i) es)
          else map (lower (s / k)%Q) (firstn (S i) es) ++ skipn (S i) es
      end
  end.
(** [reduce_balanced], cost_model.py:1175-1209; [m_list[i]] raises IndexError when the
    minima are fewer. *)
Definition reduce_balanced (cs ms : list Q) (s : Q) : result (list Q * list Q) :=
  let zeros := map (fun _ => 0%Q) cs in
  if Qle_bool s 0 || match cs with [] => true | _ => false end then Ok (cs, zeros)
  else if (length ms <? length cs)%nat then Err IndexError
  else
    let es := sort_desc (combine cs (map (fun im => (fst im, snd im, 0%Q)) (combine (seq 0 (length cs)) ms))) in
    let es' := reduce_loop 0 (length cs) s es in
    (* back to the original order *)
    let at_index j := find (fun e : bal_entry => Nat.eqb (fst (fst (snd e))) j) es' in
    Ok (map (fun j => match at_index j with Some (c, _) => c | None => 0%Q end) (seq 0 (length cs)),
        map (fun j => match at_index j with Some (_, (_, _, r)) => r | None => 0%Q end) (seq 0 (length cs))).

(** The dicts that [calc_data_loading_latency] fills, cost_model.py:1047-1058; strings
    "<operand><level>_<direction>" are (level, direction) pairs per operand. *)
Record loading := mkLoading {
  lo_on : dict string (dict (nat * direction) (Q * bool));   (* data_loading_cc_per_op *)
  lo_off : dict string (dict (nat * direction) (Q * bool));  (* data_offloading_cc_per_op *)
  lo_cycles : dict nat (dict string Q);                      (* loading_cycles_during_computation *)
  lo_bw : dict nat (dict string Z);                          (* loading_bw_during_computation *)
  lo_total_cycles : dict nat Q; lo_total_bw : dict nat Z }.

(** Result of the evaluation *)
Record latency := mkLatency {
  la_stall : Z; la_on : Q; la_off : Q;
  la_ideal : Z; la_temporal : Q;
  la_total0 : Q; la_total1 : Q; la_total2 : Q;
  la_spatial_util : Q; la_util0 : Q; la_util1 : Q; la_util2 : Q }.

Section Latency.
  Variable ci : inputs.

  (** * Transfer cycles *)

  (** [calculate_real_data_transfer_cycles], cost_model.py:689-705 *)
  Definition real_cycles (op mem_op : string) (lv : nat) : result (four Z) :=
    m <- get_memory_level ci mem_op lv ;;
    p <- unit_mem (in_map_int ci) op lv ;;
    d <- rmap (fun k =>
           prec <- attr_of p Precision k ;;
           amount <- attr_of p AmountPerPeriod k ;;
           bw <- bandwidth (ml_bw_max m) mem_op k ;;
           match bw with
           | None | Some 0%Z => Ok (k, 0%Z)
           | Some b => Ok (k, Qceiling (inject_Z (amount * prec) / inject_Z b))
           end) directions ;;
    four_way 0 (Some d).
  (** [calculate_allowed_transfer_cycles], cost_model.py:707-725 *)
  Definition allowed_cycles (flags : dict string (list bool)) (op : string) (lv : nat) : result (four Z) :=
    p <- unit_mem (in_map_int ci) op lv ;;
    fs <- dgetr op flags ;;
    this <- at_ fs lv ;;
    next <- at_ fs (S lv) ;;
    let attr_for (b : bool) := if b then Period else TransWindow in
    d <- rmap (fun k =>
           x <- attr_of p (match k with RdHigh | WrHigh => attr_for next | _ => attr_for this end) k ;;
           Ok (k, Qceiling (inject_Z x * in_cpo ci))) directions ;;
    four_way 0 (Some d).
  (** [calc_allowed_and_real_data_transfer_cycle_per_data_transfer_link], cost_model.py:665-687 *)
  Definition transfer_cycles (flags : dict string (list bool))
    : result (dict string (list (four Z)) * dict string (list (four Z))) :=
    r <- rmap (fun op =>
           mem_op <- layer_to_mem_op (in_links ci) op ;;
           n <- levels_of (in_map_int ci) op ;;
           l <- rmap (fun lv => a <- allowed_cycles flags op lv ;; r <- real_cycles op mem_op lv ;; Ok (a, r)) (seq 0 n) ;;
           Ok (op, l)) (in_ops ci) ;;
    Ok (map (fun kv => (fst kv, map fst (snd kv))) r, map (fun kv => (fst kv, map snd (snd kv))) r).

  Definition cycles_at (d : dict string (list (four Z))) (op : string) (lv : nat) (k : direction) : result Z :=
    l <- dgetr op d ;; f <- at_ l lv ;; four_get k f.

  (** * Stalls *)

  (** cost_model.py:739-760: the activities of one port *)
  Definition port_activities (allowed real : dict string (list (four Z))) (pt : port) : result (list activity) :=
    r <- rmap (fun s =>
           let '(mem_op, lv, k) := s in
           if contains_mem_op (in_links ci) mem_op then
             op <- mem_to_layer_op (in_links ci) mem_op ;;
             p <- unit_mem (in_map_int ci) op lv ;;
             count <- attr_of p PeriodCount k ;;
             if (count =? 0)%Z then Ok []
             else
               period <- attr_of p Period k ;;
               rc <- cycles_at real op lv k ;;
               ac <- cycles_at allowed op lv k ;;
               Ok [mkActivity rc ac (Qceiling (inject_Z period * in_cpo ci)) count (op, lv, k)]
           else Ok []) (pt_served pt) ;;
    Ok (concat r).
  (** cost_model.py:774-798: the stall or slack of one port, if it is active *)
  Definition port_stall (l : list activity) : result (option Z) :=
    match l with
    | [] => Ok None
    | [a] => Ok (Some (stall_or_slack a))
    | _ =>
        u <- window_union l ;;
        let pos := zsum (map stall_or_slack (filter (fun a => (0 <? stall_or_slack a)%Z) l)) in
        let neg := zsum (map stall_or_slack (filter (fun a => negb (0 <? stall_or_slack a)%Z) l)) in
        let win := zsum (map updating_window l) in
        Ok (Some (pos + Z.max 0 (neg + win - u)))
    end.
  (** cost_model.py:732-803; port activities of a memory are kept per port name *)
  Definition memory_activities (allowed real : dict string (list (four Z))) (m : memlvl)
    : result (dict string (list activity)) :=
    rfold (fun d pt => a <- port_activities allowed real pt ;; Ok (dset (pt_name pt) a d)) [] (ml_ports m).
  Definition stall_slack_comb (allowed real : dict string (list (four Z))) : result Z :=
    ms <- rmap (memory_activities allowed real) (in_levels ci) ;;
    ss <- rmap (fun d => rmap (fun kv => port_stall (snd kv)) d) ms ;;
    Ok (zmax_list (concat (map (fun o : option Z => match o with Some x => [x] | None => [] end) (concat ss)))).

  (** * On- and off-loading *)

  (** [port_is_shared_by_two_input_operands], memory_port.py:60-63 *)
  Definition shared_by_inputs (pt : port) : bool :=
    existsb (fun s => eqb (fst (fst s)) "I1"%string) (pt_served pt) &&
    existsb (fun s => eqb (fst (fst s)) "I2"%string) (pt_served pt).

  (** cost_model.py:854-864, 905-915: input memory operands go to the on-loading dict *)
  Definition record_cycles (st : loading) (pt : port) (mem_op op : string) (lv : nat) (k : direction) (c : Q)
    : result loading :=
    let v := (c, shared_by_inputs pt) in
    if memb mem_op ["I1"; "I2"]%string
    then d <- dgetr op (lo_on st) ;;
         Ok (mkLoading (dset op (dset (lv, k) v d) (lo_on st)) (lo_off st) (lo_cycles st) (lo_bw st) (lo_total_cycles st) (lo_total_bw st))
    else d <- dgetr op (lo_off st) ;;
         Ok (mkLoading (lo_on st) (dset op (dset (lv, k) v d) (lo_off st)) (lo_cycles st) (lo_bw st) (lo_total_cycles st) (lo_total_bw st)).

  (** The loop of [calc_loading_single_port_period_count_1], cost_model.py:839-872 *)
  Definition record_single (pt : port) (comp : Q) (st : loading) (x : (string * nat * direction) * (Q * Q)) : result loading :=
    let '((mem_op, lv, k), (remainder, reduction)) := x in
    op <- mem_to_layer_op (in_links ci) mem_op ;;
    st1 <- record_cycles st pt mem_op op lv k remainder ;;
    let cs := match dget (pt_id pt) (lo_cycles st1) with Some d => d | None => [] end in
    let bs := match dget (pt_id pt) (lo_bw st1) with Some d => d | None => [] end in
    share <- pdiv reduction comp ;;
    Ok (mkLoading (lo_on st1) (lo_off st1) (dset (pt_id pt) (dset mem_op reduction cs) (lo_cycles st1))
          (dset (pt_id pt) (dset mem_op (Qceiling (share * inject_Z (pt_bw_max pt))) bs) (lo_bw st1))
          (lo_total_cycles st1) (lo_total_bw st1)).
  (** cost_model.py:805-878; [stall] is stall_slack_comb *)
  Definition loading_single (real : dict string (list (four Z))) (stall : Z) (pt : port)
      (combs : list (string * nat * direction)) (req_bw : Z) (st : loading) : result loading :=
    cm <- rmap (fun s =>
            let '(mem_op, lv, k) := s in
            op <- mem_to_layer_op (in_links ci) mem_op ;;
            x <- dgetr op (in_map_int ci) ;;
            bits <- at_ (od_bit_unrolled (fst x)) 1 ;;
            mn <- pdiv (inject_Z bits) (inject_Z (pt_bw_max pt)) ;;
            c <- cycles_at real op lv k ;;
            Ok (inject_Z c, inject_Z (Qceiling mn))) combs ;;
    let comp := inject_Z (Qceiling (inject_Z (in_total ci) * in_cpo ci) + stall) in
    share <- pdiv (inject_Z (pt_bw_max pt - req_bw)) (inject_Z (pt_bw_max pt)) ;;
    let surplus := qmax 0 (share * comp)%Q in
    rr <- reduce_balanced (map fst cm) (map snd cm) surplus ;;
    st' <- rfold (record_single pt comp) st (combine combs (combine (fst rr) (snd rr))) ;;
    let cs := match dget (pt_id pt) (lo_cycles st') with Some d => d | None => [] end in
    let bs := match dget (pt_id pt) (lo_bw st') with Some d => d | None => [] end in
    Ok (mkLoading (lo_on st') (lo_off st') (lo_cycles st') (lo_bw st')
          (dset (pt_id pt) (qsum (values cs)) (lo_total_cycles st')) (dset (pt_id pt) (zsum (values bs)) (lo_total_bw st'))).
  (** [calc_loading_single_port_period_count_greater_than_1], cost_model.py:880-917 *)
  Definition loading_multi (real : dict string (list (four Z))) (pt : port)
      (combs : list (string * nat * direction)) (st : loading) : result loading :=
    rfold (fun st s =>
             let '(mem_op, lv, k) := s in
             op <- mem_to_layer_op (in_links ci) mem_op ;;
             p <- unit_mem (in_map_int ci) op lv ;;
             count <- attr_of p PeriodCount k ;;
             if (count =? 0)%Z then Ok st
             else
               c <- cycles_at real op lv k ;;
               record_cycles st pt mem_op op lv k (inject_Z c)) st combs.
  (** [calc_loading_single_port], cost_model.py:919-961 *)
  Definition loading_port (real : dict string (list (four Z))) (stall : Z) (st : loading) (pt : port) : result loading :=
    out_mem <- layer_to_mem_op (in_links ci) (in_out ci) ;;
    cls <- rmap (fun s =>
             let '(mem_op, lv, k) := s in
             if eqb mem_op out_mem && match k with RdLow | WrHigh => true | _ => false end then Ok (s, 0)
             else
               op <- mem_to_layer_op (in_links ci) mem_op ;;
               p <- unit_mem (in_map_int ci) op lv ;;
               count <- attr_of p PeriodCount k ;;
               Ok (s, count)) (pt_served pt) ;;
    let ones := map fst (filter (fun sc => (snd sc =? 1)%Z) cls) in
    let more := map fst (filter (fun sc => negb (snd sc =? 0)%Z && negb (snd sc =? 1)%Z) cls) in
    bws <- rmap (fun s =>
             let '(mem_op, lv, k) := s in
             op <- mem_to_layer_op (in_links ci) mem_op ;;
             p <- unit_mem (in_map_int ci) op lv ;;
             b <- attr_of p BwAver k ;;
             x <- pdiv (inject_Z b) (in_cpo ci) ;;
             Ok (Qceiling x)) more ;;
    st1 <- loading_single real stall pt ones (zsum bws) st ;;
    loading_multi real pt more st1.
  (** [calc_data_loading_latency], cost_model.py:1043-1062 *)
  Definition loading_all (real : dict string (list (four Z))) (stall : Z) : result loading :=
    rfold (fun st m => rfold (loading_port real stall) st (ml_ports m))
      (mkLoading (map (fun op => (op, [])) (in_inputs ci)) [(in_out ci, [])] [] [] [] []) (in_levels ci).

  (** [calc_onloading_combined], cost_model.py:972-994: individual, half shared and shared
      part of one input operand *)
  Definition loading_parts (st : loading) (op : string) : result (Q * Q * Q) :=
    n <- levels_of (in_map ci) op ;;
    rfold (fun parts lv =>
             let '(i, h, s) := parts in
             d <- dgetr op (lo_on st) ;;
             e1 <- dgetr (lv, WrHigh) d ;;
             e2 <- dgetr (S lv, RdLow) d ;;
             let longest := qmax (fst e1) (fst e2) in
             if negb (snd e1) && negb (snd e2) then Ok ((i + longest)%Q, h, s)
             else if snd e1 && snd e2 then Ok (i, h, (s + longest)%Q)
             else Ok (i, longest, s)) (0, 0, 0)%Q (seq 0 (n - 1)).
  (** cost_model.py:996-1015 *)
  Definition onloading (st : loading) : result Q :=
    parts <- rmap (loading_parts st) (in_inputs ci) ;;
    match parts with
    | [] => Err IndexError
    | [(i, _, _)] => Ok i
    | (i1, h1, s1) :: (i2, h2, s2) :: _ =>
        let possible1 := (s1 + qmax (s2 + h2 + i2) (h1 + i1))%Q in
        let possible2 := (s2 + qmax (s1 + h1 + i1) (h2 + i2))%Q in
        Ok (qmin possible1 possible2)
    end.
  (** [calc_offloading_combined], cost_model.py:1017-1035 *)
  Definition offloading (st : loading) : result Q :=
    n <- levels_of (in_map ci) (in_out ci) ;;
    l <- rmap (fun lv =>
           d <- dgetr (in_out ci) (lo_off st) ;;
           e1 <- dgetr (lv, RdHigh) d ;;
           e2 <- dgetr (S lv, WrLow) d ;;
           Ok (qmax (fst e1) (fst e2))) (seq 0 (n - 1)) ;;
    Ok (qsum l).

  (** [calc_overall_latency], cost_model.py:1077-1113 *)
  Definition overall_latency (stall : Z) (on off : Q) : result latency :=
    per <- pdiv (inject_Z (in_macs ci)) (inject_Z (in_units ci)) ;;
    let ideal := Qceiling (inject_Z (Qceiling per) * in_cpo ci) in
    let temporal := (inject_Z (in_total ci) * in_cpo ci)%Q in
    su <- pdiv (inject_Z ideal) temporal ;;
    let l0 := (temporal + inject_Z stall)%Q in
    u0 <- pdiv (inject_Z ideal) l0 ;;
    let l1 := (temporal + inject_Z stall + on)%Q in
    u1 <- pdiv (inject_Z ideal) l1 ;;
    let l2 := (temporal + inject_Z stall + on + off)%Q in
    u2 <- pdiv (inject_Z ideal) l2 ;;
    Ok (mkLatency stall on off ideal temporal l0 l1 l2 su u0 u1 u2).

  (** [calc_latency], cost_model.py:607-629, with the effective utilizations *)
  Definition calc_latency : result latency :=
    ind <- individual ci od_effective_bit ;;
    sh <- shared ci ind ;;
    fl <- calc_double_buffer_flag ci ind sh ;;
    '(allowed, real) <- transfer_cycles (fst fl) ;;
    stall <- stall_slack_comb allowed real ;;
    st <- loading_all real stall ;;
    on <- onloading st ;;
    off <- offloading st ;;
    overall_latency stall on off.

  (** [run], cost_model.py:371-376: utilization, word accesses, energy, latency *)
  Definition evaluate : result (Q * latency) :=
    ind <- individual ci od_bit_unrolled ;;
    sh <- shared ci ind ;;
    acc <- calc_memory_word_access ci ;;
    en <- calc_memory_energy_cost ci acc ;;
    la <- calc_latency ;;
    Ok (snd en, la).
End Latency.
