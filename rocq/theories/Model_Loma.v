(** Model of the LOMA temporal mapping engine up to the loops that are permuted
    (zigzag/opt/loma/engine.py). *)
From Verif Require Import Base.
Open Scope result_scope.

(** A loop prime factor: layer dimension and size. *)
Definition loop := (string * Z)%type.

(** * get_temporal_loops, engine.py:133-157 *)

(** Body of the [for] loop, lines 142-153.  [int(np.ceil(size / s))] is the exact
    ceiling of the rational quotient (float rounding not modelled).  A missing
    dimension is the swallowed [KeyError]; a zero unrolling is the
    [ZeroDivisionError] Python raises. *)
Definition temporal_loops_step (sizes : dict string Z) (sl : string * Q)
  : result (dict string Z) :=
  let '(dim, s) := sl in
  match dget dim sizes with
  | None => Ok sizes
  | Some n =>
      if Qeq_bool s 0 then Err ZeroDivisionError
      else
        let q := Qceiling (inject_Z n / s) in
        if q =? 1 then Ok (ddel dim sizes) else Ok (dset dim q sizes)
  end.

(** engine.py:137-157 *)
Definition get_temporal_loops (layer_dim_sizes : dict string Z)
    (spatial_loop_dim_size : list (string * Q)) : result (dict string Z) :=
  sizes <- rfold temporal_loops_step layer_dim_sizes spatial_loop_dim_size ;;
  Ok (filter (fun kv => 1 <? snd kv) sizes).

(** [update_min_lpf_factor], engine.py:159-168.  [None] is "no limit". *)
Definition update_min_lpf_factor (lpf_limit : option Z) (loop_sizes : dict string Z)
  : option Z :=
  match lpf_limit with
  | None => None
  | Some l =>
      let m := Z.of_nat (length loop_sizes) in
      if l <? m then Some m else Some l
  end.

(** * The three dictionaries of get_prime_factors, engine.py:181-184 *)
Record factors := mkFactors {
  pfs : dict string (list Z);
  pf_counts : dict string (list Z);
  pf_count_sums : dict string Z }.

(** [list(((layer_dim, pf),) * count)] for every pair of the zip: lines 267-268 and
    344-345.  A negative count gives no element, as in Python. *)
Definition expand (dim : string) (fs cs : list Z) : list loop :=
  flat_map (fun fc => repeat (dim, fst fc) (Z.to_nat (snd fc))) (combine fs cs).

(** Rebuild [self.lpfs]: lines 265-269 and 342-346. *)
Definition rebuild_lpfs (st : factors) : result (list loop) :=
  ls <- rmap (fun kv =>
         cs <- dgetr (fst kv) (pf_counts st) ;;
         Ok (expand (fst kv) (snd kv) cs)) (pfs st) ;;
  Ok (concat ls).

Section Engine.
  (** sympy's [factorint]: a dict prime -> multiplicity, in any order. *)
  Variable factorint : Z -> list (Z * Z).

  (** engine.py:185-196.  The loop runs over the items of a dict, whose keys are
      distinct, so each assignment to the new dictionaries appends. *)
  Definition initial_factors (loops : dict string Z) : factors :=
    mkFactors
      (map (fun kv => (fst kv, map fst (factorint (snd kv)))) loops)
      (map (fun kv => (fst kv, map snd (factorint (snd kv)))) loops)
      (map (fun kv => (fst kv, zsum (map snd (factorint (snd kv))))) loops).

  (** engine.py:192-193 *)
  Definition initial_lpfs (loops : dict string Z) : list loop :=
    flat_map (fun kv =>
      flat_map (fun pm => repeat (fst kv, fst pm) (Z.to_nat (snd pm)))
               (factorint (snd kv))) loops.

  (** engine.py:200-205: a dummy loop of size 1 on the first layer dimension.
      [layer_dims[0]] on a layer without dimensions is an [IndexError]. *)
  Definition with_dummy (layer_dims : list string) (loops : dict string Z)
    : result (factors * list loop) :=
    match initial_lpfs loops with
    | [] =>
        match layer_dims with
        | [] => Err IndexError
        | d :: _ => Ok (mkFactors [(d, [1])] [(d, [1])] [(d, 1)], [(d, 1)])
        end
    | l => Ok (initial_factors loops, l)
    end.

  (** Add [delta] at position [i]: the tuple comprehensions of lines 247-256. *)
  Fixpoint add_at (i : nat) (delta : Z) (l : list Z) : list Z :=
    match l, i with
    | [], _ => []
    | x :: xs, O => (x + delta) :: xs
    | x :: xs, S i' => x :: add_at i' delta xs
    end.

  (** Loop body of [reduce_static_fps], engine.py:245-260, for one prime factor of
      one pinned loop [(dim, size)].  [tuple.index] of an absent factor is a
      [ValueError]. *)
  Definition reduce_static_factor (dim : string) (size : Z) (st : factors)
      (fm : Z * Z) : result factors :=
    let '(factor, multiplicity) := fm in
    fs <- dgetr dim (pfs st) ;;
    index <- of_option ValueError (index_of factor fs) ;;
    cs <- dgetr dim (pf_counts st) ;;
    c <- of_option IndexError (nth_error cs index) ;;
    if multiplicity <=? c then
      let cs1 := add_at index (- multiplicity) cs in
      sum <- dgetr dim (pf_count_sums st) ;;
      let sums := dset dim (sum - (multiplicity - 1)) (pf_count_sums st) in
      if memb size fs then
        Ok (mkFactors (pfs st) (dset dim (add_at index 1 cs1) (pf_counts st)) sums)
      else
        Ok (mkFactors (dset dim (fs ++ [size]) (pfs st))
                      (dset dim (cs1 ++ [1]) (pf_counts st)) sums)
    else Ok st.

  (** [reduce_static_fps], engine.py:232-269: [static] are the pinned loops of the
      first positions-and-sizes constraint, in order. *)
  Definition reduce_static_fps (static : list loop) (st : factors) : result factors :=
    rfold (fun st sl => rfold (reduce_static_factor (fst sl) (snd sl)) st
                              (factorint (snd sl))) st static.

  (** [find_smallest_non_static_pf], engine.py:271-293. *)
  Fixpoint find_smallest_from (ss fs cs : list Z) (i : nat) (n : nat)
      (small : nat) (already_first : bool) : result (nat * nat) :=
    match fs with
    | [] => Ok (small, (n - 1)%nat)
    | f :: fs' =>
        match cs with
        | [] => if negb (memb f ss) then
                  (if already_first then Ok (small, i) else Err IndexError)
                else Err IndexError
        | c :: cs' =>
            let k := Z.of_nat (count f ss) in
            if negb (memb f ss) || (k <? c) then
              if already_first then Ok (small, i)
              else if k + 1 <? c then Ok (i, i)
              else find_smallest_from ss fs' cs' (S i) n i true
            else find_smallest_from ss fs' cs' (S i) n small already_first
        end
    end.

  Definition find_smallest_non_static_pf (static : list loop) (dim : string)
      (fs cs : list Z) : result (nat * nat) :=
    let ss := map snd (filter (fun sl => eqb (fst sl) dim) static) in
    find_smallest_from ss fs cs O (length fs) O false.

  (** [max(d.items(), key=itemgetter(1))[0]]: first key with the largest value;
      [max] of an empty sequence is a [ValueError].  engine.py:309 *)
  Fixpoint argmax_from (best : string * Z) (d : dict string Z) : string * Z :=
    match d with
    | [] => best
    | kv :: d' => argmax_from (if snd best <? snd kv then kv else best) d'
    end.
  Definition argmax (d : dict string Z) : result string :=
    match d with
    | [] => Err ValueError
    | kv :: d' => Ok (fst (argmax_from kv d'))
    end.

  (** Python's [list.insert] at a position within bounds. *)
  Fixpoint insert_at {A} (i : nat) (x : A) (l : list A) : list A :=
    match i, l with
    | O, _ => x :: l
    | S i', y :: ys => y :: insert_at i' x ys
    | S _, [] => [x]
    end.

  (** Lines 316-331: merge the factors at positions [i] and [j]. *)
  Definition merge_factors (fs cs : list Z) (i j : nat) : result (list Z * list Z) :=
    fi <- of_option IndexError (nth_error fs i) ;;
    fj <- of_option IndexError (nth_error fs j) ;;
    let new_factor := fi * fj in
    let cs1 := add_at j (-1) (add_at i (-1) cs) in
    let '(fs2, cs2) :=
      match index_of new_factor fs with
      | Some k => (fs, add_at k 1 cs1)
      | None =>
          let k := length (filter (fun f => f <? new_factor) fs) in
          (insert_at k new_factor fs, insert_at k 1 cs1)
      end in
    let keep := filter (fun fc => negb (snd fc =? 0)) (combine fs2 cs2) in
    Ok (map fst keep, map snd keep).

  (** One iteration of the [while] loop, lines 308-336. *)
  Definition limit_step (static : list loop) (st : factors) : result factors :=
    max_ld <- argmax (pf_count_sums st) ;;
    fs <- dgetr max_ld (pfs st) ;;
    cs <- dgetr max_ld (pf_counts st) ;;
    ij <- find_smallest_non_static_pf static max_ld fs cs ;;
    fcs <- merge_factors fs cs (fst ij) (snd ij) ;;
    sum <- dgetr max_ld (pf_count_sums st) ;;
    Ok (mkFactors (dset max_ld (fst fcs) (pfs st))
                  (dset max_ld (snd fcs) (pf_counts st))
                  (dset max_ld (sum - 1) (pf_count_sums st))).

  (** The [while n_pf > limit] loop, lines 307-339: [n_pf] drops by exactly one per
      iteration, so the loop body runs [n_pf - limit] times. *)
  Fixpoint limit_iter (static : list loop) (k : nat) (st : factors) : result factors :=
    match k with
    | O => Ok st
    | S k' => st' <- limit_step static st ;; limit_iter static k' st'
    end.

  (** [limit_lpfs], engine.py:295-349.  [static = None] is "no constraints". *)
  Definition limit_lpfs (static : option (list loop)) (lpf_limit : option Z)
      (st : factors) (lpfs : list loop) : result (factors * list loop) :=
    st_l <- match static with
            | None => Ok (st, lpfs)
            | Some ss => st1 <- reduce_static_fps ss st ;;
                         l1 <- rebuild_lpfs st1 ;; Ok (st1, l1)
            end ;;
    let '(st1, l1) := st_l in
    let n_pf := zsum (values (pf_count_sums st1)) in
    match lpf_limit with
    | None => Ok (st1, l1)
    | Some lim =>
        if n_pf <=? lim then Ok (st1, l1)
        else
          st2 <- limit_iter (match static with Some ss => ss | None => [] end)
                            (Z.to_nat (n_pf - lim)) st1 ;;
          l2 <- rebuild_lpfs st2 ;; Ok (st2, l2)
    end.

  (** [get_prime_factors] without the permutation count, engine.py:170-215. *)
  Definition get_prime_factors (static : option (list loop)) (lpf_limit : option Z)
      (layer_dims : list string) (loops : dict string Z)
    : result (factors * list loop) :=
    st_l <- with_dummy layer_dims loops ;;
    limit_lpfs static lpf_limit (fst st_l) (snd st_l).

  (** The loops that [LomaEngine.run] hands to the permutation generator,
      engine.py:92-94. *)
  Definition engine_lpfs (static : option (list loop)) (lpf_limit : option Z)
      (layer_dim_sizes : dict string Z) (spatial : list (string * Q))
    : result (list loop) :=
    loops <- get_temporal_loops layer_dim_sizes spatial ;;
    st_l <- get_prime_factors static (update_min_lpf_factor lpf_limit loops)
              (keys layer_dim_sizes) loops ;;
    Ok (snd st_l).

  (** [compute_nb_permutations], engine.py:220-226, with exact integer division
      instead of Python's float division followed by [int] (float rounding and
      overflow are not modelled). *)
  Fixpoint zfact (n : nat) : Z :=
    match n with O => 1 | S n' => Z.of_nat n * zfact n' end.
  Definition compute_nb_permutations (st : factors) : Z :=
    fold_left (fun nb c => nb / zfact (Z.to_nat c))
              (concat (values (pf_counts st)))
              (zfact (Z.to_nat (zsum (values (pf_count_sums st))))).
End Engine.

(** * A concrete [factorint] by trial division *)

(** Multiplicity of [p] in [n] and the cofactor. *)
Fixpoint strip (fuel : nat) (p n : Z) : Z * Z :=
  match fuel with
  | O => (0, n)
  | S fuel' =>
      if (n mod p =? 0) then let '(m, r) := strip fuel' p (n / p) in (m + 1, r)
      else (0, n)
  end.

(** Trial division from [p] upwards, at most [fuel] candidates. *)
Fixpoint trial (fuel : nat) (p n : Z) : list (Z * Z) :=
  match fuel with
  | O => []
  | S fuel' =>
      if n <=? 1 then []
      else if n mod p =? 0 then
        let '(m, r) := strip (Z.to_nat n) p n in (p, m) :: trial fuel' (p + 1) r
      else trial fuel' (p + 1) n
  end.

(** The factorisation function used in the examples: the contract of sympy's
    [factorint] (keys in increasing order). *)
Definition factorint_td (n : Z) : list (Z * Z) := trial (Z.to_nat n) 2 n.

(** * run, engine.py:87-131 *)

(** Outcome of allocating one ordering. *)
Definition skippable (e : exn) : bool :=
  match e with MemoryHierarchyTooSmall | MemoryTooSmall => true | _ => false end.

(** The generator: the mappings yielded, and how it ends ([None]: normally). *)
Fixpoint run_loop {O M : Type} (alloc : O -> result M) (orderings : list O)
    (yielded : bool) : list M * option exn :=
  match orderings with
  | [] => ([], if yielded then None else Some NoValidLoopOrdering)
  | o :: os =>
      match alloc o with
      | Ok m => let '(ms, e) := run_loop alloc os true in (m :: ms, e)
      | Err e => if skippable e then run_loop alloc os yielded else ([], Some e)
      end
  end.
Definition loma_run {O M : Type} (alloc : O -> result M) (orderings : list O)
  : list M * option exn := run_loop alloc orderings false.
