(** Simulated annealing over loop orders, zigzag/opt/salsa/engine.py, opt/salsa/state.py and
    stages/mapping/salsa.py.

    Random draws are inputs: the shuffled start and, for every iteration, the two positions
    and the number in [0, 1) drawn.  Numbers are exact rationals; the exponential is a
    parameter.  Allocation and evaluation of an order ([SalsaState.__init__], state.py:46-77)
    are one parameter: see Model_Alloc and Model_Cme.  Besides the result, the model keeps
    the list of states that were evaluated. *)
From Coq Require Import QArith.
From Verif Require Import Base Model_Loma Model_Decouple Model_Cme.
Open Scope string_scope.
Open Scope list_scope.
Open Scope Z_scope.
Open Scope result_scope.

(** [get_temporal_loops], engine.py:157-187; the limit that it adapts is not used. *)
Definition salsa_loops_step (sizes : dict string Z) (sl : string * Q) : result (dict string Z) :=
  let '(dim, s) := sl in
  n <- dgetr dim sizes ;;
  if Qeq_bool s 0 then Err ZeroDivisionError
  else
    let q := Qceiling (inject_Z n / s) in
    if q =? 1 then Ok (ddel dim sizes) else Ok (dset dim q sizes).
Definition salsa_temporal_loops (layer_dim_sizes : dict string Z) (spatial_loop_dim_size : list (string * Q)) : result (dict string Z) :=
  sizes <- rfold salsa_loops_step layer_dim_sizes spatial_loop_dim_size ;;
  Ok (filter (fun kv => 1 <? snd kv) sizes).

(** [get_prime_factors], engine.py:188-216, leaves the loops of [initial_lpfs]. *)
Definition salsa_lpfs (factorint : Z -> list (Z * Z)) (layer_dim_sizes : dict string Z) (spatial_loop_dim_size : list (string * Q))
  : result (list loop) :=
  loops <- salsa_temporal_loops layer_dim_sizes spatial_loop_dim_size ;;
  Ok (initial_lpfs factorint loops).

(** [swapped_ordering], state.py:82-85 *)
Fixpoint set_nth {A} (i : nat) (x : A) (l : list A) : list A :=
  match l, i with
  | [], _ => []
  | _ :: l, O => x :: l
  | y :: l, S i => y :: set_nth i x l
  end.
Definition swap {A} (i j : nat) (l : list A) : result (list A) :=
  temp <- of_option IndexError (nth_error l i) ;;
  other <- of_option IndexError (nth_error l j) ;;
  Ok (set_nth j temp (set_nth i other l)).

Section Salsa.
  (** The exponential, and one order allocated and evaluated *)
  Variable exponential : Q -> Q.
  Variable evaluate : list loop -> result eval.
  (** [opt_criterion_name] and [start_temperature] *)
  Variables (criterion_name : string) (start_temperature : Q).

  (** state.py:44, 72-77 *)
  Definition criterion_of (e : eval) : Q := if eqb criterion_name "energy" then ev_energy e else ev_l0 e.
  Definition salsa_state : Type := (list loop * eval)%type.
  Definition new_state (o : list loop) : result salsa_state :=
    if eqb criterion_name "energy" || eqb criterion_name "latency" then e <- evaluate o ;; Ok (o, e) else Err AssertionError.
  Definition opt_criterion (s : salsa_state) : Q := criterion_of (snd s).

  (** One iteration, engine.py:137-155; [it] counts iterations. *)
  Record walk := mkWalk { wk_current : salsa_state; wk_best : salsa_state; wk_evaluated : list salsa_state }.
  Definition anneal_step (w : walk) (d : nat * (nat * nat * Q)) : result walk :=
    let '(it, (i, j, x)) := d in
    let temperature := (start_temperature * (199 # 200) ^ Z.of_nat it)%Q in
    match fst (wk_current w) with
    | [] => Err ValueError    (* randint(0, 0) *)
    | _ =>
        o <- swap i j (fst (wk_current w)) ;;
        next <- new_state o ;;
        let evaluated := wk_evaluated w ++ [next] in
        r <- pdiv (opt_criterion (wk_current w)) (opt_criterion next) ;;
        a <- pdiv (r - 1) temperature ;;
        if qlt_bool x (exponential a) then
          if qlt_bool (opt_criterion next) (opt_criterion (wk_best w)) then Ok (mkWalk next next evaluated)
          else Ok (mkWalk next (wk_best w) evaluated)
        else Ok (mkWalk (wk_current w) (wk_best w) evaluated)
    end.
  (** [run_simulated_annealing_opt], engine.py:100-155, from the shuffled loops *)
  Definition anneal (start : list loop) (draws : list (nat * nat * Q)) : result walk :=
    best <- new_state start ;;
    current <- new_state start ;;
    next <- new_state start ;;
    rfold anneal_step (mkWalk current best [best; current; next]) (combine (seq 0 (length draws)) draws).
End Salsa.

(** [SalsaStage.run], salsa.py:79-125: the evaluations that the processes put on the queue, in
    the order of arrival, are reduced to one.  A process that raises puts nothing on the
    queue and the stage waits forever: [None]. *)
Definition better (name : string) (c best : eval) : bool :=
  if eqb name "energy" then less_energy c best else less_latency c best.
Definition salsa_stage (name : string) (answers : list (result eval)) : option (result eval) :=
  if negb (eqb name "energy" || eqb name "latency") then Some (Err ValueError)    (* salsa.py:71-76 *)
  else
    match fold_left (fun (st : option (option eval)) (a : result eval) =>
                       match st, a with
                       | None, _ | _, Err _ => None
                       | Some None, Ok e => Some (Some e)
                       | Some (Some b), Ok e => Some (Some (if better name e b then e else b))
                       end) answers (Some None) with
    | None => None
    | Some None => Some (Err AssertionError)
    | Some (Some b) => Some (Ok b)
    end.
