(** Model of the arithmetic of evaluations, zigzag/cost_model/cost_model.py:35-202 and
    252-276, and of zigzag/stages/results/reduce_stages.py.

    Floats are exact rationals.  The accelerator of an evaluation is represented by its
    name, which is all that [__add__] reads of it. *)
From Verif Require Import Base Model_Decouple Model_DataMove Model_Links Model_Cost Model_Latency.
Local Open Scope result_scope.

(** [CostModelEvaluationABC], cost_model.py:39-59.  [ev_layers] is [inl layer.id] for a
    [CostModelEvaluation], [inr layer_ids] for a [CumulativeCME].  A new [CumulativeCME]
    has no utilizations. *)
Record eval := mkEval {
  ev_bd : dict string (list Q);               (* mem_energy_breakdown *)
  ev_further : dict string (list (four Q));   (* mem_energy_breakdown_further *)
  ev_words : dict string (list (four Z));     (* memory_word_access *)
  ev_mac : Q; ev_mem : Q; ev_energy : Q;      (* mac_energy, mem_energy, energy_total *)
  ev_on : Q; ev_off : Q;                      (* data_onloading_cycle, data_offloading_cycle *)
  ev_ideal : Q; ev_temporal : Q;              (* ideal_cycle, ideal_temporal_cycle *)
  ev_l0 : Q; ev_l1 : Q; ev_l2 : Q;            (* latency_total0, 1, 2 *)
  ev_utils : option (Q * Q * Q * Q);          (* mac_spatial_utilization, mac_utilization0, 1, 2 *)
  ev_layers : nat + list nat;
  ev_acc : option string }.

(** [CumulativeCME.__init__], cost_model.py:255-273 *)
Definition empty_cme : eval := mkEval [] [] [] 0 0 0 0 0 0 0 0 0 0 None (inr []) None.

(** cost_model.py:76-83, 88-94, 112-118: sum of the common levels, then what is left of
    the longer list *)
Definition add_levels {A} (f : A -> A -> result A) (x y : list A) : result (list A) :=
  let n := Nat.min (length x) (length y) in
  l <- rmap (fun ab => f (fst ab) (snd ab)) (combine x y) ;;
  Ok (l ++ skipn n x ++ skipn n y).
(** cost_model.py:73-84, 86-95, 109-119: operands that are in both dicts *)
Definition add_common {A} (f : A -> A -> result A) (d d' : dict string (list A)) : result (dict string (list A)) :=
  rfold (fun acc kv =>
           match dget (fst kv) d' with
           | None => Ok acc
           | Some y => l <- add_levels f (snd kv) y ;; Ok (dset (fst kv) l acc)
           end) [] d.
(** cost_model.py:100-105, 121-124: copying operands *)
Definition copy_ops {A} (src : dict string (list A)) (ops : list string) (acc : dict string (list A))
  : result (dict string (list A)) :=
  rfold (fun acc op => x <- dgetr op src ;; Ok (dset op x acc)) acc ops.
(** cost_model.py:98-99: difference of two key sets *)
Definition keys_minus {A} (d r : dict string (list A)) : list string :=
  filter (fun op => negb (memb op (keys r))) (keys d).

(** cost_model.py:136-139, 197-200 *)
Definition utilizations (ideal temporal l0 l1 l2 : Q) : result (Q * Q * Q * Q) :=
  s <- pdiv ideal temporal ;; u0 <- pdiv ideal l0 ;; u1 <- pdiv ideal l1 ;; u2 <- pdiv ideal l2 ;;
  Ok (s, u0, u1, u2).

(** cost_model.py:141-145 *)
Definition layer_ids (e : eval) : list nat := match ev_layers e with inl i => [i] | inr l => l end.

(** cost_model.py:148-158; [other] may not have an accelerator only as a [CumulativeCME].
    When neither of the three branches applies the result has none. *)
Definition pick_accelerator (a b : eval) : result (option string) :=
  match ev_layers a, ev_acc a, ev_layers b, ev_acc b with
  | inr _, None, _, None => Err AssertionError
  | inr _, None, _, Some y => Ok (Some y)
  | _, None, inr _, None => Err AssertionError
  | _, Some x, inr _, None => Ok (Some x)
  | _, Some x, _, Some y =>
      if String.prefix y x then Ok (Some y)
      else if String.prefix x y then Ok (Some x)
      else Err ValueError
  | _, _, _, _ => Ok None
  end.

Section Add.
  (** The order in which a set of operands is iterated over. *)
  Variable set_order : list string -> list string.

  (** [__add__], cost_model.py:65-159 *)
  Definition cme_add (a b : eval) : result eval :=
    bd <- add_common (fun x y => Ok (x + y)%Q) (ev_bd a) (ev_bd b) ;;
    fu <- add_common (four_add 0%Q Qplus) (ev_further a) (ev_further b) ;;
    let diff_a := set_order (keys_minus (ev_bd a) bd) in
    let diff_b := set_order (keys_minus (ev_bd b) bd) in
    bd1 <- copy_ops (ev_bd a) diff_a bd ;;
    fu1 <- copy_ops (ev_further a) diff_a fu ;;
    bd2 <- copy_ops (ev_bd b) diff_b bd1 ;;
    fu2 <- copy_ops (ev_further b) diff_b fu1 ;;
    wd <- add_common (four_add 0%Z Z.add) (ev_words a) (ev_words b) ;;
    wd1 <- copy_ops (ev_words a) diff_a wd ;;
    wd2 <- copy_ops (ev_words b) diff_b wd1 ;;
    let ideal := (ev_ideal a + ev_ideal b)%Q in
    let temporal := (ev_temporal a + ev_temporal b)%Q in
    let l0 := (ev_l0 a + ev_l0 b)%Q in
    let l1 := (ev_l1 a + ev_l1 b)%Q in
    let l2 := (ev_l2 a + ev_l2 b)%Q in
    us <- utilizations ideal temporal l0 l1 l2 ;;
    acc <- pick_accelerator a b ;;
    Ok (mkEval bd2 fu2 wd2 (ev_mac a + ev_mac b) (ev_mem a + ev_mem b) (ev_energy a + ev_energy b)
          (ev_on a + ev_on b) (ev_off a + ev_off b) ideal temporal l0 l1 l2 (Some us)
          (inr (layer_ids a ++ layer_ids b)) acc).

  (** [SumStage.run], reduce_stages.py:137-146; the generated evaluations are a list.
      Result: the total and all evaluations with their extra info. *)
  Definition sum_stage {X} (l : list (eval * X)) : result (eval * list (eval * X)) :=
    rfold (fun st ce =>
             match ev_layers (fst ce) with
             | inr _ => Err AssertionError
             | inl _ => t <- cme_add (fst st) (fst ce) ;; Ok (t, snd st ++ [ce])
             end) (empty_cme, []) l.
End Add.

(** [__mul__], cost_model.py:161-202 *)
Definition mul_dict {A} (f : A -> result A) (d : dict string (list A)) : result (dict string (list A)) :=
  rmap (fun kv => l <- rmap f (snd kv) ;; Ok (fst kv, l)) d.
Definition cme_mul (a : eval) (number : Z) : result eval :=
  let n := inject_Z number in
  bd <- mul_dict (fun x => Ok (x * n)%Q) (ev_bd a) ;;
  fu <- mul_dict (fun f => four_mul 0%Q Qmult f n) (ev_further a) ;;
  wd <- mul_dict (fun f => four_mul 0%Z Z.mul f number) (ev_words a) ;;
  us <- utilizations (ev_ideal a * n) (ev_temporal a * n) (ev_l0 a * n) (ev_l1 a * n) (ev_l2 a * n) ;;
  Ok (mkEval bd fu wd (ev_mac a * n) (ev_mem a * n) (ev_energy a * n) (ev_on a * n) (ev_off a * n)
        (ev_ideal a * n) (ev_temporal a * n) (ev_l0 a * n) (ev_l1 a * n) (ev_l2 a * n) (Some us)
        (ev_layers a) (ev_acc a)).

(** The attributes that [CostModelEvaluation.run], cost_model.py:368-376, leaves. *)
Definition cme_of (ci : inputs) (layer : nat) (accelerator : string) : result eval :=
  ind <- individual ci Model_Mapping.od_bit_unrolled ;;
  sh <- shared ci ind ;;
  acc <- calc_memory_word_access ci ;;
  '(bd, fu, mem, total) <- calc_memory_energy_cost ci acc ;;
  la <- calc_latency ci ;;
  Ok (mkEval bd fu acc (mac_energy ci) mem total (la_on la) (la_off la) (inject_Z (la_ideal la)) (la_temporal la)
        (la_total0 la) (la_total1 la) (la_total2 la)
        (Some (la_spatial_util la, la_util0 la, la_util1 la, la_util2 la)) (inl layer) (Some accelerator)).

(** * Reductions *)

(** [a < b] and [a == b] on floats *)
Definition qlt_bool (a b : Q) : bool := negb (Qle_bool b a).
(** cost_model comparisons of reduce_stages.py:38-42, 78-82, 118-121 *)
Definition less_energy (c best : eval) : bool :=
  qlt_bool (ev_energy c) (ev_energy best) ||
  (Qeq_bool (ev_energy c) (ev_energy best) && qlt_bool (ev_l2 c) (ev_l2 best)).
Definition less_latency (c best : eval) : bool :=
  qlt_bool (ev_l2 c) (ev_l2 best) ||
  (Qeq_bool (ev_l2 c) (ev_l2 best) && qlt_bool (ev_energy c) (ev_energy best)).
Definition less_edp (c best : eval) : bool :=
  qlt_bool (ev_l2 c * ev_energy c) (ev_l2 best * ev_energy best).

(** [run] of the three Minimal stages, reduce_stages.py:29-50, 70-90, 110-129: the best
    evaluation and, when [keep_others], all of them. *)
Definition minimal_stage {X} (less : eval -> eval -> bool) (keep_others : bool) (l : list (eval * X))
  : result (eval * list (eval * X)) :=
  st <- rfold (fun (st : option eval * list (eval * X)) ce =>
                 match ev_layers (fst ce) with
                 | inr _ => Err AssertionError
                 | inl _ =>
                     let best' := match fst st with
                                  | None => Some (fst ce)
                                  | Some b => if less (fst ce) b then Some (fst ce) else Some b
                                  end in
                     Ok (best', if keep_others then snd st ++ [ce] else snd st)
                 end) (None, []) l ;;
  match fst st with
  | None => Err AssertionError
  | Some b => Ok (b, snd st)
  end.
