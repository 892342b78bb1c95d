(** Model of the breakdown charts, zigzag/visualization/results/plot_cme.py:32-145 and 192-204:
    the numbers that are drawn and printed.

    Not modelled: the drawing itself (positions, colours, hatches, text formatting). *)
From Coq Require Import QArith Ascii.
From Verif Require Import Base Model_Decouple Model_DataMove Model_Links Model_Cost Model_Latency Model_MapFile Model_Hierarchy Model_Cme.
Local Open Scope string_scope.
Local Open Scope list_scope.
Local Open Scope Z_scope.
Local Open Scope result_scope.

(** What is read of a [CostModelEvaluation]: its numbers, the name, operands and memory operands of
    its layer, and the memory hierarchy of its accelerator. *)
Record plotted := mkPlotted {
  pd_eval : eval; pd_name : string; pd_ops : list string; pd_links : links; pd_hierarchy : hierarchy }.

(** [shorten_onnx_layer_name], plot_cme.py:32-39; the slice raises nothing. *)
Definition shorten_onnx_layer_name (name : string) : string :=
  let parts := split "/"%char name in
  String.concat "/" (skipn (length parts - 2) parts).

Section Chart.
  (** [MemoryInstance.__eq__] and [__hash__], memory_instance.py:96-97 and 111-112: as keys of a
      dict two memories are the same exactly when they have the same label. *)
  Variable label : level -> string.
  (** The order in which a set of operands is iterated over. *)
  Variable set_order : list string -> list string.

  Definition accesses := dict (string * string) (four Q).

  (** plot_cme.py:66: [access_energy[cme_idx][operand][mem] += breakdown_this_mem]; a missing entry
      is a new [AccessEnergy]. *)
  Definition charge (op : string) (l : level) (f : four Q) (acc : accesses) : result accesses :=
    old <- match dget (op, label l) acc with Some g => Ok g | None => four_way 0%Q None end ;;
    new <- four_add 0%Q Qplus old f ;;
    Ok (dset (op, label l) new acc).
  (** plot_cme.py:60-66, one operand *)
  Definition charge_operand (h : hierarchy) (c : plotted) (acc : accesses) (kv : string * list (four Q)) : result accesses :=
    mem_op <- layer_to_mem_op (pd_links c) (fst kv) ;;
    ls <- get_memory_levels h mem_op ;;
    rfold (fun acc nf => l <- of_option IndexError (nth_error ls (fst nf)) ;; charge (fst kv) l (snd nf) acc)
      acc (combine (seq 0 (length (snd kv))) (snd kv)).
  (** plot_cme.py:59-66, one evaluation *)
  Definition access_energy (h : hierarchy) (c : plotted) : result accesses :=
    rfold (charge_operand h c) [] (ev_further (pd_eval c)).

  (** plot_cme.py:71: one number *)
  Definition cell (acc : accesses) (op : string) (l : level) (k : direction) : result Q :=
    match dget (op, label l) acc with
    | Some f => four_get k f
    | None => f <- four_way 0%Q None ;; four_get k f
    end.
  (** plot_cme.py:68-76 and 78-81, one evaluation: the bar of the operations, then one for every
      memory; a bar has a section for every operand and in it a part for every direction. *)
  Definition mac_bar (ops : list string) (mac : Q) : result (list (list Q)) :=
    match ops with
    | [] => Err IndexError
    | _ :: ops' => Ok ((mac :: repeat 0%Q 3) :: map (fun _ => repeat 0%Q 4) ops')
    end.
  Definition energy_row (h : hierarchy) (ops : list string) (mems : list level) (c : plotted) : result (list (list (list Q))) :=
    acc <- access_energy h c ;;
    bars <- rmap (fun l => rmap (fun op => rmap (cell acc op l) directions) ops) mems ;;
    m <- mac_bar ops (ev_mac (pd_eval c)) ;;
    match mems with [] => Err ValueError | _ => Ok (m :: bars) end.
  (** [get_energy_array], plot_cme.py:46-82.  (All accesses are gathered before any number is read:
      which exception comes first when several things are wrong may differ.) *)
  Definition get_energy_array (cmes : list plotted) (ops : list string) (mems : list level) : result (list (list (list (list Q)))) :=
    match cmes with
    | [] => Err IndexError
    | c0 :: _ => rmap (energy_row (pd_hierarchy c0) ops mems) cmes
    end.

  (** [get_latency_array], plot_cme.py:85-98 *)
  Definition get_latency_array (cmes : list plotted) : list (list Q) :=
    map (fun c => let e := pd_eval c in
                  [ev_ideal e; (ev_temporal e - ev_ideal e)%Q; (ev_l0 e - ev_temporal e)%Q;
                   (ev_l1 e - ev_l0 e)%Q; (ev_l2 e - ev_l1 e)%Q]) cmes.

  (** [sorted(memories, key=size)], plot_cme.py:106: increasing, equal sizes in their order *)
  Fixpoint insert_size (x : level) (l : list level) : list level :=
    match l with
    | [] => [x]
    | y :: l' => if Z.leb (ml_size (lv_mem x)) (ml_size (lv_mem y)) then x :: l else y :: insert_size x l'
    end.
  Definition sort_size (l : list level) : list level := fold_right insert_size [] l.

  (** What is drawn and printed: the names under the bars, the memories of the bars, the operands of
      the sections, the bars and the printed total energy of every evaluation, the sections and the
      printed total latency of every evaluation. *)
  Record chart := mkChart {
    ch_groups : list string; ch_mems : list level; ch_ops : list string;
    ch_energy : list (list (list (list Q))); ch_totals : list Q;
    ch_latency : list (list Q); ch_latencies : list Q }.

  (** [bar_plot_cost_model_evaluations_breakdown], plot_cme.py:101-204.  Only evaluations of a single
      layer are drawn.  The text of a layer's number is taken from [number]. *)
  Variable number : nat -> string.
  Definition is_single (c : plotted) : bool := match ev_layers (pd_eval c) with inl _ => true | inr _ => false end.
  Definition bar_plot (cmes : list plotted) : result chart :=
    let cs := filter is_single cmes in
    match cs with
    | [] => Err IndexError
    | c0 :: _ =>
      let mems := sort_size (h_list (pd_hierarchy c0)) in
      let ops := set_order (nodup string_dec (flat_map pd_ops cs)) in
      let groups := map (fun c => (match ev_layers (pd_eval c) with inl i => number i | inr _ => "" end
                                    ++ ": " ++ shorten_onnx_layer_name (pd_name c))%string) cs in
      data <- get_energy_array cs ops mems ;;
      let lat := get_latency_array cs in
      Ok (mkChart groups mems ops data (map (fun row => qsum (concat (concat row))) data) lat (map qsum lat))
    end.
End Chart.
