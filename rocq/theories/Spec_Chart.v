(** What a breakdown chart should show. *)
From Coq Require Import QArith Ascii.
From Verif Require Import Base Model_DataMove Model_Links Model_Cost Model_Hierarchy Model_Evaluate Model_Cme Model_Chart.

(** The numbers of the four directions. *)
Definition in_direction (f : dict direction Q) (k : direction) : Q := match dget k f with Some x => x | None => 0%Q end.
Definition all_directions (f : dict direction Q) : Q :=
  (in_direction f RdLow + in_direction f WrLow + in_direction f RdHigh + in_direction f WrHigh)%Q.

(** The energy that evaluation [c] reports for operand [op] in memory [l] and direction [k]: that of
    the levels of the operand that are [l]. *)
Definition at_memory (ls : list level) (fs : list (dict direction Q)) (l : level) (k : direction) : Q :=
  qsum (map (fun lf => if Nat.eqb (lv_id (fst lf)) (lv_id l) then in_direction (snd lf) k else 0%Q) (combine ls fs)).
Definition energy_at (h : hierarchy) (c : plotted) (op : string) (l : level) (k : direction) (x : Q) : Prop :=
  match dget op (ev_further (pd_eval c)) with
  | None => (x == 0)%Q
  | Some fs => exists mem_op ls, dget op (lk_data (pd_links c)) = Some mem_op /\ get_memory_levels h mem_op = Ok ls /\
      (x == at_memory ls fs l k)%Q
  end.

(** All the energy that an evaluation reports. *)
Definition reported_energy (e : eval) : Q :=
  (ev_mac e + qsum (map (fun kv => qsum (map all_directions (snd kv))) (ev_further e)))%Q.

(** The evaluation has a breakdown that the memories of [h] can hold. *)
Record drawable (h : hierarchy) (c : plotted) : Prop := {
  dr_once : NoDup (keys (ev_further (pd_eval c)));
  dr_ops : forall op fs, In (op, fs) (ev_further (pd_eval c)) -> In op (pd_ops c) /\
    (exists mem_op ls, dget op (lk_data (pd_links c)) = Some mem_op /\ get_memory_levels h mem_op = Ok ls /\ (length fs <= length ls)%nat) /\
    forall f k, In f fs -> exists x, dget k f = Some x }.

(** The bars of one evaluation: that of the operations, then one for every memory, with a section for
    every operand and in it a part for every direction. *)
Definition right_bars (h : hierarchy) (ops : list string) (mems : list level) (c : plotted) (row : list (list (list Q))) : Prop :=
  exists m bars, row = m :: bars /\ (qsum (concat m) == ev_mac (pd_eval c))%Q /\
    Forall2 (fun l bar => Forall2 (fun op parts => Forall2 (fun k x => energy_at h c op l k x) directions parts) ops bar) mems bars.

(** The sections stacked up reach the ideal time, the time of the loops, and the three totals. *)
Definition right_stack (e : eval) (sections : list Q) : Prop :=
  length sections = 5%nat /\
  (qsum (firstn 1 sections) == ev_ideal e /\ qsum (firstn 2 sections) == ev_temporal e /\ qsum (firstn 3 sections) == ev_l0 e /\
   qsum (firstn 4 sections) == ev_l1 e /\ qsum (firstn 5 sections) == ev_l2 e)%Q.

Fixpoint increasing (l : list Z) : Prop :=
  match l with x :: ((y :: _) as l') => (x <= y)%Z /\ increasing l' | _ => True end.

(** Everything on the chart of the evaluations [cs]. *)
Record right_chart (h : hierarchy) (cs : list plotted) (ch : chart) : Prop := {
  rc_mems : Permutation (ch_mems ch) (h_list h) /\ increasing (map (fun l => ml_size (lv_mem l)) (ch_mems ch));
  rc_ops : NoDup (ch_ops ch) /\ forall op, In op (ch_ops ch) <-> exists c, In c cs /\ In op (pd_ops c);
  rc_bars : Forall2 (right_bars h (ch_ops ch) (ch_mems ch)) cs (ch_energy ch);
  rc_totals : Forall2 (fun c t => (t == reported_energy (pd_eval c))%Q) cs (ch_totals ch);
  rc_stacks : Forall2 (fun c row => right_stack (pd_eval c) row) cs (ch_latency ch);
  rc_latencies : Forall2 (fun c t => (t == ev_l2 (pd_eval c))%Q) cs (ch_latencies ch) }.

(** Evaluations of single layers. *)
Definition single (c : plotted) : Prop := exists i, ev_layers (pd_eval c) = inl i.

(** [c] is what evaluating some request on the accelerator with hierarchy [h] gave. *)
Definition evaluated_on (h : hierarchy) (c : plotted) : Prop :=
  exists rq fuel ci id accelerator, rq_hierarchy rq = h /\ NoDup (rq_ops rq) /\ rq_ops rq <> [] /\
    prepare rq fuel = Ok ci /\ cme_of ci id accelerator = Ok (pd_eval c) /\
    pd_ops c = rq_ops rq /\ pd_links c = rq_links rq.

(** The part of a layer's name from its last but one slash on. *)
Fixpoint slashes (s : string) : nat :=
  match s with EmptyString => 0 | String c s' => (if Ascii.eqb c "/"%char then 1 else 0) + slashes s' end.
Definition shortened (name short : string) : Prop :=
  (short = name /\ (slashes name <= 1)%nat) \/
  (slashes short = 1%nat /\ exists front, name = (front ++ "/" ++ short)%string).
