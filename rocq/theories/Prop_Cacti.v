(** C71: automatically extracted memory costs. *)
From Coq Require Import QArith Lia.
From Verif Require Import Base Model_Hierarchy Model_Cacti Spec_Cacti Proof_Cacti.
Local Open Scope string_scope.
Local Open Scope list_scope.
Local Open Scope Z_scope.

(** Over any history of requests, every answer is what CACTI says about the memory asked: what was
    asked before does not matter.  The pool stays well kept and truthful. *)
Theorem C71_answers sim qs p : honest sim -> Forall askable qs -> well_kept p -> truthful sim p ->
  well_kept (snd (session sim qs p)) /\ truthful sim (snd (session sim qs p)) /\
  Forall2 (fun q ans => forall r w a, ans = Costs r w a -> costs_asked sim q (r, w, a)) qs (fst (session sim qs p)).
Proof. exact (fun H A => session_true sim qs H A p). Qed.
Print Assumptions C71_answers.

(** What was answered once is answered again, whatever is asked in between, without another run
    of CACTI. *)
Theorem C71_repeated sim q qs p r w a p' ran : honest sim -> well_kept p -> askable q -> Forall askable qs ->
  get_item sim q p = (Costs r w a, p', ran) ->
  get_item sim q (snd (session sim qs p')) = (Costs r w a, snd (session sim qs p'), false).
Proof. exact (repeated sim q qs p r w a p' ran). Qed.
Print Assumptions C71_repeated.

(** A request is answered, unless the pool only knows a memory of the other kind with the same
    numbers; then it fails. *)
Theorem C71_succeeds sim q p : honest sim -> answers_all sim -> well_kept p -> askable q ->
  ((exists r w a, fst (fst (get_item sim q p)) = Costs r w a) <->
   ((exists x, In x p /\ same_numbers q (snd x)) -> exists x, In x p /\ same_memory q (snd x))) /\
  ((exists r w a, fst (fst (get_item sim q p)) = Costs r w a) \/ fst (fst (get_item sim q p)) = NoMatch).
Proof. exact (succeeds_iff sim q p). Qed.
Print Assumptions C71_succeeds.

(** So a static memory cannot be asked for after a dynamic one of the same size and width. *)
Theorem C71_other_kind_refuted : exists sim q q', honest sim /\ answers_all sim /\ askable q /\ askable q' /\
  rq_type q = "dram" /\ rq_type q' = "sram" /\
  (exists r w a, fst (session sim [q; q'] []) = [Costs r w a; NoMatch]) /\
  (exists r w a, fst (session sim [q'] []) = [Costs r w a]).
Proof.
  exists ex_sim, (ex_request "dram" 1024), (ex_request "sram" 1024). split; [apply ex_honest|]. split; [apply ex_honest|].
  split; [split; [exists "dram", 1024; split; [apply priced_dram|reflexivity]|cbn; lia]|].
  split; [split; [exists "sram", 1024; split; [apply priced_sram|reflexivity]|cbn; lia]|].
  split; [reflexivity|]. split; [reflexivity|]. split; do 3 eexists; vm_compute; reflexivity.
Qed.
Print Assumptions C71_other_kind_refuted.

(** A size that is not in whole bytes is never answered, and runs CACTI each time. *)
Theorem C71_whole_bytes sim q p : honest sim -> well_kept p -> rq_type q = "sram" \/ rq_type q = "dram" -> rq_size q mod 8 <> 0 ->
  let '(ans, _, ran) := get_item sim q p in ran = true /\ (ans = NoMatch \/ ans = SubprocessFailed).
Proof. exact (odd_size sim q p). Qed.
Print Assumptions C71_whole_bytes.

(** Worse, it can replace the entry of a memory that was answered before. *)
Theorem C71_overwritten_refuted : exists sim q q' r w a, honest sim /\ answers_all sim /\ askable q /\
  rq_size q' mod 8 <> 0 /\ fst (session sim [q; q'; q] []) = [Costs r w a; NoMatch; NoMatch].
Proof.
  exists ex_sim, (ex_request "sram" 1024), (ex_request "dram" 1027). do 3 eexists. split; [apply ex_honest|]. split; [apply ex_honest|].
  split; [split; [exists "sram", 1024; split; [apply priced_sram|reflexivity]|cbn; lia]|].
  split; [discriminate|]. vm_compute. reflexivity.
Qed.
Print Assumptions C71_overwritten_refuted.

(** A memory instance asks for its kind and size, with the width of one of the ports it can be
    read through; it needs one.  The ports are otherwise not told to CACTI: it is always asked
    about one read port and one write port. *)
Theorem C71_instance tech type size ports :
  ((exists q, instance_request tech type size ports = Ok q) <-> exists p, In p ports /\ ps_type p <> PWrite) /\
  forall q, instance_request tech type size ports = Ok q ->
    rq_type q = type /\ rq_size q = size /\ rq_rd q = 1 /\ rq_wr q = 1 /\ rq_rw q = 0 /\ rq_bank q = 1 /\ rq_tech q = tech /\
    exists p, In p ports /\ ps_type p <> PWrite /\ rq_bw q = ps_bw_max p.
Proof. exact (conj (instance_total tech type size ports) (instance_spec tech type size ports)). Qed.
Print Assumptions C71_instance.

(** The conditions are met: a history from the empty pool, in which the register file of 8 bits is
    found in the pool as the static memory of 1024 bits. *)
Example C71_met : honest ex_sim /\ answers_all ex_sim /\ well_kept [] /\ truthful ex_sim [] /\
  Forall askable [ex_request "sram" 1024; ex_request "rf" 8; ex_request "dram" 4096] /\
  fst (session ex_sim [ex_request "sram" 1024; ex_request "rf" 8; ex_request "dram" 4096] []) =
    [Costs (2000 # 1000) (3000 # 1000) 128; Costs (2000 # 1000) (3000 # 1000) 128; Costs (7000 # 1000) (3000 # 1000) 512] /\
  map fst (snd (session ex_sim [ex_request "sram" 1024; ex_request "rf" 8; ex_request "dram" 4096] [])) =
    [Made 128 64 1 1 0 1 22; Made 512 64 1 1 0 1 22].
Proof.
  split; [apply ex_honest|]. split; [apply ex_honest|]. split; [apply (empty_kept ex_sim)|]. split; [apply empty_kept|].
  split; [exact ex_askable|]. split; vm_compute; reflexivity.
Qed.
