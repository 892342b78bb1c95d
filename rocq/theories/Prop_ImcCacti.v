(** C83: the costs of in-memory-computing cell arrays from CACTI. *)
From Coq Require Import QArith Ascii.
From Verif Require Import Base Model_MapFile Model_ImcCacti Spec_ImcCacti Proof_ImcCacti Proof_ImcCactiExample.
Local Open Scope string_scope.
Local Open Scope list_scope.

(** Whatever earlier calls left in the output file, a call for which CACTI has an answer returns the
    costs of that answer, for the rows and bits asked for, and leaves the current directory as it was. *)
Theorem C83_costs : forall to_float resolve first answer, named_columns first -> same_answers answer ->
  forall node mem_type kind size bw asked s bits k line row t a r w,
  technology_as node asked s -> kind_of mem_type kind -> row_parts bw bits k line ->
  answer (array_config asked kind (size * 8 / bw)%Q bits line) = Some row -> says to_float first row t a r w ->
  exists c, right_costs s k t a r w c /\
    forall path wd dir, good_world to_float first wd -> resolve (wd_cwd wd) path = Some dir ->
    exists wd', get_cacti_cost to_float resolve (cacti first answer) path node mem_type size bw wd = (Returned c, wd') /\
      wd_cwd wd' = wd_cwd wd /\ good_world to_float first wd'.
Proof. exact call_ok. Qed.
Print Assumptions C83_costs.

(** Rows of [n] times 32 bits cost [n] times the energy and area of rows of 32 bits, and take no longer. *)
Theorem C83_proportional : forall to_float resolve first answer, named_columns first -> same_answers answer ->
  forall node mem_type kind size asked s n row t a r w,
  technology_as node asked s -> kind_of mem_type kind -> (1 < n)%Q ->
  answer (array_config asked kind (size * 8 / 32)%Q 32 4) = Some row -> says to_float first row t a r w ->
  exists c c', right_costs s 1 t a r w c /\ right_costs s n t a r w c' /\
    forall path wd dir, good_world to_float first wd -> resolve (wd_cwd wd) path = Some dir ->
    exists wd1 wd2, get_cacti_cost to_float resolve (cacti first answer) path node mem_type size 32 wd = (Returned c, wd1) /\
      get_cacti_cost to_float resolve (cacti first answer) path node mem_type (n * size)%Q (n * 32)%Q wd1 = (Returned c', wd2).
Proof. exact wide_ok. Qed.
Print Assumptions C83_proportional.

(** The cells of an array are those of a memory whose rows are the weights of a word line, one after the other. *)
Theorem C83_array : forall to_float resolve first answer, named_columns first -> same_answers answer ->
  forall node wordline bitline cells pres asked s bits k line row t a r w,
  technology_as node asked s -> (0 < wordline)%Q -> (0 < pres)%Q -> row_parts (wordline * pres)%Q bits k line ->
  answer (array_config asked """ram""" (bitline * cells / pres)%Q bits line) = Some row -> says to_float first row t a r w ->
  exists c, right_costs s k t a r w c /\ forall wd dir, good_world to_float first wd -> resolve (wd_cwd wd) "zigzag/cacti/cacti_master" = Some dir ->
  exists wd', cell_array_cost to_float resolve (cacti first answer) node wordline bitline cells pres wd = (Returned c, wd') /\ wd_cwd wd' = wd_cwd wd.
Proof. exact array_ok. Qed.
Print Assumptions C83_array.

(** The cost of writing one weight is that of writing a row over the weights in it, up to three digits. *)
Theorem C83_weight : forall to_float resolve first answer, named_columns first -> same_answers answer ->
  forall path node wordline bitline depth pres asked s bits k line row t a r w wd dir,
  technology_as node asked s -> (0 < wordline)%Q -> (0 < pres)%Q -> row_parts (wordline * pres)%Q bits k line ->
  answer (array_config asked """ram""" (bitline * depth)%Q bits line) = Some row -> says to_float first row t a r w ->
  good_world to_float first wd -> resolve (wd_cwd wd) path = Some dir ->
  exists x wd', w_cost_per_weight to_float resolve (cacti first answer) path node wordline bitline depth pres wd = (Returned x, wd') /\
    rounded (1 # 1000) x (1000 * s * w * k / wordline) /\ wd_cwd wd' = wd_cwd wd.
Proof. exact weight_ok. Qed.
Print Assumptions C83_weight.

(** When CACTI fails although an earlier call had an answer, the costs of the earlier call are
    returned: here those of 32 bits for an array of 8 bits. *)
Theorem C83_stale_refuted : exists to_float resolve first answer wd c wd1 wd2,
  named_columns first /\ same_answers answer /\ good_world to_float first wd /\
  get_cacti_cost to_float resolve (cacti first answer) "cacti" (65 # 1000) "sram" 4096 32 wd = (Returned c, wd1) /\
  answer (array_config (65 # 1000) """ram""" 64 8 1) = None /\
  get_cacti_cost to_float resolve (cacti first answer) "cacti" (65 # 1000) "sram" 64 8 wd1 = (Returned c, wd2).
Proof.
  exists ex_float, ex_resolve, ex_first, ex_answer, ex_world. do 3 eexists. split; [exact ex_columns|]. split; [exact ex_same|].
  split; [exact ex_good|]. split; [vm_compute; reflexivity|]. split; vm_compute; reflexivity.
Qed.
Print Assumptions C83_stale_refuted.

(** After an exception the current directory is that of CACTI, so that a later call does not find it. *)
Theorem C83_directory_refuted : exists to_float resolve first answer wd wd1,
  get_cacti_cost to_float resolve (cacti first answer) "cacti" (65 # 1000) "flash" 4096 32 wd = (Raised ValueError, wd1) /\
  (exists c wd2, get_cacti_cost to_float resolve (cacti first answer) "cacti" (65 # 1000) "sram" 4096 32 wd = (Returned c, wd2)) /\
  fst (get_cacti_cost to_float resolve (cacti first answer) "cacti" (65 # 1000) "sram" 4096 32 wd1) = NoDirectory.
Proof.
  exists ex_float, ex_resolve, ex_first, ex_answer, ex_world. eexists. split; [vm_compute; reflexivity|].
  split; [do 2 eexists; vm_compute; reflexivity|]. vm_compute. reflexivity.
Qed.
Print Assumptions C83_directory_refuted.

(** Rows that are no whole number of bytes are asked for with fewer bits in a line than on the bus. *)
Theorem C83_bytes_refuted : exists bw bits k line, row_parts bw bits k line /\ (8 * inject_Z line < bits)%Q.
Proof.
  exists 12%Q, 12%Q, 1%Q, 1%Z. split; [|reflexivity]. split; [reflexivity|]. split; [vm_compute; discriminate|]. split; [reflexivity|].
  left. split; [vm_compute; discriminate|]. split; reflexivity.
Qed.
Print Assumptions C83_bytes_refuted.

Example C83_met : named_columns ex_first /\ same_answers ex_answer /\ good_world ex_float ex_first ex_world /\
  ex_resolve (wd_cwd ex_world) "cacti" = Some "/home/cacti" /\
  technology_as (28 # 1000) (32 # 1000) (81 # 100) /\ row_parts 128 32 4 4 /\
  ex_answer (array_config (32 # 1000) """ram""" (65536 * 8 / 128)%Q 32 4) = Some "32, 1, 2, 3, 4," /\
  says ex_float ex_first "32, 1, 2, 3, 4," 1 4 2 3.
Proof.
  split; [exact ex_columns|]. split; [exact ex_same|]. split; [exact ex_good|]. split; [reflexivity|].
  split; [left; repeat split; reflexivity|]. split.
  - split; [reflexivity|]. split; [vm_compute; discriminate|]. split; [reflexivity|]. right. split; [reflexivity|]. split; reflexivity.
  - split; [vm_compute; reflexivity|exact ex_says].
Qed.
