(** C73: reading of hardware descriptions. *)
From Coq Require Import QArith Lia.
From Verif Require Import Base Model_Hierarchy Model_Imc Model_Cacti Model_AccelFile Shipped_Hardware Spec_Hierarchy Spec_Imc Spec_Cacti Spec_AccelFile
  Proof_Cacti Proof_AccelFile.
Local Open Scope string_scope.
Local Open Scope list_scope.
Local Open Scope Z_scope.

(** The validator accepts exactly the descriptions that are proper. *)
Theorem C73_accepted f : validate f = Ok true <-> accepted_regular f \/ accepted_imc f.
Proof. exact (accepts_iff f). Qed.
Print Assumptions C73_accepted.

(** A description of multipliers is built exactly when it is accepted, the costs of a unit are given,
    ports move operands of their own memory only, and the costs of every memory are written or
    answered.  What is built is what is written. *)
Theorem C73_regular bank adc sim tech p f p' : ~ in_memory (rf_array f) ->
  ((exists a, parse_accelerator bank adc sim tech p f = Ok (a, p')) <->
   accepted_regular f /\ ra_energy (rf_array f) <> None /\ ra_area (rf_array f) <> None /\ serves_own f /\
   exists cs, priced sim tech p (map snd (rf_memories f)) cs p') /\
  forall a, parse_accelerator bank adc sim tech p f = Ok (a, p') -> read_as sim tech p f a p' /\
    exists e u, ra_energy (rf_array f) = Some e /\ ra_area (rf_array f) = Some u /\
      ar_kind (ac_array a) = Multipliers e u (u * inject_Z (ar_units (ac_array a))).
Proof. exact (regular_builds bank adc sim tech p f p'). Qed.
Print Assumptions C73_regular.

(** With no cost to extract, CACTI plays no part. *)
Theorem C73_written bank adc sim tech p f : ~ in_memory (rf_array f) -> (forall x m, In (x, m) (rf_memories f) -> ~ automatic m) ->
  ((exists a p', parse_accelerator bank adc sim tech p f = Ok (a, p')) <->
   accepted_regular f /\ ra_energy (rf_array f) <> None /\ ra_area (rf_array f) <> None /\ serves_own f).
Proof. exact (written_builds bank adc sim tech p f). Qed.
Print Assumptions C73_written.

(** An in-memory-computing array (with no dimension named twice) has the parameters written: wordlines
    are the dimension with the lowest number, bitlines the next, and the others count the banks. *)
Theorem C73_imc bank adc sim tech p f p' : in_memory (rf_array f) -> NoDup (ra_dims (rf_array f)) ->
  ((exists a, parse_accelerator bank adc sim tech p f = Ok (a, p')) <->
   accepted_imc f /\ serves_own f /\ (exists cs, priced sim tech p (map snd (rf_memories f)) cs p') /\
   exists i figures, parameters_as bank adc f i /\ construct i = Ok figures) /\
  forall a, parse_accelerator bank adc sim tech p f = Ok (a, p') -> read_as sim tech p f a p' /\
    exists i figures, ar_kind (ac_array a) = InMemory i figures /\ parameters_as bank adc f i /\ construct i = Ok figures.
Proof. exact (imc_builds bank adc sim tech p f p'). Qed.
Print Assumptions C73_imc.

(** ... and its figures can be computed (C70) when it is workable. *)
Theorem C73_imc_workable bank adc f : accepted_imc f -> workable bank adc f ->
  exists i figures, parameters_as bank adc f i /\ construct i = Ok figures.
Proof. exact (workable_parameters bank adc f). Qed.
Print Assumptions C73_imc_workable.

(** Extracted costs are those that CACTI says for the memory described (C71), whatever the pool holds. *)
Theorem C73_extracted bank adc sim tech p f a p' : honest sim -> 0 <= tech -> well_kept p -> truthful sim p ->
  (forall x m, In (x, m) (rf_memories f) -> automatic m -> known_type m) ->
  parse_accelerator bank adc sim tech p f = Ok (a, p') ->
  well_kept p' /\ truthful sim p' /\
  forall cs, priced sim tech p (map snd (rf_memories f)) cs p' ->
    Forall2 (fun m c => automatic m -> exists q, asks tech m q /\ costs_asked sim q c) (map snd (rf_memories f)) cs.
Proof. exact (costs_answered bank adc sim tech p f a p'). Qed.
Print Assumptions C73_extracted.

(** What the validator lets through without being buildable *)
Theorem C73_accepted_not_built_refuted :
  (validate no_energy = Ok true /\ fails_with no_energy = Some KeyError) /\
  (validate foreign_port = Ok true /\ fails_with foreign_port = Some KeyError) /\
  (validate write_only = Ok true /\ fails_with write_only = Some ValueError) /\
  (validate odd_type = Ok true /\ fails_with odd_type = Some RuntimeError) /\
  (validate one_dimension = Ok true /\ fails_with one_dimension = Some IndexError) /\
  (validate null_adc = Ok true /\ fails_with null_adc = Some TypeError) /\
  (validate odd_rows = Ok true /\ fails_with odd_rows = Some AssertionError).
Proof. repeat split; vm_compute; reflexivity. Qed.
Print Assumptions C73_accepted_not_built_refuted.

(** A dimension named twice: one of its sizes is lost. *)
Theorem C73_repeated_dimension_refuted : validate repeated_dimension = Ok true /\ built repeated_dimension = Ok ("twice", [("D1", 3)], 3, 1%nat).
Proof. split; vm_compute; reflexivity. Qed.
Print Assumptions C73_repeated_dimension_refuted.

(** An array of unspecified type is digital, with converters in its description. *)
Theorem C73_untyped_refuted : validate untyped = Ok true /\
  exists a p i figures, parse_accelerator no_bank no_area ex_sim 22 [] untyped = Ok (a, p) /\ ar_kind (ac_array a) = InMemory i figures /\
    im_analog i = false /\ im_adc i = 8.
Proof. split; [vm_compute; reflexivity|]. do 4 eexists. split; [vm_compute; reflexivity|]. split; [reflexivity|]. split; reflexivity. Qed.
Print Assumptions C73_untyped_refuted.

(** A description can be too wrong to be refused: the validator raises instead. *)
Theorem C73_validator_raises_refuted :
  raises no_precision = Some KeyError /\ raises no_serial = Some TypeError /\ raises zero_precision = Some ValueError /\ raises no_cells = Some KeyError.
Proof. repeat split; vm_compute; reflexivity. Qed.
Print Assumptions C73_validator_raises_refuted.

(** Every description that comes with the project is accepted and built. *)
Example C73_shipped : map validate shipped = repeat (Ok true) 11 /\ map fails_with shipped = repeat None 11 /\
  built gemm_l1_l3 = Ok ("gemm_l1_l3", [("D1", 8); ("D2", 8); ("D3", 8)], 512, 3%nat).
Proof. split; [vm_compute; reflexivity|]. split; vm_compute; reflexivity. Qed.
Example C73_regular_meets : accepted_regular tpu_like /\ ra_energy (rf_array tpu_like) <> None /\ (exists a p, parse_accelerator no_bank no_area ex_sim 22 [] tpu_like = Ok (a, p)).
Proof.
  split; [|split; [discriminate|do 2 eexists; vm_compute; reflexivity]]. destruct (proj1 (C73_accepted tpu_like)) as [A|A]; [vm_compute; reflexivity|exact A|]. destruct A as (_ & A & _). discriminate A.
Qed.
Example C73_imc_meets : accepted_imc aimc /\ workable no_bank no_area aimc /\ accepted_imc dimc /\ NoDup (ra_dims (rf_array dimc)).
Proof.
  assert (A : forall f, in_memory (rf_array f) -> validate f = Ok true -> accepted_imc f) by (intros f I V; destruct (proj1 (C73_accepted f) V) as [(_ & X & _)|X]; [contradiction|exact X]).
  split; [apply A; vm_compute; reflexivity|]. split; [|split; [apply A; vm_compute; reflexivity|apply NoDup_cons; [intros [X|[]]; discriminate X|apply NoDup_cons; [intros []|constructor]]]].
  split; [apply NoDup_cons; [intros [X|[]]; discriminate X|apply NoDup_cons; [intros []|constructor]]|]. split; [cbn; lia|]. split; [intros n [<-|[<-|[]]]; lia|].
  split; [exists 8; split; [reflexivity|lia]|]. split; [intros n; apply Qle_refl|]. split; [intros X; exfalso; apply X; reflexivity|].
  intros cells E. injection E as <-. split; [intros _ x Ex; injection Ex as <-; discriminate|]. discriminate.
Qed.
Example C73_extracted_meets : (exists a p, parse_accelerator no_bank no_area ex_sim 22 [] extracted = Ok (a, p) /\ p <> []) /\
  (forall x m, In (x, m) (rf_memories extracted) -> automatic m /\ known_type m) /\ honest ex_sim /\ well_kept [] /\ truthful ex_sim [].
Proof.
  split; [do 2 eexists; split; [vm_compute; reflexivity|discriminate]|]. split; [|split; [apply ex_honest|apply empty_kept]].
  intros x m [[= <- <-]|[]]. split; [reflexivity|]. right. exists "rf". split; [reflexivity|]. right. right. now left.
Qed.
