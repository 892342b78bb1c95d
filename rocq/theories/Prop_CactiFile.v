(** C89: configuration files for CACTI. *)
From Coq Require Import Ascii.
From Verif Require Import Base Model_CactiFile Spec_CactiFile Proof_CactiFile.
Local Open Scope string_scope.

(** The options of the code can be told apart. *)
Theorem C89_options : separate config_options.
Proof. exact options_separate. Qed.
Print Assumptions C89_options.

(** With default values: each option is set once, to its default. *)
Theorem C89_default : forall t, separate t -> exists file, cacti_auto t Default = Ok [file] /\ length file = length t /\
  forall name s, dget name t = Some s -> sets file s (st_default s).
Proof. exact default_file. Qed.
Print Assumptions C89_default.

(** With given values: each option is set once, to the value given for it or else its default. *)
Theorem C89_given : forall t names values, separate t -> (length names <= length values)%nat ->
  exists file, cacti_auto t (Single names values) = Ok [file] /\ length file = length t /\
  forall name s, dget name t = Some s -> (forall v, given names values name v -> sets file s v) /\ (~ In name names -> sets file s (st_default s)).
Proof. exact single_file. Qed.
Print Assumptions C89_given.

(** A value that is missing is an error. *)
Theorem C89_missing : forall t names values name s, dget name t = Some s -> In name names -> (length values <= index name names)%nat ->
  cacti_auto t (Single names values) = Err IndexError.
Proof. exact single_short. Qed.
Print Assumptions C89_missing.

(** One option swept: a file for each listed value, in order, with defaults otherwise *)
Theorem C89_sweep_partial : forall t name s, separate t -> dget name t = Some s ->
  exists files, cacti_auto t (Sweep [name]) = Ok files /\ length files = length (st_values s) /\
  Forall2 (fun v file => sets file s v /\ forall other s', dget other t = Some s' -> other <> name -> sets file s' (st_default s')) (st_values s) files.
Proof. exact sweep_files. Qed.
Print Assumptions C89_sweep_partial.

(** Changed defaults: the last one given for an option holds, and nothing else changes. *)
Theorem C89_changed : forall t names values t', separate t -> change_default_value names values 0 t = Ok t' ->
  separate t' /\ keys t' = keys t /\ forall name s, dget name t = Some s -> exists s', dget name t' = Some s' /\ st_label s' = st_label s /\ st_values s' = st_values s /\
    (~ In name names -> st_default s' = st_default s) /\
    forall k v, nth_error names k = Some name -> nth_error values k = Some v -> (forall j, (k < j)%nat -> nth_error names j <> Some name) -> st_default s' = v.
Proof. exact changed_defaults. Qed.
Print Assumptions C89_changed.

(** What memories are simulated with: the size, width and ports asked for *)
Theorem C89_memory : forall mem_type size width rd wr rw banks technology,
  exists file, cacti_auto config_options (run_order mem_type size width rd wr rw banks technology) = Ok [file] /\ length file = 11%nat /\
    forall label v, In (label, v) [("-size (bytes) ", size); ("-block size (bytes) ", width); ("-output/input bus width ", width); ("-associativity ", "1");
      ("-read-write port ", rw); ("-exclusive read port ", rd); ("-exclusive write port ", wr); ("-single ended read ports ", "0"); ("-UCA bank count ", banks);
      ("-technology (u) ", technology); ("-cache type ", if eqb mem_type "sram" then """ram""" else """main memory""")] ->
    about label file = [(label ++ v ++ String "010"%char "")%string].
Proof. exact run_file. Qed.
Print Assumptions C89_memory.

(** Two options swept: no file sets both; one of them is left to CACTI. *)
Theorem C89_two_swept_refuted : exists files, cacti_auto config_options (Sweep ["technology"; "bank_count"]) = Ok files /\ length files = 11%nat /\
  forall file, In file files -> length file = 10%nat /\ (about "-technology (u) " file = [] \/ about "-UCA bank count " file = []).
Proof. exact two_swept. Qed.
Print Assumptions C89_two_swept_refuted.

(** Names that are not options are passed over without an error, even when all are. *)
Theorem C89_unknown_refuted : forall t names values, (forall name, In name names -> ~ In name (keys t)) -> cacti_auto t (Single names values) = cacti_auto t Default.
Proof. exact unknown_ignored. Qed.
Print Assumptions C89_unknown_refuted.

(** * The hypotheses are met *)

Example C89_met : exists t' file, change_default_value ["technology"; "bank_count"] ["0.022"; "2"] 0 config_options = Ok t' /\
  cacti_auto t' (Single ["cache_size"; "technology"] ["4096"; "0.032"]) = Ok [file] /\
  about "-size (bytes) " file = [("-size (bytes) 4096" ++ newline)%string] /\ about "-technology" file = [("-technology (u) 0.032" ++ newline)%string] /\
  about "-UCA bank count " file = [("-UCA bank count 2" ++ newline)%string] /\ given ["cache_size"; "technology"] ["4096"; "0.032"] "technology" "0.032".
Proof.
  eexists. eexists. split; [vm_compute; reflexivity|]. split; [vm_compute; reflexivity|]. do 3 (split; [vm_compute; reflexivity|]).
  exists 1%nat. split; [reflexivity|]. split; [reflexivity|]. intros [|j] L; [discriminate|]. inversion L as [|m H]. inversion H.
Qed.
