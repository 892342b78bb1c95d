(** What the costs of a cell array should be. *)
From Coq Require Import QArith Ascii.
From Verif Require Import Base Model_MapFile Model_ImcCacti.
Local Open Scope string_scope.
Local Open Scope list_scope.

(** Configurations with the same lines and numbers. *)
Definition same_value (a b : cvalue) : Prop :=
  match a, b with CNum x, CNum y => (x == y)%Q | CText s, CText t => s = t | _, _ => False end.
Definition same_config (c c' : config) : Prop := Forall2 (fun a b => fst a = fst b /\ same_value (snd a) (snd b)) c c'.

(** The configuration for [rows] rows of [bits] bits: one bank, one read-write port.  [kind] is the text
    for the type of memory. *)
Definition array_config (technology : Q) (kind : string) (rows bits : Q) (line_bytes : Z) : config :=
  [("-size (bytes) ", CNum (rows * bits / 8)%Q); ("-block size (bytes) ", CNum (inject_Z line_bytes));
   ("-output/input bus width ", CNum bits); ("-associativity ", CNum 1);
   ("-read-write port ", CNum 1); ("-exclusive read port ", CNum 0);
   ("-exclusive write port ", CNum 0); ("-single ended read ports ", CNum 0);
   ("-UCA bank count ", CNum 1); ("-technology (u) ", CNum technology);
   ("-cache type ", CText kind); ("-operating temperature (K) ", CNum 300)].

(** CACTI starts the output file with a fixed first line and adds one line for every run; a run that
    fails leaves the file as it is. *)
Definition cacti (first : string) (answer : config -> option string) (cfg : config) (old : option (list string)) : option (list string) :=
  match answer cfg with
  | None => old
  | Some row => Some (match old with None => [first; row] | Some ls => ls ++ [row] end)
  end.
Definition same_answers (answer : config -> option string) : Prop := forall c c', same_config c c' -> answer c = answer c'.

Section Table.
  Variable to_float : string -> option Q.
  Variable first : string.
  (** The columns that are named [name] *)
  Definition column (name : string) (i : nat) : Prop := nth_error (split ","%char first) i = Some name.
  Definition one_column (name : string) : Prop := exists i, column name i /\ forall j, column name j -> j = i.
  Definition reads (row name : string) (x : Q) : Prop :=
    exists i cell, column name i /\ nth_error (split ","%char row) i = Some cell /\ to_float cell = Some x.
  (** a line with numbers in all columns that have a name *)
  Definition readable (row : string) : Prop :=
    forall i cell, (i < length (split ","%char first))%nat -> nth_error (split ","%char row) i = Some cell -> exists x, to_float cell = Some x.
  Definition good_file (lines : list string) : Prop := exists rows, lines = first :: rows /\ forall r, In r rows -> readable r.
  Definition good_world (w : world) : Prop := forall dir lines, dget dir (wd_out w) = Some lines -> good_file lines.
  Definition named_columns : Prop :=
    one_column " Access time (ns)" /\ one_column " Area (mm2)" /\ one_column " Dynamic read energy (nJ)" /\ one_column " Dynamic write energy (nJ)".
  (** The answer [row] says: access in [t] ns, [a] square millimetres, [r] and [w] nJ for an access. *)
  Definition says (row : string) (t a r w : Q) : Prop :=
    readable row /\ reads row " Access time (ns)" t /\ reads row " Area (mm2)" a /\
    reads row " Dynamic read energy (nJ)" r /\ reads row " Dynamic write energy (nJ)" w.
End Table.

(** [x] is [y] up to half a unit of the last digit. *)
Definition rounded (unit x y : Q) : Prop := (y - unit / 2 <= x <= y + unit / 2)%Q.

(** Costs for an array of [k] parts as CACTI describes one, in ns, square millimetres (twice, for the
    cells' surroundings) and pJ, at a supply that scales energies by [s]. *)
Definition right_costs (s k t a r w : Q) (c : Q * Q * Q * Q) : Prop :=
  let '(time, area, read, write) := c in
  (time == s * t /\ rounded (1 # 10000000) area (2 * s * a * k) /\ read == 1000 * s * r * k /\ write == 1000 * s * w * k)%Q.

(** How CACTI is asked for rows of [bw] bits: as they are up to 32 bits, wider rows as [k] parts of 32
    bits.  [line] is the number of whole bytes in a part. *)
Definition row_parts (bw bits k : Q) (line : Z) : Prop :=
  (0 < bw /\ inject_Z line <= bits / 8 /\ bits / 8 < inject_Z line + 1 /\
   ((bw <= 32 /\ bits == bw /\ k == 1) \/ (32 < bw /\ bits == 32 /\ k == bw / 32)))%Q.
(** 28 nm is taken as 32 nm at nine tenths of the supply. *)
Definition technology_as (node asked s : Q) : Prop :=
  ((node == 28 # 1000 /\ asked == 32 # 1000 /\ s == 81 # 100) \/ (~ node == 28 # 1000 /\ asked == node /\ s == 1))%Q.
Definition kind_of (mem_type kind : string) : Prop :=
  (mem_type = "sram" /\ kind = """ram""") \/ (mem_type = "dram" /\ kind = """main memory""").
