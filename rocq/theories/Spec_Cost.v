(** Independent vocabulary for C24, C25, C36-C40. *)
From Coq Require Import QArith.
From Verif Require Import Base Model_DataMove Model_Mapping Model_Links Model_Cost Spec_DataMove Spec_Mapping.

(** * Energy *)

(** The number of accesses in a direction. *)
Definition count_in (f : dict direction Z) (k : direction) : Z :=
  match dget k f with Some x => x | None => 0%Z end.

(** The energy of an access: reads for data going out, writes for data coming in. *)
Definition access_cost (m : memlvl) (k : direction) : Q :=
  match k with RdLow | RdHigh => ml_read_energy m | WrLow | WrHigh => ml_write_energy m end.
Definition dir_energy (m : memlvl) (f : dict direction Z) (k : direction) : Q :=
  (inject_Z (count_in f k) * access_cost m k)%Q.
Definition spent (m : memlvl) (f : dict direction Z) : Q :=
  (dir_energy m f RdLow + dir_energy m f WrLow + dir_energy m f RdHigh + dir_energy m f WrHigh)%Q.

(** The memories of a layer operand, innermost first. *)
Definition memories_of (ci : inputs) (op : string) (ms : list memlvl) : Prop :=
  exists mem_op, dget op (lk_data (in_links ci)) = Some mem_op /\ dget mem_op (in_hier ci) = Some ms.

(** Access counts in all directions for memories that exist. *)
Definition good_accesses (ci : inputs) (acc : dict string (list (dict direction Z))) : Prop :=
  forall op fs, In (op, fs) acc ->
    (exists ms, memories_of ci op ms /\ (length fs <= length ms)%nat) /\ forall f, In f fs -> complete f.

(** The energy of all accesses of an operand. *)
Fixpoint spent_all (ms : list memlvl) (fs : list (dict direction Z)) : Q :=
  match ms, fs with m :: ms', f :: fs' => spent m f + spent_all ms' fs' | _, _ => 0 end%Q.

(** * Word accesses *)

(** [n] accesses of [mx] bits make up [reps] transfers of [bits] bits, when one transfer
    takes a whole number of accesses of [mn] bits; a last incomplete word is dropped. *)
Definition words (bits mn mx reps n : Z) : Prop :=
  exists w, ((w - 1) * mn < bits <= w * mn /\ n * mx <= w * mn * reps < (n + 1) * mx)%Z.

(** A value of one of the bandwidth tables *)
Definition width (d : dict string (dict direction (option Z))) (mem_op : string) (k : direction) (b : option Z) : Prop :=
  exists f, dget mem_op d = Some f /\ dget k f = Some b.

(** The accesses of a memory in one direction: the words of all periods, by all the
    memories of that level; none when no data moves, which has to be so when the memory
    has no port for the direction. *)
Definition right_words (ci : inputs) (op : string) (lv : nat) (k : direction) (n : Z) : Prop :=
  exists mem_op ms m od ps p a prec c,
    dget op (lk_data (in_links ci)) = Some mem_op /\ dget mem_op (in_hier ci) = Some ms /\
    nth_error ms lv = Some m /\ dget op (in_map ci) = Some (od, ps) /\ nth_error ps lv = Some p /\
    entry p AmountPerPeriod k = Some a /\ entry p Precision k = Some prec /\ entry p PeriodCount k = Some c /\
    ((a * prec = 0 /\ n = 0)%Z \/
     (exists mx mn uc u, width (ml_bw_max m) mem_op k (Some mx) /\ width (ml_bw_min m) mem_op k (Some mn) /\
        dget op (in_unit_count ci) = Some uc /\ nth_error uc (S lv) = Some u /\ words (a * prec) mn mx (c * u) n)).

(** Amounts, precisions and counts are not negative, and widths positive. *)
Definition sound_pattern (p : dict attr (dict direction Z)) : Prop :=
  forall a k x, entry p a k = Some x -> (0 <= x)%Z.
Record sound_inputs (ci : inputs) : Prop := {
  si_patterns : forall op od ps p, In (op, (od, ps)) (in_map ci) -> In p ps -> sound_pattern p;
  si_units : forall op uc u, In (op, uc) (in_unit_count ci) -> In u uc -> (0 <= u)%Z;
  si_widths : forall op ms m mem_op k b, In (op, ms) (in_hier ci) -> In m ms ->
    width (ml_bw_max m) mem_op k (Some b) \/ width (ml_bw_min m) mem_op k (Some b) -> (0 < b)%Z }.

(** One entry per memory level, each as [P] says. *)
Definition entries {A} (P : memlvl -> dict direction Z -> A -> Prop) (ms : list memlvl)
    (fs : list (dict direction Z)) (es : list A) : Prop :=
  length es = length fs /\
  forall lv m f e, nth_error ms lv = Some m -> nth_error fs lv = Some f -> nth_error es lv = Some e -> P m f e.

(** Access counts that are the sums of two others. *)
Inductive Forall3 {A B C} (R : A -> B -> C -> Prop) : list A -> list B -> list C -> Prop :=
| Forall3_nil : Forall3 R [] [] []
| Forall3_cons : forall a b c la lb lc, R a b c -> Forall3 R la lb lc -> Forall3 R (a :: la) (b :: lb) (c :: lc).
Definition sum_accesses (x y z : dict string (list (dict direction Z))) : Prop :=
  Forall3 (fun a b c => fst a = fst b /\ fst a = fst c /\
             Forall3 (fun f g h => forall k, count_in h k = count_in f k + count_in g k)%Z (snd a) (snd b) (snd c)) x y z.
