(** What adder trees and mapped rows of an in-memory-computing array are. *)
From Coq Require Import QArith.
From Verif Require Import Base Spec_Pr Model_Imc.
Open Scope string_scope.
Open Scope list_scope.
Open Scope Z_scope.

(** A tree of two-input adders.  An input is in use or not. *)
Inductive tree := Input (used : bool) | Add (l r : tree).
Fixpoint leaves (t : tree) : list bool :=
  match t with Input u => [u] | Add l r => leaves l ++ leaves r end.
(** Bits of the sum of inputs of [p] bits: one more than the wider operand. *)
Fixpoint width (p : Z) (t : tree) : Z :=
  match t with Input _ => p | Add l r => Z.max (width p l) (width p r) + 1 end.
(** An adder has one one-bit adder for every bit of its wider operand. *)
Definition adder_bits (p : Z) (l r : tree) : Z := Z.max (width p l) (width p r).
Fixpoint one_bit_adders (p : Z) (t : tree) : Z :=
  match t with Input _ => 0 | Add l r => one_bit_adders p l + one_bit_adders p r + adder_bits p l r end.
(** The balanced tree with [2^d] inputs of which those numbered below [m], from [first] on, are in use *)
Fixpoint balanced (d : nat) (first m : Z) : tree :=
  match d with
  | O => Input (first <? m)
  | S d => Add (balanced d first m) (balanced d (first + 2 ^ Z.of_nat d) m)
  end.
(** One-bit adders with both and with exactly one operand in use *)
Fixpoint in_use (t : tree) : bool :=
  match t with Input u => u | Add l r => orb (in_use l) (in_use r) end.
Fixpoint adding (p : Z) (t : tree) : Z :=
  match t with
  | Input _ => 0
  | Add l r => adding p l + adding p r + (if andb (in_use l) (in_use r) then adder_bits p l r else 0)
  end.
Fixpoint passing (p : Z) (t : tree) : Z :=
  match t with
  | Input _ => 0
  | Add l r => passing p l + passing p r + (if xorb (in_use l) (in_use r) then adder_bits p l r else 0)
  end.

(** Summing [2^d] numbers of [q] bits, number [j] shifted left by [j] places, in a balanced tree: the
    bits of the sum (of at most [(2^n - 1) * (2^q - 1)] for [n = 2^d]), and the one-bit adders: every
    adder has as many as its upper operand has bits, as the lower bits of the other pass through. *)
Definition place_width (q : Z) (d : nat) : Z := match d with O => q | _ => q + 2 ^ Z.of_nat d end.
Fixpoint place_one_bit_adders (q : Z) (d : nat) : Z :=
  match d with O => 0 | S d => 2 * place_one_bit_adders q d + place_width q d end.

(** * Rows *)

(** Dimension [w], irrelevant to the weights, slides over [b]: both index the same input dimension. *)
Definition slides_over (pairs : list (string * string)) (ir : list string) (w b : string) : Prop :=
  In w ir /\ (In (w, b) pairs \/ In (b, w) pairs).
(** every pair has one dimension irrelevant to the weights, such a dimension is in one pair *)
Definition paired (pairs : list (string * string)) (ir : list string) : Prop :=
  NoDup (flat_map (fun p => [fst p; snd p]) pairs) /\ NoDup ir /\
  (forall a b, In (a, b) pairs -> (In a ir /\ ~ In b ir) \/ (In b ir /\ ~ In a ir)) /\
  (forall w, In w ir -> exists b, slides_over pairs ir w b).
(** How often the dimension that slides over [b] is unrolled on the wordlines *)
Definition copies (pairs : list (string * string)) (ir : list string) (word : dict string Q) (b : string) (u : Q) : Prop :=
  (exists w f, slides_over pairs ir w b /\ dget w word = Some f /\ (u == f)%Q) \/
  ((forall w, slides_over pairs ir w b -> dget w word = None) /\ (u == 1)%Q).

(** unrollings that are whole numbers *)
Definition whole (d : dict string Z) : dict string Q := map (fun x => (fst x, inject_Z (snd x))) d.

(** Rows that hold [n] weights of one dimension and [c] copies of them, each [s] rows further *)
Definition rows_held (n c s : Z) : Z := distinct (all_indices 1 n s c).

(** * Arrays *)
Definition power_of_two (n : Z) : Prop := exists k : nat, n = 2 ^ Z.of_nat k.
(** what the validator (accelerator_validator.py:268-283) and the schema ask for, and a number of rows
    that is a power of two when the array is digital *)
Record valid (a : imc) : Prop := {
  wf_serial : power_of_two (im_serial a); wf_act : power_of_two (im_act a); wf_weight : power_of_two (im_weight a);
  wf_order : im_serial a <= im_act a; wf_adc : 0 <= im_adc a;
  wf_word : 1 <= im_wordline a; wf_bit : 1 <= im_bitline a; wf_banks : 1 <= im_banks a;
  wf_rows : im_analog a = false -> power_of_two (im_bitline a);
  wf_cells : (0 <= im_cells_area a)%Q; wf_adc_area : (0 <= im_adc_area a)%Q }.
Definition parts_nonneg (d : dict string Q) : Prop := forall k v, In (k, v) d -> (0 <= v)%Q.
