(** What automatic cost extraction should mean, over what is asked and what CACTI answers. *)
From Coq Require Import QArith.
From Verif Require Import Base Model_Hierarchy Model_Cacti.
Local Open Scope string_scope.
Local Open Scope list_scope.
Local Open Scope Z_scope.

(** The kinds of memory that can be asked for; the kind and size under which each is priced: a
    register file of [s] bits costs what a static memory of [128 s] bits costs. *)
Inductive priced_as : string -> Z -> string -> Z -> Prop :=
| priced_sram s : priced_as "sram" s "sram" s
| priced_dram s : priced_as "dram" s "dram" s
| priced_rf s : priced_as "rf" s "sram" (128 * s).

(** A request for whole bytes of a known kind, with a number of banks and a technology. *)
Definition askable (q : request) : Prop :=
  (exists k s, priced_as (rq_type q) (rq_size q) k s /\ s mod 8 = 0) /\ 0 <= rq_bank q /\ 0 <= rq_tech q.

(** CACTI, when it answers, gives one line, about the capacity and width that were asked. *)
Definition honest (sim : simulator) : Prop :=
  forall c rs, sim c = Some rs -> exists area read write, rs = [mkRow (cf_bytes c) (cf_bw c) area read write].
Definition answers_all (sim : simulator) : Prop := forall c, sim c <> None.

(** CACTI's costs, per access in thousandths of its unit, for a memory of [k] ("sram" or "dram")
    of [bits]. *)
Definition cacti_costs (sim : simulator) (k : string) (bits bw rd wr rw bank tech : Z) (c : Q * Q * Q) : Prop :=
  exists main bytes area read write, (main = true <-> k = "dram") /\ bits = 8 * bytes /\
    sim (mkConfig main bytes bw rd wr rw bank tech) = Some [mkRow bytes bw area read write] /\
    c = ((read * 1000)%Q, (write * 1000)%Q, area).
(** ... and those for what a request asks *)
Definition costs_asked (sim : simulator) (q : request) (c : Q * Q * Q) : Prop :=
  exists k s, priced_as (rq_type q) (rq_size q) k s /\
    cacti_costs sim k s (rq_bw q) (rq_rd q) (rq_wr q) (rq_rw q) (rq_bank q) (rq_tech q) c.

(** An entry is about the memory asked, but for its kind; and including it. *)
Definition same_numbers (q : request) (e : entry) : Prop :=
  (exists k, priced_as (rq_type q) (rq_size q) k (en_bits e)) /\ en_bw e = rq_bw q /\ en_rd e = rq_rd q /\ en_wr e = rq_wr q /\
  en_rw e = rq_rw q /\ en_bank e = Some (rq_bank q) /\ en_tech e = Some (rq_tech q).
Definition same_memory (q : request) (e : entry) : Prop :=
  same_numbers q e /\ priced_as (rq_type q) (rq_size q) (en_type e) (en_bits e).

(** A pool as the script leaves it: names are used once, the name of an entry made by the script
    tells its numbers, and numbers of banks and whole bytes are recorded. *)
Definition well_kept (p : pool) : Prop :=
  NoDup (keys p) /\
  forall k e, In (k, e) p -> en_bank e <> None /\ en_bits e mod 8 = 0 /\
    forall b w r wr rw bk t, k = Made b w r wr rw bk t ->
      en_bits e = 8 * b /\ en_bw e = w /\ en_rd e = r /\ en_wr e = wr /\ en_rw e = rw /\ en_bank e = Some bk /\ en_tech e = Some t.
(** All its costs come from this CACTI. *)
Definition truthful (sim : simulator) (p : pool) : Prop :=
  forall k e, In (k, e) p -> forall bk t, en_bank e = Some bk -> en_tech e = Some t -> 
    cacti_costs sim (en_type e) (en_bits e) (en_bw e) (en_rd e) (en_wr e) (en_rw e) bk t
      ((en_read e * 1000)%Q, (en_write e * 1000)%Q, en_area e).
