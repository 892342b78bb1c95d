(** Model of the automatic extraction of memory costs: zigzag/cacti/cacti_parser.py,
    zigzag/cacti/cacti_master/cacti_top.py:13-159 and
    zigzag/hardware/architecture/memory_instance.py:58-76.
    The CACTI program itself is an argument of the model.  The pool of simulated memories, a YAML
    file shared by all runs, is the association list that PyYAML makes of it: when a key is written
    again the last value counts and the first position is kept; a file that holds nothing is the
    empty list.  Numbers that are written as text and read back ([str], [int], [float]) are
    modelled as numbers.  A technology (a float, printed and read back exactly) is an integer that
    stands for it; costs are exact.  The existence test of the script, 132-133, is taken to pass. *)
From Coq Require Import QArith.
From Verif Require Import Base Model_Hierarchy.
Local Open Scope string_scope.
Local Open Scope list_scope.
Local Open Scope Z_scope.

(** The key of an entry.  cacti_top.py:125-139 concatenates the printed fields, with separators;
    entries of other provenance have any other name. *)
Inductive name := Named (s : string) | Made (bytes bw rd wr rw bank tech : Z).
Definition name_dec (a b : name) : {a = b} + {a <> b}.
Proof. decide equality; first [apply Z.eq_dec | apply String.string_dec]. Defined.
#[global] Instance EqB_name : EqB name.
Proof.
  refine {| eqb := fun a b => if name_dec a b then true else false |}.
  intros a b. destruct (name_dec a b); constructor; assumption.
Defined.

(** An entry of the pool, cacti_top.py:141-156; "bank_count" and "technology" may be missing
    (cacti_parser.py:50-51) *)
Record entry := mkEntry {
  en_bits : Z; en_bw : Z; en_rd : Z; en_wr : Z; en_rw : Z; en_bank : option Z; en_tech : option Z;
  en_type : string; en_read : Q; en_write : Q; en_area : Q }.
Definition pool := dict name entry.

(** The arguments of [get_item], cacti_parser.py:112-126 *)
Record request := mkRequest {
  rq_type : string; rq_size : Z; rq_bw : Z; rq_rd : Z; rq_wr : Z; rq_rw : Z; rq_bank : Z; rq_tech : Z }.

(** What CACTI is given, cacti_top.py:57-87: [cf_main] chooses "main memory" over "ram" *)
Record config := mkConfig {
  cf_main : bool; cf_bytes : Z; cf_bw : Z; cf_rd : Z; cf_wr : Z; cf_rw : Z; cf_bank : Z; cf_tech : Z }.
(** A line of its output, 113-118 *)
Record row := mkRow { rw_bytes : Z; rw_width : Z; rw_area : Q; rw_read : Q; rw_write : Q }.
(** [None]: there is no output file *)
Definition simulator := config -> option (list row).

(** [int(memory_pool[instance].get(key, -1))] *)
Definition or_minus (o : option Z) : Z := match o with Some z => z | None => -1 end.

(** the test of [item_exists], 53-61 *)
Definition numbers_match (q : request) (e : entry) : bool :=
  (rq_size q =? en_bits e) && (en_bw e =? rq_bw q) && (rq_rd q =? en_rd e) && (rq_wr q =? en_wr e) &&
  (rq_rw q =? en_rw e) && (or_minus (en_bank e) =? rq_bank q) && (or_minus (en_tech e) =? rq_tech q).
(** [item_exists], 25-64 *)
Definition item_exists (q : request) (p : pool) : bool := existsb (fun x => numbers_match q (snd x)) p.

(** the body of the loop of [run_cacti], cacti_top.py:113-159.  The variable [mem_type] is
    overwritten by the first line (120-123), and no longer is the text that the test expects:
    [kind] is [Some main] before, [None] after. *)
Definition record_row (q : request) (st : pool * option bool) (r : row) : pool * option bool :=
  let '(p, kind) := st in
  let type := match kind with Some false => "sram" | _ => "dram" end in
  (dset (Made (rw_bytes r) (rw_width r) (rq_rd q) (rq_wr q) (rq_rw q) (rq_bank q) (rq_tech q))
     (mkEntry (rw_bytes r * 8) (rw_width r) (rq_rd q) (rq_wr q) (rq_rw q) (Some (rq_bank q)) (Some (rq_tech q))
        type (rw_read r) (rw_write r) (rw_area r)) p, None).
(** the arguments given to CACTI: 49-55, 72-82 and cacti_parser.py:91 ([int] truncates) *)
Definition config_of (q : request) : config :=
  mkConfig (negb (eqb (rq_type q) "sram")) (Z.quot (rq_size q) 8) (rq_bw q) (rq_rd q) (rq_wr q) (rq_rw q) (rq_bank q) (rq_tech q).
(** [create_item], cacti_parser.py:66-110, with [run_cacti]; [None]: the subprocess fails *)
Definition create_item (sim : simulator) (q : request) (p : pool) : option pool :=
  match sim (config_of q) with
  | None => None
  | Some rs => Some (fst (fold_left (record_row q) rs (p, Some (cf_main (config_of q)))))
  end.

(** What a request ends with: the costs, or an error.  [MissingBank] is the [KeyError] of 190,
    [NoMatch] the error of 220, [SubprocessFailed] that of 110. *)
Inductive answer := Costs (read write area : Q) | NoMatch | SubprocessFailed | MissingBank.

(** the loop of 187-217 *)
Fixpoint find_item (q : request) (p : pool) : answer :=
  match p with
  | [] => NoMatch
  | (_, e) :: p =>
      match en_bank e with
      | None => MissingBank
      | Some _ =>
          if eqb (rq_type q) (en_type e) && numbers_match q e
          then Costs (en_read e * 1000) (en_write e * 1000) (en_area e) else find_item q p
      end
  end.

(** 142-158: a register file is priced as a static memory of 128 times its size *)
Definition adjusted (q : request) : request :=
  if eqb (rq_type q) "rf" then mkRequest "sram" (rq_size q * 128) (rq_bw q) (rq_rd q) (rq_wr q) (rq_rw q) (rq_bank q) (rq_tech q) else q.

(** [get_item], 112-222: the answer, the pool afterwards, and whether CACTI was run *)
Definition get_item (sim : simulator) (q : request) (p : pool) : answer * pool * bool :=
  let q := adjusted q in
  if item_exists q p then (find_item q p, p, false)
  else match create_item sim q p with
       | None => (SubprocessFailed, p, true)
       | Some p => (find_item q p, p, true)
       end.

(** Requests one after the other, over the same file *)
Fixpoint session (sim : simulator) (qs : list request) (p : pool) : list answer * pool :=
  match qs with
  | [] => ([], p)
  | q :: qs =>
      let '(a, p, _) := get_item sim q p in
      let '(l, p) := session sim qs p in (a :: l, p)
  end.

(** The request that a [MemoryInstance] makes, memory_instance.py:58-76: the width is that of the
    first read port, or else of the first read-write port; the numbers of ports keep their
    defaults (33-35), the technology that of cacti_parser.py:123. *)
Definition is_read (p : portspec) : bool := match ps_type p with PRead => true | _ => false end.
Definition is_read_write (p : portspec) : bool := match ps_type p with PReadWrite => true | _ => false end.
Definition instance_request (tech : Z) (type : string) (size : Z) (ports : list portspec) : result request :=
  match find is_read ports with
  | Some p => Ok (mkRequest type size (ps_bw_max p) 1 1 0 1 tech)
  | None => match find is_read_write ports with
            | Some p => Ok (mkRequest type size (ps_bw_max p) 1 1 0 1 tech)
            | None => Err ValueError
            end
  end.
