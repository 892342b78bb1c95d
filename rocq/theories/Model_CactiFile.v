(** Configuration files for CACTI: zigzag/cacti/cacti_master/cacti_config_creator.py:281-448 and
    the call in zigzag/cacti/cacti_master/cacti_top.py:48-87.  Modelled are the lines after the fixed first part
    ([baseline_config], lines 9-279).  Values are the texts [str] gives; running CACTI is left out. *)
From Coq Require Import Ascii.
From Verif Require Import Base.
Local Open Scope string_scope.
Local Open Scope list_scope.
Local Open Scope Z_scope.
Local Open Scope result_scope.

(** An entry of [config_options]: "string", "option", "default" *)
Record setting := mkSetting { st_label : string; st_values : list string; st_default : string }.
(** [config_options], cacti_config_creator.py:281-376 *)
Definition config_options : dict string setting :=
  [("cache_size", mkSetting "-size (bytes) " ["64"; "128"; "256"; "512"; "1024"; "2048"; "4096"; "8192"; "16384"; "32768"; "65536"; "131072"; "262144";
      "524288"; "1048576"; "2097152"; "4194304"; "8388608"; "16777216"; "33554432"; "134217728"; "67108864"; "1073741824"] "64");
   ("line_size", mkSetting "-block size (bytes) " ["8"; "16"; "24"] "64");
   ("IO_bus_width", mkSetting "-output/input bus width " ["4"; "8"; "16"; "24"; "32"; "64"; "128"] "128");
   ("associativity", mkSetting "-associativity " ["0"; "1"; "2"; "4"] "1");
   ("rd_wr_port", mkSetting "-read-write port " ["0"; "1"; "2"; "3"; "4"] "0");
   ("ex_rd_port", mkSetting "-exclusive read port " ["0"; "1"; "2"; "3"; "4"] "2");
   ("ex_wr_port", mkSetting "-exclusive write port " ["0"; "1"; "2"; "3"; "4"] "2");
   ("single_rd_port", mkSetting "-single ended read ports " ["0"; "1"; "2"; "3"; "4"] "0");
   ("bank_count", mkSetting "-UCA bank count " ["1"; "2"; "4"; "8"; "16"] "1");
   ("technology", mkSetting "-technology (u) " ["0.022"; "0.028"; "0.04"; "0.032"; "0.065"; "0.09"] "0.09");
   ("mem_type", mkSetting "-cache type " ["""cache"""; """ram"""; """main memory"""] """ram""")].

Definition newline : string := String (Ascii.ascii_of_nat 10) "".
(** [value["string"] + str(v) + "\n"] *)
Definition line (s : setting) (v : string) : string := (st_label s ++ v ++ newline)%string.
(** [list.index], of something in the list *)
Fixpoint index (x : string) (l : list string) : nat :=
  match l with [] => O | y :: l => if eqb y x then O else S (index x l) end.
(** [l[i]] *)
Definition at_index {A} (l : list A) (i : nat) : result A := of_option IndexError (nth_error l i).

(** [change_default_value], cacti_config_creator.py:380-382; the right-hand side is evaluated first. *)
Fixpoint change_default_value (names values : list string) (i : nat) (t : dict string setting) : result (dict string setting) :=
  match names with
  | [] => Ok t
  | name :: names =>
      v <- at_index values i ;; s <- dgetr name t ;;
      change_default_value names values (S i) (dset name (mkSetting (st_label s) (st_values s) v) t)
  end.

(** [user_input] of [cacti_auto]: ['default'], ['single', [names, values]], ['sweep', names] *)
Inductive order := Default | Single (names values : list string) | Sweep (names : list string).
(** [cacti_auto], cacti_config_creator.py:410-448: the files CACTI is called with, one after the other *)
Definition cacti_auto (t : dict string setting) (o : order) : result (list (list string)) :=
  match o with
  | Default => Ok [map (fun x => line (snd x) (st_default (snd x))) t]
  | Single names values =>
      l <- rmap (fun x => if memb (fst x) names then v <- at_index values (index (fst x) names) ;; Ok (line (snd x) v)
                          else Ok (line (snd x) (st_default (snd x)))) t ;;
      Ok [l]
  | Sweep names =>
      let common := map (fun x => line (snd x) (st_default (snd x))) (filter (fun x => negb (memb (fst x) names)) t) in
      l <- rmap (fun name => s <- dgetr name t ;; Ok (map (fun v => [line s v]) (st_values s))) names ;;
      Ok (map (fun u => u ++ common) (concat l))
  end.

(** [run_cacti], cacti_top.py:48-87: what it asks for.  All arguments are texts. *)
Definition run_order (mem_type size width rd wr rw banks technology : string) : order :=
  Single ["mem_type"; "cache_size"; "IO_bus_width"; "ex_rd_port"; "ex_wr_port"; "rd_wr_port"; "bank_count"; "technology"; "line_size"]
    [if eqb mem_type "sram" then """ram""" else """main memory"""; size; width; rd; wr; rw; banks; technology; width].
