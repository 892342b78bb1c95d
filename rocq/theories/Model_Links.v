(** Model of [MemoryOperandLinks], zigzag/workload/layer_attributes.py:110-144. *)
From Verif Require Import Base.
Local Open Scope result_scope.

(** [data] and the private reverse dict *)
Record links := mkLinks { lk_data : dict string string; lk_reverse : dict string string }.

(** The dict comprehension of layer_attributes.py:121: later entries overwrite *)
Definition reverse_dict (data : dict string string) : dict string string :=
  fold_left (fun d kv => dset (snd kv) (fst kv) d) data [].
(** [__init__], layer_attributes.py:116-122 *)
Definition make_links (data : dict string string) : result links :=
  let r := reverse_dict data in
  if Nat.eqb (length r) (length data) then Ok (mkLinks data r) else Err AssertionError.

(** layer_attributes.py:124-137 *)
Definition layer_to_mem_op (l : links) (op : string) : result string := dgetr op (lk_data l).
Definition mem_to_layer_op (l : links) (mem_op : string) : result string := dgetr mem_op (lk_reverse l).
Definition contains_layer_op (l : links) (op : string) : bool := memb op (keys (lk_data l)).
Definition contains_mem_op (l : links) (mem_op : string) : bool := memb mem_op (values (lk_data l)).
