(** Independent vocabulary for C26-C29: evaluations as numbers per operand, level and direction. *)
From Coq Require Import QArith.
From Verif Require Import Base Model_DataMove Model_Cme Spec_DataMove.

(** The entry of an operand at a level, and in a direction. *)
Definition at2 {A} (d : dict string (list A)) (op : string) (lv : nat) : option A :=
  match dget op d with Some l => nth_error l lv | None => None end.
Definition at3 {A} (d : dict string (list (dict direction A))) (op : string) (lv : nat) (k : direction) : option A :=
  match at2 d op lv with Some f => dget k f | None => None end.

(** The sum of entries, of which either may be missing. *)
Definition opt_add {A} (add : A -> A -> A) (x y : option A) : option A :=
  match x, y with
  | Some a, Some b => Some (add a b)
  | Some a, None => Some a
  | None, o => o
  end.

(** Evaluations: the three dicts have the same operands, their records are complete, and a
    single evaluation has an accelerator. *)
Record well_formed (e : eval) : Prop := {
  wf_bd : NoDup (keys (ev_bd e)); wf_further : NoDup (keys (ev_further e)); wf_words : NoDup (keys (ev_words e));
  wf_same_further : forall op, In op (keys (ev_further e)) <-> In op (keys (ev_bd e));
  wf_same_words : forall op, In op (keys (ev_words e)) <-> In op (keys (ev_bd e));
  wf_complete_further : forall op l f, In (op, l) (ev_further e) -> In f l -> complete f;
  wf_complete_words : forall op l f, In (op, l) (ev_words e) -> In f l -> complete f;
  wf_acc : forall i, ev_layers e = inl i -> ev_acc e <> None }.

(** One accelerator name extends the other. *)
Definition extends (x y : string) : Prop := exists s, y = (x ++ s)%string.
(** There is an accelerator, and two have related names. *)
Definition compatible (x y : option string) : Prop :=
  match x, y with
  | None, None => False
  | Some a, Some b => extends a b \/ extends b a
  | _, _ => True
  end.
(** The shorter of two related names. *)
Definition chosen (x y r : option string) : Prop :=
  match x, y with
  | Some a, Some b => extends a b /\ r = Some a \/ extends b a /\ r = Some b
  | Some a, None => r = Some a
  | None, o => r = o
  end.

(** The four utilizations are the ideal cycles over each of the cycle counts. *)
Definition right_utils (e : eval) : Prop :=
  exists s u0 u1 u2, ev_utils e = Some (s, u0, u1, u2) /\
    (s * ev_temporal e == ev_ideal e /\ u0 * ev_l0 e == ev_ideal e /\ u1 * ev_l1 e == ev_ideal e /\ u2 * ev_l2 e == ev_ideal e)%Q.
(** No cycle count is zero. *)
Definition nonzero (e : eval) : Prop :=
  (~ ev_temporal e == 0 /\ ~ ev_l0 e == 0 /\ ~ ev_l1 e == 0 /\ ~ ev_l2 e == 0)%Q.
(** The cycle counts of the sum *)
Definition nonzero_sum (a b : eval) : Prop :=
  (~ ev_temporal a + ev_temporal b == 0 /\ ~ ev_l0 a + ev_l0 b == 0 /\
   ~ ev_l1 a + ev_l1 b == 0 /\ ~ ev_l2 a + ev_l2 b == 0)%Q.
(** All are positive. *)
Definition positive (e : eval) : Prop := (0 < ev_temporal e /\ 0 < ev_l0 e /\ 0 < ev_l1 e /\ 0 < ev_l2 e)%Q.

(** [r] is the sum of [a] and [b]. *)
Record sum_of (a b r : eval) : Prop := {
  so_bd : forall op lv, at2 (ev_bd r) op lv = opt_add Qplus (at2 (ev_bd a) op lv) (at2 (ev_bd b) op lv);
  so_further : forall op lv k, at3 (ev_further r) op lv k = opt_add Qplus (at3 (ev_further a) op lv k) (at3 (ev_further b) op lv k);
  so_words : forall op lv k, at3 (ev_words r) op lv k = opt_add Z.add (at3 (ev_words a) op lv k) (at3 (ev_words b) op lv k);
  so_ops : forall op, In op (keys (ev_bd r)) <-> In op (keys (ev_bd a)) \/ In op (keys (ev_bd b));
  so_mac : ev_mac r = (ev_mac a + ev_mac b)%Q; so_mem : ev_mem r = (ev_mem a + ev_mem b)%Q;
  so_energy : ev_energy r = (ev_energy a + ev_energy b)%Q;
  so_on : ev_on r = (ev_on a + ev_on b)%Q; so_off : ev_off r = (ev_off a + ev_off b)%Q;
  so_ideal : ev_ideal r = (ev_ideal a + ev_ideal b)%Q; so_temporal : ev_temporal r = (ev_temporal a + ev_temporal b)%Q;
  so_l0 : ev_l0 r = (ev_l0 a + ev_l0 b)%Q; so_l1 : ev_l1 r = (ev_l1 a + ev_l1 b)%Q; so_l2 : ev_l2 r = (ev_l2 a + ev_l2 b)%Q;
  so_utils : right_utils r;
  so_layers : layer_ids r = layer_ids a ++ layer_ids b;
  so_acc : chosen (ev_acc a) (ev_acc b) (ev_acc r) }.

(** The same numbers (utilizations follow from the cycles). *)
Definition opt_eq (x y : option Q) : Prop :=
  match x, y with Some a, Some b => (a == b)%Q | None, None => True | _, _ => False end.
Record same_numbers (a b : eval) : Prop := {
  sn_bd : forall op lv, opt_eq (at2 (ev_bd a) op lv) (at2 (ev_bd b) op lv);
  sn_further : forall op lv k, opt_eq (at3 (ev_further a) op lv k) (at3 (ev_further b) op lv k);
  sn_words : forall op lv k, at3 (ev_words a) op lv k = at3 (ev_words b) op lv k;
  sn_ops : forall op, In op (keys (ev_bd a)) <-> In op (keys (ev_bd b));
  sn_mac : (ev_mac a == ev_mac b)%Q; sn_mem : (ev_mem a == ev_mem b)%Q; sn_energy : (ev_energy a == ev_energy b)%Q;
  sn_on : (ev_on a == ev_on b)%Q; sn_off : (ev_off a == ev_off b)%Q;
  sn_ideal : (ev_ideal a == ev_ideal b)%Q; sn_temporal : (ev_temporal a == ev_temporal b)%Q;
  sn_l0 : (ev_l0 a == ev_l0 b)%Q; sn_l1 : (ev_l1 a == ev_l1 b)%Q; sn_l2 : (ev_l2 a == ev_l2 b)%Q }.

(** The energy breakdown adds up. *)
Definition breakdown_total (e : eval) : Q := qsum (map (fun kv => qsum (snd kv)) (ev_bd e)).
Definition adds_up (e : eval) : Prop :=
  (ev_energy e == ev_mac e + ev_mem e /\ ev_mem e == breakdown_total e)%Q.

(** [r] is [n] times [a]. *)
Record multiple_of (n : Z) (a r : eval) : Prop := {
  mu_bd : forall op lv, at2 (ev_bd r) op lv = option_map (fun x => x * inject_Z n)%Q (at2 (ev_bd a) op lv);
  mu_further : forall op lv k, at3 (ev_further r) op lv k = option_map (fun x => x * inject_Z n)%Q (at3 (ev_further a) op lv k);
  mu_words : forall op lv k, at3 (ev_words r) op lv k = option_map (fun x => x * n)%Z (at3 (ev_words a) op lv k);
  mu_ops : keys (ev_bd r) = keys (ev_bd a);
  mu_mac : ev_mac r = (ev_mac a * inject_Z n)%Q; mu_mem : ev_mem r = (ev_mem a * inject_Z n)%Q;
  mu_energy : ev_energy r = (ev_energy a * inject_Z n)%Q;
  mu_on : ev_on r = (ev_on a * inject_Z n)%Q; mu_off : ev_off r = (ev_off a * inject_Z n)%Q;
  mu_ideal : ev_ideal r = (ev_ideal a * inject_Z n)%Q; mu_temporal : ev_temporal r = (ev_temporal a * inject_Z n)%Q;
  mu_l0 : ev_l0 r = (ev_l0 a * inject_Z n)%Q; mu_l1 : ev_l1 r = (ev_l1 a * inject_Z n)%Q; mu_l2 : ev_l2 r = (ev_l2 a * inject_Z n)%Q;
  mu_utils : right_utils r;
  mu_layers : ev_layers r = ev_layers a; mu_acc : ev_acc r = ev_acc a }.

(** The numbers of a sequence of evaluations added one after the other. *)
Definition total_of (f : eval -> Q) (l : list eval) : Q := qsum (map f l).
Definition entry_total {A} (add : A -> A -> A) (f : eval -> option A) (l : list eval) : option A :=
  fold_left (fun x e => opt_add add x (f e)) l None.

Record summed (l : list eval) (t : eval) : Prop := {
  su_bd : forall op lv, at2 (ev_bd t) op lv = entry_total Qplus (fun e => at2 (ev_bd e) op lv) l;
  su_further : forall op lv k, at3 (ev_further t) op lv k = entry_total Qplus (fun e => at3 (ev_further e) op lv k) l;
  su_words : forall op lv k, at3 (ev_words t) op lv k = entry_total Z.add (fun e => at3 (ev_words e) op lv k) l;
  su_ops : forall op, In op (keys (ev_bd t)) <-> exists e, In e l /\ In op (keys (ev_bd e));
  su_mac : (ev_mac t == total_of ev_mac l)%Q; su_mem : (ev_mem t == total_of ev_mem l)%Q;
  su_energy : (ev_energy t == total_of ev_energy l)%Q;
  su_on : (ev_on t == total_of ev_on l)%Q; su_off : (ev_off t == total_of ev_off l)%Q;
  su_ideal : (ev_ideal t == total_of ev_ideal l)%Q; su_temporal : (ev_temporal t == total_of ev_temporal l)%Q;
  su_l0 : (ev_l0 t == total_of ev_l0 l)%Q; su_l1 : (ev_l1 t == total_of ev_l1 l)%Q; su_l2 : (ev_l2 t == total_of ev_l2 l)%Q;
  su_layers : layer_ids t = flat_map layer_ids l }.

(** * Selection *)

(** [b] is not worse than [e]: less energy, or as much in no more time; and so on. *)
Definition energy_le (b e : eval) : Prop := (ev_energy b < ev_energy e \/ ev_energy b == ev_energy e /\ ev_l2 b <= ev_l2 e)%Q.
Definition latency_le (b e : eval) : Prop := (ev_l2 b < ev_l2 e \/ ev_l2 b == ev_l2 e /\ ev_energy b <= ev_energy e)%Q.
Definition edp_le (b e : eval) : Prop := (ev_l2 b * ev_energy b <= ev_l2 e * ev_energy e)%Q.

(** [b] is the first of the best of a list. *)
Definition first_best (le : eval -> eval -> Prop) (l : list eval) (b : eval) : Prop :=
  exists l1 l2, l = l1 ++ b :: l2 /\ (forall e, In e l -> le b e) /\ (forall e, In e l1 -> ~ le e b).
