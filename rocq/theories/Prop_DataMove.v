(** C52: four-way data movement records (mapping/data_movement.py) behave as total
    functions on the four directions. *)
From Verif Require Import Base Model_DataMove Spec_DataMove Proof_DataMove.
Local Open Scope result_scope.

(** C52.  A record is built exactly from dicts that hold all four directions ... *)
Theorem C52_construct :
  forall A (zero : A) d,
  (complete d -> four_way zero (Some d) = Ok d) /\ (~ complete d -> four_way zero (Some d) = Err ValueError).
Proof. exact @construct_given. Qed.
Print Assumptions C52_construct.

(** C52.  ... and is zero in all of them by default. *)
Theorem C52_default :
  forall A (zero : A), exists f, four_way zero (@None (dict direction A)) = Ok f /\ forall k, dget k f = Some zero.
Proof. exact @construct_default. Qed.
Print Assumptions C52_default.

(** C52.  Setting a direction changes that direction alone. *)
Theorem C52_set :
  forall A k x (f : dict direction A), complete f ->
  complete (four_set k x f) /\ four_get k (four_set k x f) = Ok x /\
  forall k', k' <> k -> four_get k' (four_set k x f) = four_get k' f.
Proof. exact @get_set. Qed.
Print Assumptions C52_set.

(** C52.  Sums and multiples are taken direction by direction, whatever the order in which the
    dicts hold the directions ... *)
Theorem C52_add :
  forall A (zero : A) add f g, complete f -> complete g ->
  exists h, four_add zero add f g = Ok h /\ pointwise add f g h.
Proof. exact @add_ok. Qed.
Print Assumptions C52_add.

Theorem C52_mul :
  forall A (zero : A) mul f c, complete f ->
  exists h, four_mul zero mul f c = Ok h /\ complete h /\ forall k x, dget k f = Some x -> dget k h = Some (mul x c).
Proof. exact @mul_ok. Qed.
Print Assumptions C52_mul.

(** C52.  ... so addition is commutative and associative with the default as unit, and
    multiples distribute over it (where numbers do). *)
Theorem C52_add_comm :
  forall A (zero : A) (add : A -> A -> A), (forall x y, add x y = add y x) -> forall f g, complete f -> complete g ->
  four_add zero add f g = four_add zero add g f.
Proof. exact @add_comm. Qed.
Print Assumptions C52_add_comm.

Theorem C52_add_assoc :
  forall A (zero : A) (add : A -> A -> A), (forall x y z, add (add x y) z = add x (add y z)) ->
  forall f g h, complete f -> complete g -> complete h ->
  (fg <- four_add zero add f g ;; four_add zero add fg h) = (gh <- four_add zero add g h ;; four_add zero add f gh).
Proof. exact @add_assoc. Qed.
Print Assumptions C52_add_assoc.

Theorem C52_add_zero :
  forall A (zero : A) (add : A -> A -> A), (forall x, add x zero = x) ->
  forall f z, complete f -> four_way zero (@None (dict direction A)) = Ok z ->
  exists h, four_add zero add f z = Ok h /\ same h f.
Proof. exact @add_zero. Qed.
Print Assumptions C52_add_zero.

Theorem C52_mul_distr :
  forall A (zero : A) (add mul : A -> A -> A), (forall x y c, mul (add x y) c = add (mul x c) (mul y c)) ->
  forall f g c, complete f -> complete g ->
  (fg <- four_add zero add f g ;; four_mul zero mul fg c) =
  (f' <- four_mul zero mul f c ;; g' <- four_mul zero mul g c ;; four_add zero add f' g').
Proof. exact @mul_distr. Qed.
Print Assumptions C52_mul_distr.

(** C52.  A sum with an incomplete record raises; no number is made up. *)
Theorem C52_add_missing :
  forall A (zero : A) add f g, ~ (complete f /\ complete g) -> four_add zero add f g = Err KeyError.
Proof. exact @add_missing. Qed.
Print Assumptions C52_add_missing.

(** C52.  The attributes of a unit memory: all zero at first; setting one keeps the others;
    clearing a direction does so in every attribute and leaves the other directions alone. *)
Theorem C52_pattern_new :
  exists p, new_pattern = Ok p /\ forall a k, exists f, get_attribute a p = Ok f /\ four_get k f = Ok 0.
Proof. exact new_pattern_ok. Qed.
Print Assumptions C52_pattern_new.

Theorem C52_pattern_set :
  forall a v p, complete v ->
  exists p', set_attribute a v p = Ok p' /\ get_attribute a p' = Ok v /\
  forall a', a' <> a -> get_attribute a' p' = get_attribute a' p.
Proof. exact set_attribute_ok. Qed.
Print Assumptions C52_pattern_set.

Theorem C52_pattern_update :
  forall k x p a f, get_attribute a p = Ok f -> complete f ->
  exists f', get_attribute a (update_single_dir_data k x p) = Ok f' /\ four_get k f' = Ok x /\
  forall k', k' <> k -> four_get k' f' = four_get k' f.
Proof. exact update_single_ok. Qed.
Print Assumptions C52_pattern_update.

Example C52_met :
  complete [(WrHigh, 4); (RdLow, 1); (RdHigh, 3); (WrLow, 2)] /\ ~ complete [(RdLow, 1); (WrLow, 2)] /\
  four_add 0 Z.add [(WrHigh, 4); (RdLow, 1); (RdHigh, 3); (WrLow, 2)] [(RdLow, 10); (WrLow, 20); (RdHigh, 30); (WrHigh, 40)]
    = Ok [(RdLow, 11); (WrLow, 22); (RdHigh, 33); (WrHigh, 44)].
Proof.
  split; [intros []; eexists; reflexivity|]. split; [|reflexivity].
  intros H. destruct (H WrHigh) as (x & E). discriminate E.
Qed.
