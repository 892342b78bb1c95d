(** C19, C20: the innermost memories bound the unrollings.  C55-C57: the generator of
    spatial mappings. *)
From Coq Require Import QArith Sorted.
From Verif Require Import Base Model_SpatialMap Spec_SpatialMap Model_Generation Spec_Generation
  Proof_Bandwidth Proof_Capacity Proof_Generation Prop_SpatialMap.
Local Open Scope string_scope.

(** * C20 *)

(** C20.  Limiting to the bandwidth succeeds on a complete hierarchy ... *)
Theorem C20_total :
  forall layer mems mapping, NoDup (keys mapping) -> mems_complete layer mems (keys mapping) ->
  exists mapping', limit_bandwidth layer mems mapping = Ok mapping'.
Proof. exact limit_bandwidth_ok. Qed.
Print Assumptions C20_total.

(** C20.  ... and cuts every unrolling to what every memory feeding it sustains, no
    further than the tightest; an unrolling that no memory feeds is kept
    (no [S p b] in [cut] then).  All innermost memories are covered. *)
Theorem C20_bandwidth :
  forall layer mems mapping mapping', NoDup (keys mapping) -> limit_bandwidth layer mems mapping = Ok mapping' ->
  cuts (fed layer mems) mapping mapping'.
Proof. exact limit_bandwidth_cuts. Qed.
Print Assumptions C20_bandwidth.

(** C20.  The maximal unrollings are the smaller of layer and array dimension, cut so. *)
Theorem C20_max_unrolling :
  forall layer mems oa_sizes, NoDup (keys oa_sizes) -> mems_complete layer mems (keys oa_sizes) ->
  exists mx, get_max_unrolling layer mems oa_sizes = Ok mx /\ keys mx = keys oa_sizes /\
    Forall2 (fun os om => fst om = fst os /\
      Forall2 (fun ds du => fst du = fst ds /\ cut (fed layer mems (fst os) (fst ds)) (Z.min (snd ds) (snd os)) (snd du))
        (gl_sizes layer) (snd om)) oa_sizes mx.
Proof. exact max_unrolling_ok. Qed.
Print Assumptions C20_max_unrolling.

Definition g_layer : gen_layer :=
  {| gl_sizes := [("K", 16); ("C", 4)]%Z; gl_layer_op := [("I2", "W"); ("O", "O")];
     gl_prec := [("W", 2); ("O", 4)]%Z; gl_ir := [("W", ["C"]); ("O", ["C"])] |}.
Definition g_mem (size rd : Z) : inner_mem :=
  {| im_operands := ["I2"]; im_served := ["D1"; "D2"]; im_size := size;
     im_rd_low := [("I2", Some rd)]; im_wr_low := [] |}.
Definition g_reg : inner_mem :=
  {| im_operands := ["O"]; im_served := []; im_size := 8; im_rd_low := []; im_wr_low := [("O", Some 8%Z)] |}.
Definition g_oa : dict string Z := [("D1", 4); ("D2", 4)]%Z.

(** K (relevant, 2 bits each) is cut from 4 to 3 by 7 bits per cycle, C is not. *)
Example C20_met :
  mems_complete g_layer [g_mem 64 7; g_reg] (keys g_oa) /\
  get_max_unrolling g_layer [g_mem 64 7; g_reg] g_oa =
    Ok [("D1", [("K", 3); ("C", 4)]%Z); ("D2", [("K", 3); ("C", 4)]%Z)] /\
  fed g_layer [g_mem 64 7; g_reg] "D1" "K" 2 7.
Proof.
  split; [|split; [reflexivity|]].
  - intros mem [<-|[<-|[]]]; (split; [repeat constructor; cbn; intuition discriminate|]); (split; [cbn; tauto|]).
    + intros mop [<-|[]]. exists "W", 2%Z, ["C"], 7%Z. split; [constructor; [now left|reflexivity..]|]. right. now split.
    + intros mop [<-|[]]. exists "O", 4%Z, ["C"], 8%Z. split; [constructor; [now left|reflexivity..]|]. left. now split.
  - exists (g_mem 64 7), "I2", "W", ["C"]. split; [now left|]. split; [constructor; [now left|reflexivity..]|].
    split; [right; now split|]. split; [now left|]. split; [cbn; intuition discriminate|reflexivity].
Qed.

(** * C19 *)

(** C19.  Where it holds: limiting succeeds, only lowers unrollings (to whole numbers of at
    least 1), changes nothing that fits, does not touch dimensions irrelevant to all
    operands of the memories serving the array dimension, and makes operand [mop] of
    memory [mem] fit if, when its turn comes, the unrollings above 1 asked of it are
    pairwise different.  Missing: equal unrollings, refuted below. *)
Theorem C19_capacity_partial :
  forall layer dim_order, orders dim_order -> forall mems sm,
  mems_complete layer mems (keys sm) -> holds_one layer mems -> dicts sm -> sm_whole sm ->
  exists sm', limit_capacity layer dim_order mems sm = Ok sm' /\ lowered sm sm' /\
    ((forall mem mop lop prec ir, In mem mems -> used_by layer mem mop lop prec ir ->
        (qprod (asked (im_served mem) ir sm) * inject_Z prec <= inject_Z (im_size mem))%Q) -> sm' = sm) /\
    (forall o d u, unrolled sm o d u ->
      (forall mem mop lop prec ir, In mem mems -> used_by layer mem mop lop prec ir -> In o (im_served mem) -> In d ir) ->
      unrolled sm' o d u) /\
    (forall ms1 mem ms2 ops1 mop ops2 lop prec ir sm1,
      mems = (ms1 ++ mem :: ms2)%list -> im_operands mem = (ops1 ++ mop :: ops2)%list ->
      used_by layer mem mop lop prec ir -> (0 < prec)%Z ->
      limit_capacity layer dim_order (ms1 ++ [with_operands mem ops1])%list sm = Ok sm1 ->
      distinct_factors (asked (im_served mem) ir sm1) ->
      (qprod (asked (im_served mem) ir sm') * inject_Z prec <= inject_Z (im_size mem))%Q).
Proof. exact limit_capacity_ok. Qed.
Print Assumptions C19_capacity_partial.

(** C19.  In particular an operand fits whatever the other memories do, if at most one
    unrolling above 1 is asked of its memory. *)
Theorem C19_one_unrolling_partial :
  forall layer dim_order, orders dim_order -> forall mems sm sm' mem mop lop prec ir,
  mems_complete layer mems (keys sm) -> holds_one layer mems -> dicts sm -> sm_whole sm ->
  limit_capacity layer dim_order mems sm = Ok sm' ->
  In mem mems -> used_by layer mem mop lop prec ir -> (0 < prec)%Z ->
  ForallOrdPairs (fun a b => (a == 1)%Q \/ (b == 1)%Q) (asked (im_served mem) ir sm) ->
  (qprod (asked (im_served mem) ir sm') * inject_Z prec <= inject_Z (im_size mem))%Q.
Proof. exact limit_capacity_one. Qed.
Print Assumptions C19_one_unrolling_partial.

Ltac solve_dicts := split; [repeat constructor; cbn; intuition discriminate|
  clear; intros o m H; cbn in H; repeat (destruct H as [[= <- <-]|H]; [repeat constructor; cbn; intuition discriminate|]); destruct H].
Ltac solve_whole := clear; intros o m d u H Hd; cbn in H;
  repeat (destruct H as [[= <- <-]|H]; [cbn in Hd; repeat (destruct Hd as [[= <- <-]|Hd]; [match goal with |- exists k, _ /\ (?q == _)%Q => exists (Qnum q) end; split; [discriminate|reflexivity]|]); destruct Hd|]); destruct H.

(** Different unrollings 4 and 3 of 2 bits in 18 bits are lowered to 3 and 3. *)
Definition g_sm : dict string (dict string Q) := [("D1", [("K", 4%Q)]); ("D2", [("K", 3%Q); ("C", 4%Q)])].
Example C19_met :
  mems_complete g_layer [g_mem 18 8; g_reg] (keys g_sm) /\ holds_one g_layer [g_mem 18 8; g_reg] /\ dicts g_sm /\ sm_whole g_sm /\
  used_by g_layer (g_mem 18 8) "I2" "W" 2 ["C"] /\
  limit_capacity g_layer (@rev string) ([] ++ [with_operands (g_mem 18 8) []]) g_sm = Ok g_sm /\
  distinct_factors (asked (im_served (g_mem 18 8)) ["C"] g_sm) /\
  limit_capacity g_layer (@rev string) [g_mem 18 8; g_reg] g_sm =
    Ok [("D1", [("K", 3%Q)]); ("D2", [("K", 3%Q); ("C", 4%Q)])].
Proof.
  split; [|split; [|split; [solve_dicts|split; [solve_whole|split; [constructor; [now left|reflexivity..]|split; [reflexivity|split; [|reflexivity]]]]]]].
  - intros mem [<-|[<-|[]]]; (split; [repeat constructor; cbn; intuition discriminate|]); (split; [cbn; tauto|]).
    + intros mop [<-|[]]. exists "W", 2%Z, ["C"], 8%Z. split; [constructor; [now left|reflexivity..]|]. right. now split.
    + intros mop [<-|[]]. exists "O", 4%Z, ["C"], 8%Z. split; [constructor; [now left|reflexivity..]|]. left. now split.
  - intros mem mop lop prec ir [<-|[<-|[]]] [U1 U2 U3 U4]; destruct U1 as [<-|[]]; injection U2 as <-; injection U3 as <-; discriminate.
  - unfold distinct_factors. change (asked (im_served (g_mem 18 8)) ["C"] g_sm) with [4%Q; 3%Q].
    constructor; [constructor; [intros H; discriminate H|constructor]|]. constructor; [constructor|constructor].
Qed.

(** C19.  The full statement is false: two equal unrollings 4 and 4 in room for 8 are both
    lowered to 3, because the table of lowered unrollings is indexed by the old
    unrolling. *)
Theorem C19_capacity_refuted :
  ~ (forall layer dim_order, orders dim_order -> forall mems sm sm' mem mop lop prec ir,
     mems_complete layer mems (keys sm) -> holds_one layer mems -> dicts sm -> sm_whole sm ->
     limit_capacity layer dim_order mems sm = Ok sm' ->
     In mem mems -> used_by layer mem mop lop prec ir -> (0 < prec)%Z ->
     (qprod (asked (im_served mem) ir sm') * inject_Z prec <= inject_Z (im_size mem))%Q).
Proof.
  intros Hyp. assert (K := Hyp g_layer (fun l => l) (fun l => Permutation_refl l) [g_mem 16 8]
    [("D1", [("K", 4%Q)]); ("D2", [("K", 4%Q)])] [("D1", [("K", 3%Q)]); ("D2", [("K", 3%Q)])] (g_mem 16 8) "I2" "W" 2%Z ["C"]).
  assert (C : (18 <= 16)%Q); [|apply C; reflexivity]. refine (K _ _ _ _ _ _ _ _).
  - intros mem [<-|[]]. split; [repeat constructor; cbn; intuition discriminate|]. split; [cbn; tauto|].
    intros mop [<-|[]]. exists "W", 2%Z, ["C"], 8%Z. split; [constructor; [now left|reflexivity..]|]. right. now split.
  - intros mem mop lop prec ir [<-|[]] [U1 U2 U3 U4]; destruct U1 as [<-|[]]; injection U2 as <-; injection U3 as <-; discriminate.
  - solve_dicts.
  - solve_whole.
  - reflexivity.
  - now left.
  - constructor; [now left|reflexivity..].
  - reflexivity.
Qed.
Print Assumptions C19_capacity_refuted.

(** * C55, C56 *)

(** C55.  On well-formed inputs generation succeeds whatever set orders Python uses: between
    one and [nb] mappings, each unrolling whole numbers on exactly the dimensions of the
    array and fitting array, layer and maximal unrollings. *)
Theorem C55_generated_mappings_valid :
  forall order1 order2 dim_order pick_dim pick_oa,
  orders order1 -> orders order2 -> orders dim_order -> picks_dim pick_dim -> picks_oa pick_oa ->
  forall layer mems oa_sizes mix nb hints provided,
  gen_inputs layer mems oa_sizes hints provided -> (1 <= nb)%nat ->
  exists zmax sms, get_max_unrolling layer mems oa_sizes = Ok zmax /\
    generate order1 order2 dim_order pick_dim pick_oa layer mems oa_sizes mix nb hints provided = Ok sms /\
    (1 <= length sms <= nb)%nat /\
    (forall sm, In sm sms -> dicts sm /\ sm_whole sm /\ (forall o, In o (keys sm) <-> In o (keys oa_sizes)) /\
       mapping_fits (qsizes oa_sizes) (qmaxs zmax) (qsizes (gl_sizes layer)) sm).
Proof. exact generate_valid. Qed.
Print Assumptions C55_generated_mappings_valid.

(** C55.  The hints the stage completes meet the requirement on hints: hints without a
    dimension of the layer are replaced by all its dimensions, the others are kept. *)
Theorem C55_hints :
  forall oas dims hints, NoDup dims -> dims <> [] -> (forall o h, In (o, h) hints -> NoDup h) ->
  forall o, In o oas ->
  exists h, dget o (complete_hints oas dims (clear_invalid_hints dims hints)) = Some h /\ NoDup h /\
    (exists d, In d h /\ In d dims) /\
    (forall h', dget o (clear_invalid_hints dims hints) = Some h' -> h = h').
Proof. exact hints_ok. Qed.
Print Assumptions C55_hints.

(** C56.  Let [all] be the valid completions of the reduced user mapping, best indicator
    first.  There is at least one, and asking for [nb] mappings gives the first [nb],
    lowered where the memory capacity requires it, or exactly them if nothing exceeds
    the capacity. *)
Theorem C56_best_completions :
  forall order1 order2 dim_order pick_dim pick_oa,
  orders order1 -> orders order2 -> orders dim_order -> picks_dim pick_dim -> picks_oa pick_oa ->
  forall layer mems oa_sizes mix hints provided,
  gen_inputs layer mems oa_sizes hints provided ->
  exists zmax t all,
    get_max_unrolling layer mems oa_sizes = Ok zmax /\
    check_and_reduce order1 order2 pick_dim pick_oa (qsizes oa_sizes) (qmaxs zmax) (qsizes (gl_sizes layer)) provided = Ok t /\
    all <> [] /\
    (forall c, In c all <-> completes mix hints zmax oa_sizes t c /\
       mapping_fits (qsizes oa_sizes) (qmaxs zmax) (qsizes (gl_sizes layer)) c) /\
    StronglySorted ranks_before all /\
    forall nb, (1 <= nb)%nat -> exists sms,
      generate order1 order2 dim_order pick_dim pick_oa layer mems oa_sizes mix nb hints provided = Ok sms /\
      Forall2 (fate dim_order layer mems) (firstn nb all) sms /\
      (forall sm, In sm sms -> dicts sm /\ sm_whole sm /\ (forall o, In o (keys sm) <-> In o (keys oa_sizes)) /\
         mapping_fits (qsizes oa_sizes) (qmaxs zmax) (qsizes (gl_sizes layer)) sm) /\
      ((forall c, In c (firstn nb all) -> fits_capacity layer mems c) -> sms = firstn nb all).
Proof. exact generate_ok. Qed.
Print Assumptions C56_best_completions.

Definition g_hints : dict string (list string) := [("D1", ["K"; "C"]); ("D2", ["K"; "C"])].
Definition g_run (mix : bool) (nb : nat) (size : Z) (provided : dict string (dict string Q)) :=
  generate (@rev string) (@rev string) (@rev string) first_dim first_oa g_layer [g_mem size 8; g_reg] g_oa mix nb g_hints provided.

Lemma g_picks : orders (@rev string) /\ picks_dim first_dim /\ picks_oa first_oa.
Proof. destruct C16_met as (_ & H1 & H2 & H3 & _). now split. Qed.
Lemma g_inputs size provided : (2 <= size)%Z -> dicts provided -> sm_whole provided -> (forall o, In o (keys provided) -> In o (keys g_oa)) ->
  gen_inputs g_layer [g_mem size 8; g_reg] g_oa g_hints provided.
Proof.
  intros Hs Hd Hw Hk. split; try assumption.
  - repeat constructor; cbn; intuition discriminate.
  - intros o s H. apply dget_In in H. cbn in H. repeat (destruct H as [[= <- <-]|H]; [discriminate|]). destruct H.
  - repeat constructor; cbn; intuition discriminate.
  - intros o s H. apply dget_In in H. cbn in H. repeat (destruct H as [[= <- <-]|H]; [discriminate|]). destruct H.
  - intros mem [<-|[<-|[]]]; (split; [repeat constructor; cbn; intuition discriminate|]); (split; [cbn; tauto|]).
    + intros mop [<-|[]]. exists "W", 2%Z, ["C"], 8%Z. split; [constructor; [now left|reflexivity..]|]. right. now split.
    + intros mop [<-|[]]. exists "O", 4%Z, ["C"], 8%Z. split; [constructor; [now left|reflexivity..]|]. left. now split.
  - intros mem mop lop prec ir [<-|[<-|[]]] [U1 U2 U3 U4]; destruct U1 as [<-|[]]; injection U2 as <-; injection U3 as <-; [exact Hs|discriminate].
  - intros mem mop lop prec ir bw [<-|[<-|[]]] [U1 U2 U3 U4] [[A B]|[A B]]; destruct U1 as [<-|[]]; injection U2 as <-; injection U3 as <-;
      try discriminate A; try (now contradiction A); injection B as <-; discriminate.
  - intros o [<-|[<-|[]]]; exists ["K"; "C"]; (split; [reflexivity|]); (split; [repeat constructor; cbn; intuition discriminate|]); exists "K"; cbn; tauto.
Qed.

(** Three mappings on a 4 x 4 array, mixing on; the user asks for an unrolling too large. *)
Example C55_met :
  gen_inputs g_layer [g_mem 64 8; g_reg] g_oa g_hints [("D2", [("C", 6%Q)])] /\
  g_run true 3 64 [] = Ok [[("D1", [("K", 4%Q)]); ("D2", [("C", 4%Q)])];
                           [("D1", [("C", 4%Q)]); ("D2", [("K", 4%Q)])];
                           [("D1", [("K", 2%Q); ("C", 2%Q)]); ("D2", [("K", 2%Q); ("C", 2%Q)])]] /\
  g_run true 3 64 [("D2", [("C", 6%Q)])] =
    Ok [[("D2", [("C", 4%Q)]); ("D1", [("K", 4%Q)])]; [("D2", [("C", 4%Q)]); ("D1", [("K", 2%Q)])]; [("D2", [("C", 4%Q)]); ("D1", [("K", 1%Q)])]].
Proof.
  split; [|split; vm_compute; reflexivity].
  apply g_inputs; [discriminate|solve_dicts|solve_whole|cbn; tauto].
Qed.

(** * C57 *)

(** C57.  Where it holds: if no valid completion exceeds the memory capacity, the mappings
    found when asking for [nb] are the first [nb] of those found when asking for more.
    Missing: completions exceeding the capacity, refuted below. *)
Theorem C57_prefix_partial :
  forall order1 order2 dim_order pick_dim pick_oa,
  orders order1 -> orders order2 -> orders dim_order -> picks_dim pick_dim -> picks_oa pick_oa ->
  forall layer mems oa_sizes mix nb nb' hints provided,
  gen_inputs layer mems oa_sizes hints provided -> (1 <= nb <= nb')%nat ->
  (forall zmax t c, get_max_unrolling layer mems oa_sizes = Ok zmax ->
     check_and_reduce order1 order2 pick_dim pick_oa (qsizes oa_sizes) (qmaxs zmax) (qsizes (gl_sizes layer)) provided = Ok t ->
     completes mix hints zmax oa_sizes t c -> mapping_fits (qsizes oa_sizes) (qmaxs zmax) (qsizes (gl_sizes layer)) c ->
     fits_capacity layer mems c) ->
  exists sms sms',
    generate order1 order2 dim_order pick_dim pick_oa layer mems oa_sizes mix nb hints provided = Ok sms /\
    generate order1 order2 dim_order pick_dim pick_oa layer mems oa_sizes mix nb' hints provided = Ok sms' /\
    sms = firstn nb sms'.
Proof. exact generate_prefix. Qed.
Print Assumptions C57_prefix_partial.

(** C57.  The full statement is false: candidates share the mapping of an array dimension,
    so limiting the third mapping lowers the first two, which fit. *)
Theorem C57_prefix_refuted :
  ~ (forall order1 order2 dim_order pick_dim pick_oa,
     orders order1 -> orders order2 -> orders dim_order -> picks_dim pick_dim -> picks_oa pick_oa ->
     forall layer mems oa_sizes mix nb nb' hints provided sms sms',
     gen_inputs layer mems oa_sizes hints provided -> (1 <= nb <= nb')%nat ->
     generate order1 order2 dim_order pick_dim pick_oa layer mems oa_sizes mix nb hints provided = Ok sms ->
     generate order1 order2 dim_order pick_dim pick_oa layer mems oa_sizes mix nb' hints provided = Ok sms' ->
     sms = firstn nb sms').
Proof.
  intros Hyp. destruct g_picks as (P1 & P2 & P3).
  assert (K := Hyp _ _ _ _ _ P1 P1 P1 P2 P3 g_layer [g_mem 16 8; g_reg] g_oa false 1%nat 3%nat g_hints []
    [[("D1", [("K", 4%Q)]); ("D2", [("C", 4%Q)])]]
    [[("D1", [("K", 3%Q)]); ("D2", [("C", 4%Q)])]; [("D1", [("C", 4%Q)]); ("D2", [("K", 3%Q)])]; [("D1", [("K", 3%Q)]); ("D2", [("K", 3%Q)])]]).
  assert (C : [[("D1", [("K", 4%Q)]); ("D2", [("C", 4%Q)])]] = [[("D1", [("K", 3%Q)]); ("D2", [("C", 4%Q)])]]); [|discriminate C].
  apply K; [|lia|vm_compute; reflexivity|vm_compute; reflexivity].
  apply g_inputs; [discriminate|solve_dicts|solve_whole|intros o []].
Qed.
Print Assumptions C57_prefix_refuted.

(** With room for everything asking for two only extends the answer. *)
Example C57_met :
  g_run false 1 64 [] = Ok [[("D1", [("K", 4%Q)]); ("D2", [("C", 4%Q)])]] /\
  g_run false 2 64 [] = Ok [[("D1", [("K", 4%Q)]); ("D2", [("C", 4%Q)])]; [("D1", [("C", 4%Q)]); ("D2", [("K", 4%Q)])]].
Proof. split; vm_compute; reflexivity. Qed.
