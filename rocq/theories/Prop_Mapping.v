(** C21-C23, C58-C60: the complete mapping of a layer (mapping/mapping.py), that is the
    partial-sum flags, the data sizes and the traffic of every unit memory. *)
From Coq Require Import QArith.
From Verif Require Import Base Model_Alloc Model_SpatialInt Model_DataMove Model_Mapping Spec_Alloc Spec_Decouple
  Spec_SpatialInt Spec_Mapping Proof_MappingMain Proof_MappingExample.
Local Open Scope string_scope.
Local Open Scope Z_scope.

(** * C60 *)

(** C60.  Every mapping whose operands have one more spatial than memory level, with whole or
    fractional loop sizes of at least one, is built: no missing key, index or division by
    zero, one unit memory per memory level of each operand. *)
Theorem C60_total :
  forall ly r_dims ir_dims pr_ops inputs out macs size_out total free read_bw ois,
  good_mapping ly r_dims ir_dims pr_ops inputs out total ois ->
  exists flags res,
    build_mapping ly r_dims ir_dims pr_ops inputs out macs size_out total free read_bw ois = Ok (flags, res) /\
    keys res = keys ois /\
    forall op oi, In (op, oi) ois -> exists od ps, dget op res = Some (od, ps) /\ length ps = length (oi_temporal oi).
Proof. exact mapping_total. Qed.
Print Assumptions C60_total.

(** * C21 *)

(** C21.  What is stored above level [i] is a partial sum exactly when a loop of more than one
    iteration outside that level reduces the output. *)
Theorem C21_flags :
  forall ly r_dims ir_dims pr_ops inputs out macs size_out total free read_bw ois,
  good_mapping ly r_dims ir_dims pr_ops inputs out total ois ->
  forall flags res,
  build_mapping ly r_dims ir_dims pr_ops inputs out macs size_out total free read_bw ois = Ok (flags, res) ->
  ~ In out pr_ops -> forall oi ir, In (out, oi) ois -> dget out ir_dims = Some ir ->
    length flags = S (length (oi_temporal oi)) /\
    forall i f, nth_error flags i = Some f -> (f = true <-> reduces_above ir (oi_spatial oi) (oi_temporal oi) i (S i)).
Proof. exact flags_sound. Qed.
Print Assumptions C21_flags.

(** C21.  Once final it stays final further out, and the outermost level is final. *)
Theorem C21_monotone :
  forall ly r_dims ir_dims pr_ops inputs out macs size_out total free read_bw ois,
  good_mapping ly r_dims ir_dims pr_ops inputs out total ois ->
  forall flags res,
  build_mapping ly r_dims ir_dims pr_ops inputs out macs size_out total free read_bw ois = Ok (flags, res) ->
  ~ In out pr_ops -> forall oi, In (out, oi) ois ->
    (forall i, nth_error flags (S i) = Some true -> nth_error flags i = Some true) /\
    nth_error flags (length (oi_temporal oi)) = Some false.
Proof. exact flags_monotone. Qed.
Print Assumptions C21_monotone.

(** C21.  Partial sums have the operand's full precision, final outputs the final precision. *)
Theorem C21_precision :
  forall ly r_dims ir_dims pr_ops inputs out macs size_out total free read_bw ois,
  good_mapping ly r_dims ir_dims pr_ops inputs out total ois ->
  forall flags res,
  build_mapping ly r_dims ir_dims pr_ops inputs out macs size_out total free read_bw ois = Ok (flags, res) ->
  forall oi od ps,
  In (out, oi) ois -> dget out res = Some (od, ps) ->
    length (od_precision od) = S (length (oi_temporal oi)) /\
    forall i q f, nth_error (od_precision od) i = Some q -> nth_error flags i = Some f ->
      if f : bool then dget out (l_precision ly) = Some q else q = l_final_precision ly.
Proof. exact precision_follows. Qed.
Print Assumptions C21_precision.

(** C21.  Outputs are read back exactly where they are partial sums, in full precision. *)
Theorem C21_traffic :
  forall ly r_dims ir_dims pr_ops inputs out macs size_out total free read_bw ois,
  good_mapping ly r_dims ir_dims pr_ops inputs out total ois ->
  forall flags res,
  build_mapping ly r_dims ir_dims pr_ops inputs out macs size_out total free read_bw ois = Ok (flags, res) ->
  forall oi od ps ir full,
  ~ In out pr_ops -> (1 <= size_out)%Z -> In (out, oi) ois -> dget out res = Some (od, ps) ->
    dget out ir_dims = Some ir -> dget out (l_precision ly) = Some full ->
    whole_sizes (whole_nest (oi_spatial oi) (oi_temporal oi)) ->
    forall i p f, nth_error ps i = Some p -> nth_error flags i = Some f ->
      (exists n, entry p MoveCount RdLow = Some n /\ (f = true <-> n <> 0%Z)) /\
      entry p Precision RdLow = Some (if f then full else 0%Z) /\
      entry p Precision WrLow = Some (if f then full else l_final_precision ly).
Proof. exact partial_sums_traffic. Qed.
Print Assumptions C21_traffic.

(** * C22 *)

(** C22.  No attribute of the outermost memory shows traffic with a higher level. *)
Theorem C22_external :
  forall ly r_dims ir_dims pr_ops inputs out macs size_out total free read_bw ois,
  good_mapping ly r_dims ir_dims pr_ops inputs out total ois ->
  forall flags res,
  build_mapping ly r_dims ir_dims pr_ops inputs out macs size_out total free read_bw ois = Ok (flags, res) ->
  forall op oi od ps,
  In (op, oi) ois -> dget op res = Some (od, ps) ->
    exists p, nth_error ps (pred (length (oi_temporal oi))) = Some p /\
      forall a, entry p a RdHigh = Some 0%Z /\ entry p a WrHigh = Some 0%Z.
Proof. exact external_off. Qed.
Print Assumptions C22_external.

(** C22.  Switching that traffic off touches nothing else. *)
Theorem C22_frame :
  forall ps ps', disable_external ps = Ok ps' ->
  length ps' = length ps /\
  forall i p p', nth_error ps i = Some p -> nth_error ps' i = Some p' ->
    (S i <> length ps -> p' = p) /\ forall a, entry p' a RdLow = entry p a RdLow /\ entry p' a WrLow = entry p a WrLow.
Proof. exact external_frame. Qed.
Print Assumptions C22_frame.

(** * C23 *)

(** C23.  Inputs: the tile of the loops below is read towards the array once for every time these
    loops run, and that of the loops of the memory itself is filled once for every time they do.
    When access at the same data is free, the innermost reads shrink by the stationary cycles. *)
Theorem C23_inputs :
  forall ly r_dims ir_dims pr_ops inputs out macs size_out total free read_bw ois,
  good_mapping ly r_dims ir_dims pr_ops inputs out total ois ->
  forall flags res,
  build_mapping ly r_dims ir_dims pr_ops inputs out macs size_out total free read_bw ois = Ok (flags, res) ->
  forall op oi od ps,
  In (op, oi) ois -> In op inputs -> dget op res = Some (od, ps) ->
    forall i p, nth_error ps i = Some p -> exists n rd_low wr_high,
      moves ly op macs (within (oi_spatial oi) (oi_temporal oi) i (S i)) n /\
      (rd_low = n \/ (free = true /\ i = 0%nat /\ (0 <= n -> rd_low = n / oi_mac_stationary oi)))%Z /\
      moves ly op macs (within (oi_spatial oi) (oi_temporal oi) (S i) (S i)) wr_high /\
      row p MoveCount rd_low 0 0 (below_top i (length (oi_temporal oi)) wr_high).
Proof. exact input_counts. Qed.
Print Assumptions C23_inputs.

(** C23.  Outputs: likewise written, and read back once per reduction iteration outside but the first. *)
Theorem C23_outputs :
  forall ly r_dims ir_dims pr_ops inputs out macs size_out total free read_bw ois,
  good_mapping ly r_dims ir_dims pr_ops inputs out total ois ->
  forall flags res,
  build_mapping ly r_dims ir_dims pr_ops inputs out macs size_out total free read_bw ois = Ok (flags, res) ->
  forall oi od ps ir,
  ~ In out pr_ops -> (0 <= size_out)%Z -> In (out, oi) ois -> dget out res = Some (od, ps) -> dget out ir_dims = Some ir ->
    forall i p, nth_error ps i = Some p -> exists wr_low rd_high,
      moves ly out macs (within (oi_spatial oi) (oi_temporal oi) i (S i)) wr_low /\
      moves ly out macs (within (oi_spatial oi) (oi_temporal oi) (S i) (S i)) rd_high /\
      row p MoveCount
        (Qfloor (inject_Z size_out * (reuse ir (outside (oi_spatial oi) (oi_temporal oi) i (S i)) - 1)))
        wr_low
        (below_top i (length (oi_temporal oi)) rd_high)
        (below_top i (length (oi_temporal oi))
           (Qfloor (inject_Z size_out * (reuse ir (outside (oi_spatial oi) (oi_temporal oi) (S i) (S (S i))) - 1)))).
Proof. exact output_counts. Qed.
Print Assumptions C23_outputs.

(** C23.  Inputs without derived dimensions: accesses times the reuse inside are the MACs, so they
    never increase outwards; fills of a memory and reads of the next differ by the broadcast between. *)
Theorem C23_reuse :
  forall ly r_dims ir_dims pr_ops inputs out macs size_out total free read_bw ois,
  good_mapping ly r_dims ir_dims pr_ops inputs out total ois ->
  forall flags res,
  build_mapping ly r_dims ir_dims pr_ops inputs out macs size_out total free read_bw ois = Ok (flags, res) ->
  forall op oi od ps ir,
  free = false -> (0 <= macs)%Z -> ~ In op pr_ops -> exact_nest oi macs -> dget op ir_dims = Some ir ->
    In (op, oi) ois -> In op inputs -> dget op res = Some (od, ps) ->
    (forall i p, nth_error ps i = Some p -> exists rd_low wr_high,
       row p MoveCount rd_low 0 0 (below_top i (length (oi_temporal oi)) wr_high) /\
       inject_Z rd_low * reuse ir (within (oi_spatial oi) (oi_temporal oi) i (S i)) == inject_Z macs /\
       inject_Z wr_high * reuse ir (within (oi_spatial oi) (oi_temporal oi) (S i) (S i)) == inject_Z macs /\
       (0 <= rd_low <= macs)%Z) /\
    (forall i p p' a b a', nth_error ps i = Some p -> nth_error ps (S i) = Some p' ->
       entry p MoveCount RdLow = Some a -> entry p MoveCount WrHigh = Some b -> entry p' MoveCount RdLow = Some a' ->
       (a' <= b <= a)%Z /\
       exists l, nth_error (oi_spatial oi) (S i) = Some l /\ inject_Z b == inject_Z a' * reuse ir l).
Proof. exact input_reuse. Qed.
Print Assumptions C23_reuse.

(** C23.  Outputs: what is written minus what is read back is the final output, at every memory; what
    one memory gets back is what the next one sends. *)
Theorem C23_balance :
  forall ly r_dims ir_dims pr_ops inputs out macs size_out total free read_bw ois,
  good_mapping ly r_dims ir_dims pr_ops inputs out total ois ->
  forall flags res,
  build_mapping ly r_dims ir_dims pr_ops inputs out macs size_out total free read_bw ois = Ok (flags, res) ->
  forall oi od ps ir,
  ~ In out pr_ops -> (0 <= size_out)%Z -> exact_nest oi macs -> In (out, oi) ois -> dget out res = Some (od, ps) ->
    dget out ir_dims = Some ir ->
    inject_Z size_out == tile_elements ly out (whole_nest (oi_spatial oi) (oi_temporal oi)) ->
    forall i p, nth_error ps i = Some p ->
      (exists r w, entry p MoveCount RdLow = Some r /\ entry p MoveCount WrLow = Some w /\ (w - r = size_out)%Z /\ (0 <= r)%Z) /\
      (forall p' r w r' w', nth_error ps (S i) = Some p' -> entry p MoveCount RdHigh = Some r -> entry p MoveCount WrHigh = Some w ->
         entry p' MoveCount RdLow = Some r' -> entry p' MoveCount WrLow = Some w' -> (w = r' /\ w' <= r)%Z).
Proof. exact output_balance. Qed.
Print Assumptions C23_balance.

(** * C58 *)

(** C58.  Period, number of periods, amount per period, bandwidths and window fit the accesses. *)
Theorem C58_inputs :
  forall ly r_dims ir_dims pr_ops inputs out macs size_out total free read_bw ois,
  good_mapping ly r_dims ir_dims pr_ops inputs out total ois ->
  forall flags res,
  build_mapping ly r_dims ir_dims pr_ops inputs out macs size_out total free read_bw ois = Ok (flags, res) ->
  forall op oi od ps prec,
  In (op, oi) ois -> In op inputs -> dget op res = Some (od, ps) -> exact_nest oi macs ->
    dget op (l_precision ly) = Some prec -> (0 <= prec)%Z ->
    forall i p units cur next, nth_error ps i = Some p -> nth_error (unit_count (oi_counts oi)) (S i) = Some units ->
      nth_error (oi_top_ir oi) i = Some cur -> nth_error (oi_top_ir oi) (S i) = Some next ->
      (no_overlap ly pr_ops op (oi_spatial oi) i -> free = false \/ i <> 0%nat -> transfers p RdLow prec total units cur) /\
      (S i <> length (oi_temporal oi) -> transfers p WrHigh prec total units next).
Proof. exact input_transfers. Qed.
Print Assumptions C58_inputs.

(** C58.  The same for outputs, and the read-backs mirror the writes where partial sums are stored. *)
Theorem C58_outputs :
  forall ly r_dims ir_dims pr_ops inputs out macs size_out total free read_bw ois,
  good_mapping ly r_dims ir_dims pr_ops inputs out total ois ->
  forall flags res,
  build_mapping ly r_dims ir_dims pr_ops inputs out macs size_out total free read_bw ois = Ok (flags, res) ->
  forall oi od ps,
  In (out, oi) ois -> dget out res = Some (od, ps) -> exact_nest oi macs ->
    (forall q, In q (od_precision od) -> (0 <= q)%Z) ->
    forall i p units cur next q q' f f', nth_error ps i = Some p -> nth_error (unit_count (oi_counts oi)) (S i) = Some units ->
      nth_error (oi_top_ir oi) i = Some cur -> nth_error (oi_top_ir oi) (S i) = Some next ->
      nth_error (od_precision od) i = Some q -> nth_error (od_precision od) (S i) = Some q' ->
      nth_error flags i = Some f -> nth_error flags (S i) = Some f' ->
      (no_overlap ly pr_ops out (oi_spatial oi) i -> transfers p WrLow q total units cur) /\
      (S i <> length (oi_temporal oi) -> transfers p RdHigh q' total units next) /\
      forall a, In a [BwAver; BwInst; Period; PeriodCount; AmountPerPeriod; TransWindow] ->
        entry p a RdLow = (if f : bool then entry p a WrLow else Some 0%Z) /\
        entry p a WrHigh = (if f' : bool then entry p a RdHigh else Some 0%Z).
Proof. exact output_transfers. Qed.
Print Assumptions C58_outputs.

(** * C59 *)

(** C59.  Data sizes: elements of the tile of one unit memory, of all distinct ones, and in bits; the
    share outside the outermost run of relevant loops. *)
Theorem C59_sizes :
  forall ly r_dims ir_dims pr_ops inputs out macs size_out total free read_bw ois,
  good_mapping ly r_dims ir_dims pr_ops inputs out total ois ->
  forall flags res,
  build_mapping ly r_dims ir_dims pr_ops inputs out macs size_out total free read_bw ois = Ok (flags, res) ->
  forall op oi od ps,
  In (op, oi) ois -> dget op res = Some (od, ps) ->
    forall lv, (lv <= length (oi_temporal oi))%nat -> exists n q u m t,
      nth_error (od_elem_unrolled od) lv = Some n /\ nearest (tile_elements ly op (within (oi_spatial oi) (oi_temporal oi) lv lv)) n /\
      nth_error (od_precision od) lv = Some q /\ nth_error (od_bit_unrolled od) lv = Some (n * q)%Z /\
      nth_error (unit_unique (oi_counts oi)) lv = Some u /\
      nth_error (od_elem od) lv = Some m /\ nearest (inject_Z n * u) m /\ nth_error (od_bit od) lv = Some (m * q)%Z /\
      nth_error (oi_top_r oi) lv = Some t /\
      nth_error (od_effective_elem od) lv = Some (n / t)%Z /\ nth_error (od_effective_bit od) lv = Some (n * q / t)%Z.
Proof. exact data_sizes. Qed.
Print Assumptions C59_sizes.

(** * The hypotheses are met *)

Definition ex_built := build_mapping (ex_layer 1 6) ex_r ex_ir ["I"] ["I"; "W"] "O" 48 8 24 false (fun _ _ => 8) ex_ois.
Definition counts_of_res (r : result (list bool * dict string (opdata * list (dict attr (dict direction Z))))) :=
  match r with
  | Ok (flags, res) => Some (flags, map (fun kv => (fst kv, map (fun p => dget MoveCount p) (snd (snd kv)))) res)
  | Err _ => None
  end.

Example C21_C23_C58_C59_C60_met :
  good_mapping (ex_layer 1 6) ex_r ex_ir ["I"] ["I"; "W"] "O" 24 ex_ois /\
  counts_of_res ex_built = Some ([true; true; false],
    [("I", [Some [(RdLow, 24); (WrLow, 0); (RdHigh, 0); (WrHigh, 12)]; Some [(RdLow, 12); (WrLow, 0); (RdHigh, 0); (WrHigh, 0)]]);
     ("W", [Some [(RdLow, 48); (WrLow, 0); (RdHigh, 0); (WrHigh, 48)]; Some [(RdLow, 48); (WrLow, 0); (RdHigh, 0); (WrHigh, 0)]]);
     ("O", [Some [(RdLow, 40); (WrLow, 48); (RdHigh, 16); (WrHigh, 8)]; Some [(RdLow, 8); (WrLow, 16); (RdHigh, 0); (WrHigh, 0)]])]).
Proof. split; [exact ex_good|vm_compute; reflexivity]. Qed.

Example C23_exact_met : forall op oi, In (op, oi) ex_ois -> exact_nest oi 48.
Proof.
  intros op oi [H|[H|[H|[]]]]; injection H as <- <-; (split; [|reflexivity]);
    intros x Hx; cbn in Hx; repeat (destruct Hx as [<-|Hx]; [eexists; reflexivity|]); destruct Hx.
Qed.

(** The inputs have a derived dimension, and nothing overlaps where output channels are unrolled. *)
Example C58_overlap_met : forall i, no_overlap (ex_layer 1 6) ["I"] "I" [[("K", 2%Q)]; []; []] i.
Proof.
  intros i _ l x p E Hx (da & db & [H|[]] & R). injection H as <- <- <-. apply nth_error_In in E.
  destruct E as [<-|[<-|[<-|[]]]]; [destruct Hx as [<-|[]]; destruct R; discriminate|destruct Hx|destruct Hx].
Qed.

(** * Refutations *)

(** C23.  For an operand with a derived dimension, a tile may hold elements that no MAC
    uses: a kernel of 3 with dilation 2 spans 5, so 5 elements are read for 3 MACs. *)
Theorem C23_reads_within_macs_refuted :
  ~ (forall ly r_dims ir_dims pr_ops inputs out macs size_out total read_bw ois flags res op oi od ps i p n,
     good_mapping ly r_dims ir_dims pr_ops inputs out total ois -> exact_nest oi macs ->
     build_mapping ly r_dims ir_dims pr_ops inputs out macs size_out total false read_bw ois = Ok (flags, res) ->
     In (op, oi) ois -> In op inputs -> dget op res = Some (od, ps) -> nth_error ps i = Some p ->
     entry p MoveCount RdLow = Some n -> n <= macs).
Proof.
  intros H. remember (build_mapping (ex_layer 2 5) ex_r ex_ir ["I"] ["I"; "W"] "O" 3 1 3 false (fun _ _ => 8) dil_ois) as b eqn:E.
  pose proof E as E'. vm_compute in E'. rewrite E' in E. symmetry in E.
  assert (5 <= 3)%Z; [|lia].
  eapply (H _ _ _ _ _ _ _ _ _ _ _ _ _ "I" _ _ _ 1%nat); [exact dil_good| |exact E|now left|now left|reflexivity|reflexivity|reflexivity].
  split; [|reflexivity]. intros x Hx; cbn in Hx; repeat (destruct Hx as [<-|Hx]; [eexists; reflexivity|]); destruct Hx.
Qed.
Print Assumptions C23_reads_within_macs_refuted.

(** C58.  For an operand with a derived dimension, the amount read towards the array per period
    multiplies the tile by the spatial unrolling below, ignoring overlap: 4 outputs side by side
    over a kernel of 3 need 6 inputs, the model takes 12, twice the accesses. *)
Theorem C58_derived_refuted :
  ~ (forall ly r_dims ir_dims pr_ops inputs out macs size_out total read_bw ois flags res op oi od ps prec i p units cur,
     good_mapping ly r_dims ir_dims pr_ops inputs out total ois -> exact_nest oi macs ->
     build_mapping ly r_dims ir_dims pr_ops inputs out macs size_out total false read_bw ois = Ok (flags, res) ->
     In (op, oi) ois -> In op inputs -> dget op res = Some (od, ps) -> dget op (l_precision ly) = Some prec -> 0 <= prec ->
     nth_error ps i = Some p -> nth_error (unit_count (oi_counts oi)) (S i) = Some units ->
     nth_error (oi_top_ir oi) i = Some cur -> transfers p RdLow prec total units cur).
Proof.
  intros H. remember (build_mapping (ex_layer 1 6) ex_r ex_ir ["I"] ["I"; "W"] "O" 24 4 6 false (fun _ _ => 8) row_ois) as b eqn:E.
  pose proof E as E'. vm_compute in E'. rewrite E' in E. symmetry in E.
  assert (T : exists p, transfers p RdLow 8 6 1 1 /\ entry p MoveCount RdLow = Some 12 /\
    entry p PeriodCount RdLow = Some 2 /\ entry p AmountPerPeriod RdLow = Some 12).
  { eexists. split.
    - eapply (H _ _ _ _ _ _ _ _ _ _ _ _ _ "I" _ _ _ 8 1%nat);
        [exact row_good| |exact E|now left|now left|reflexivity|reflexivity|lia|reflexivity|vm_compute; reflexivity|reflexivity].
      split; [intros x Hx; cbn in Hx; repeat (destruct Hx as [<-|Hx]; [eexists; reflexivity|]); destruct Hx|reflexivity].
    - split; [|split]; reflexivity. }
  destruct T as (p & (m & bw & bi & t & n & a & w & H1 & H2 & H3 & H4 & H5 & H6 & H7 & H8) & K1 & K2 & K3).
  rewrite H1 in K1. rewrite H5 in K2. rewrite H6 in K3. injection K1 as ->. injection K2 as ->. injection K3 as ->. lia.
Qed.
Print Assumptions C58_derived_refuted.
