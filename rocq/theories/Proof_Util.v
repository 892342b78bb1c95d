(** C81: the utilisation of memories that an evaluation reports. *)
From Coq Require Import QArith Qround Lia Lqa.
From Verif Require Import Base Model_Alloc Model_Temporal Model_SpatialInt Model_DataMove Model_Mapping Model_Links Model_Cost Model_Latency Model_Hierarchy Model_Graph Model_Evaluate Model_Search
  Spec_Alloc Spec_Decouple Spec_SpatialInt Spec_Temporal Spec_DataMove Spec_Mapping Spec_Cost Spec_Latency Spec_Hierarchy Spec_Evaluate Spec_EvalEnergy Spec_EvalTime Spec_Graph Spec_Loma Spec_Search Spec_Util
  Proof_AllocSearch Proof_Bandwidth Proof_Energy Proof_Links Proof_Hierarchy Proof_Ports Proof_Mapping Proof_Buffer Proof_BufferBits
  Proof_EvalTotal Proof_EvalMapping Proof_EvalBuild Proof_EvalHardware Proof_EvalPrepare Proof_EvalTiles Proof_EvalEnergy Proof_EvalTime Proof_AllocTile Proof_AllocRun Proof_Search.
Local Open Scope list_scope.

Section Util.
  Variables (rq : request) (fuel pc : nat) (ms : list memspec).
  Hypothesis V : valid_request rq.
  Hypothesis SH : sound_hardware rq pc ms.
  Hypothesis HF : (passes_bound (rq_temporal rq) <= fuel)%nat.
  Hypothesis HW : whole_request rq.
  Hypothesis HS : (1 <= rq_size_out rq)%Z.
  Let h := rq_hierarchy rq.
  Let E : build pc ms = Ok h := sh_built rq pc ms SH.
  Variables (ci : inputs) (st : dict string tmlevels) (mac : dict string Z) (counts : dict string opcounts).
  Hypothesis P : parts rq ci st mac counts.
  Hypothesis C : complete_inputs ci.

  (** What the memories of an operand keep *)
  Definition util_kept (op : string) (lv : nat) : Z := match dget op (in_map ci) with Some (od, _) => nth (S lv) (od_bit_unrolled od) 0%Z | None => 0%Z end.
  Lemma kept_row op : In op (rq_ops rq) -> exists od ps, dget op (in_map ci) = Some (od, ps) /\ length ps = length (time_loops st op) /\
    length ps = length (holders h (stored_as rq op)) /\
    (exists given, dget op (rq_temporal rq) = Some given /\ merged_down (reuse_dims (rq_ir rq) op) given (time_loops st op)) /\
    forall lv, (lv < length ps)%nat ->
      nth_error (od_bit_unrolled od) (S lv) = Some (util_kept op lv) /\ (0 <= util_kept op lv)%Z /\ kept_bits rq op (unrolling (rq_spatial rq) op) (time_loops st op) lv (util_kept op lv) /\
      nth_error (od_effective_bit od) (S lv) = Some (time_live ci op lv) /\ (0 <= time_live ci op lv <= util_kept op lv)%Z /\
      live_bits rq op (unrolling (rq_spatial rq) op) (time_loops st op) lv (time_live ci op lv).
  Proof.
    intros Io. assert (Hl := op_linked rq V op Io). destruct (pa_timed _ _ _ _ _ P) as (cabl & total & ord & counts' & TI & MP & WR & _ & _ & Et).
    destruct (mapped_tiles rq fuel V HF HS _ _ _ _ _ _ _ _ op _ TI MP WR (HW op) Hl) as (su0 & tm & tm' & od & ps & A1 & A2 & A3 & A3' & A4 & A5 & A6 & A7 & A8 & A9 & c & Ec & B1 & _ & B3).
    assert (Etm : time_loops st op = tm') by (unfold time_loops; now rewrite A3'). assert (Esu : unrolling (rq_spatial rq) op = su0) by (unfold unrolling; now rewrite A1). rewrite Etm, Esu.
    exists od, ps. split; [exact A4|]. split; [exact A5|]. split; [exact A6|]. split; [now exists tm|]. intros lv Lt. destruct (nth_lt ps lv Lt) as (p & Ep). destruct (nth_lt (unit_count c) (S lv)) as (u & Eu); [lia|].
    destruct (proj2 (B3 lv p u RdHigh Ep Eu)) as (b & Hb & e & o & K1 & K2 & K3 & K4 & K5 & K6).
    assert (Q1 : util_kept op lv = (e * b)%Z) by (unfold util_kept; rewrite A4; now apply nth_error_nth). assert (Q2 : time_live ci op lv = (e * b / o)%Z) by (unfold time_live; rewrite A4; now apply nth_error_nth).
    assert (Q3 : (0 <= e * b)%Z) by (apply A9; now apply nth_error_In in K3). rewrite Q1, Q2. assert (Kb : kept_bits rq op su0 tm' lv (e * b)) by (now exists b, e).
    split; [exact K3|]. split; [exact Q3|]. split; [exact Kb|]. split; [exact K6|]. split; [split; [apply Z.div_pos; lia|]|].
    - apply Z.div_le_upper_bound; [lia|]. nia.
    - exists (e * b)%Z, o. split; [exact Kb|]. split; [now apply tops_outer|reflexivity].
  Qed.

  Lemma member_level i l x : nth_error (h_list h) i = Some l -> In x (members ci (lv_dict l)) ->
    In (fst x) (rq_ops rq) /\ (snd x < length (time_loops st (fst x)))%nat /\ nth_error (holders h (stored_as rq (fst x))) (snd x) = Some l.
  Proof.
    intros El Ix. apply (members_In ci _ x (sharing rq pc ms SH ci st mac counts P C)) in Ix. destruct Ix as (mo & I & Hl). rewrite (links_same rq ci st mac counts P) in Hl. assert (Io : In (fst x) (rq_ops rq)) by (now apply (linked rq V (fst x) mo) in Hl).
    assert (Q : mo = stored_as rq (fst x)) by (unfold stored_as; now rewrite Hl). subst mo. destruct (build_inv pc ms h E) as (IV & _).
    apply In_dget in I; [|exact (hi_keys h IV l (nth_error_In _ _ El))]. apply (number_at pc ms h E _ _ l (nth_error_In _ _ El)) in I.
    split; [exact Io|]. split; [|exact I]. destruct (kept_row _ Io) as (od & ps & _ & L1 & L2 & _). apply lt_nth in I. lia.
  Qed.

  (** Every memory of an operand is the home of its tile there. *)
  Lemma level_home op lv : In op (rq_ops rq) -> (lv < length (time_loops st op))%nat -> exists i m, nth_error ms i = Some m /\ resident rq ms i (op, lv).
  Proof.
    intros Io Lt. destruct (kept_row op Io) as (od & ps & _ & L1 & L2 & _). destruct (nth_lt (holders h (stored_as rq op)) lv) as (l & El); [lia|].
    destruct (numbered pc ms h E _ _ _ El) as (D & _ & i & Ei). destruct (described_at pc ms h E i l Ei) as (m & Em & _). exists i, m. split; [exact Em|].
    apply (members_resident rq pc ms V SH ci st mac counts P C i l (op, lv) Ei). apply (members_In ci _ _ (sharing rq pc ms SH ci st mac counts P C)). exists (stored_as rq op). cbn [fst snd].
    split; [now apply dget_In|]. rewrite (links_same rq ci st mac counts P). now apply (op_linked rq V).
  Qed.

  Section Reported.
    Variables (bits : opdata -> list Z) (amount : string -> nat -> Z).
    Hypothesis B : forall op lv, In op (rq_ops rq) -> (lv < length (time_loops st op))%nat -> Spec_Latency.tile_bits ci bits (op, lv) (amount op lv).

    Lemma reported_right : exists ind sh, individual ci bits = Ok ind /\ Model_Cost.shared ci ind = Ok sh /\ right_utilisation rq ms (time_loops st) amount ind sh.
    Proof.
      assert (SO := sharing rq pc ms SH ci st mac counts P C). assert (NO := so_ops ci SO). assert (OS := ops_same rq ci st mac counts P).
      destruct (individual_total ci C bits) as (ind & HI & Sh).
      { intros op od ps Io D. rewrite OS in Io. destruct (kept_row op Io) as (od' & ps' & D' & L & _ & _ & _). rewrite D in D'. injection D' as <- <-.
        destruct (length ps) as [|n] eqn:En.
        - exfalso. destruct (op_linked rq V op Io). destruct (linked rq V op (stored_as rq op) (op_linked rq V op Io)) as (_ & _ & tm & Et & Lt & Ne & _). destruct (kept_row op Io) as (od' & ps' & D' & L' & L2 & _ & _). rewrite D in D'. injection D' as <- <-.
          fold h in Lt. destruct tm; [easy|]. cbn [length] in Lt. lia.
        - destruct (B op n Io) as (od' & ps' & D' & _ & Eb); [lia|]. cbn [fst snd] in *. rewrite D in D'. injection D' as <- <-. now apply lt_nth in Eb. }
      destruct (shared_total ci C ind Sh) as (sh & HSh & Sh'). exists ind, sh. split; [exact HI|]. split; [exact HSh|]. constructor.
      - intros op Io. destruct (kept_row op Io) as (od & ps & D & L & _). rewrite <- OS in Io. destruct (Sh op od ps Io D) as (us & D1 & L1). destruct (Sh' op od ps Io D) as (us' & D2 & L2).
        exists us, us'. rewrite <- L. tauto.
      - intros i m Em. destruct (build_inv pc ms h E) as (IV & DF). destruct (F2_nth_r _ _ _ DF i m Em) as (l & El & Dm). set (ops := members ci (lv_dict l)).
        assert (NG : NoDup (lv_dict l)) by (apply (NoDup_map_inv fst); exact (hi_keys h IV l (nth_error_In _ _ El))).
        assert (S1 : (0 < ms_size m)%Z) by (apply (sh_sizes rq pc ms SH); now apply nth_error_In in Em).
        assert (Q0 : ~ (inject_Z (ms_size m) == 0)%Q) by (unfold Qeq; cbn; lia).
        assert (MS : forall x, In x ops -> In (fst x) (in_ops ci) /\ memory_size ci x (ms_size m)).
        { intros x Ix. destruct (member_level i l x El Ix) as (Io & _ & Eh). split; [now rewrite OS|]. exists (map lv_mem (holders h (stored_as rq (fst x)))), (lv_mem l).
          split; [exists (stored_as rq (fst x)); rewrite (links_same rq ci st mac counts P); split; [now apply (op_linked rq V)|exact (held rq V ci st mac counts P _ _ (op_linked rq V _ Io))]|].
          split; [rewrite nth_error_map, Eh; reflexivity|exact (proj1 (proj2 Dm))]. }
        assert (TB : forall l', incl l' ops -> Forall2 (Spec_Latency.tile_bits ci bits) l' (map (fun x : string * nat => amount (fst x) (snd x)) l')).
        { intros l' I. induction l' as [|[op lv] l' IH]; cbn [map]; constructor; [|apply IH; intros y Hy; apply I; now right]. destruct (member_level i l (op, lv) El (I _ (or_introl eq_refl))) as (Io & Lt & _). now apply B. }
        exists ops. split; [now apply members_NoDup|]. split; [intros x; now apply (members_resident rq pc ms V SH ci st mac counts P C)|].
        assert (GB := group_bits ci bits ind (ms_size m) ops _ NO HI MS (TB ops (incl_refl _))).
        destruct (shared_spec ci ind sh SO HSh) as (S2 & S3).
        assert (G2 : forall d x v, Model_Cost.get2 d x = Ok v -> util d x = v).
        { intros d x v G. unfold Model_Cost.get2 in G. apply rbind_Ok in G. destruct G as (us & G1 & G). unfold dgetr, of_option in G1. destruct (dget (fst x) d) as [us'|] eqn:Dx; [|discriminate]. injection G1 as <-.
          unfold at_, of_option in G. destruct (nth_error us' (snd x)) as [v'|] eqn:Nx; [|discriminate]. injection G as <-. unfold util. rewrite Dx. now apply nth_error_nth. }
        intros x Ix. destruct (member_level i l x El Ix) as (Io & Lt & Eh). split; [exact Lt|].
        assert (Ui : (util ind x * inject_Z (ms_size m) == inject_Z (amount (fst x) (snd x)))%Q).
        { destruct x as [op lv]. destruct (utilization_bits ci bits ind op lv _ _ NO HI (proj1 (MS _ Ix)) (B op lv Io Lt) (proj2 (MS _ Ix))) as (_ & Q). exact Q. }
        split; [rewrite <- Ui; field; exact Q0|].
        destruct (Nat.lt_ge_cases 1 (length (lv_dict l))) as [Lg|Lg].
        + assert (IG : In (lv_dict l) (in_sharing ci)) by (apply (pa_sharing _ _ _ _ _ P); exists l; split; [now apply nth_error_In in El|now split]).
          destruct (S2 _ x IG Ix) as (A & _). rewrite (G2 _ _ _ A). fold ops. rewrite <- GB. field. exact Q0.
        + assert (Same : forall y, In y ops -> y = x).
          { intros [op' lv'] Iy. destruct x as [op lv]. apply (members_In ci _ _ SO) in Ix, Iy. destruct Ix as (mo & Ix & Hx), Iy as (mo' & Iy & Hy). cbn [fst snd] in *.
            destruct (lv_dict l) as [|e [|? ?]]; [easy| |cbn in Lg; lia]. destruct Ix as [->|[]], Iy as [Q|[]]. injection Q as <- <-. f_equal. apply (link_back ci C) in Hx, Hy. congruence. }
          assert (One : ops = [x]).
          { assert (NM : NoDup ops) by (now apply members_NoDup). destruct ops as [|y r]; [destruct Ix|]. assert (Q := Same y (or_introl eq_refl)). subst y. f_equal. destruct r as [|y r]; [reflexivity|].
            assert (Q := Same y (or_intror (or_introl eq_refl))). subst y. inversion NM as [|? ? Nx _]. exfalso. apply Nx. now left. }
          assert (Un : Model_Cost.get2 sh x = Model_Cost.get2 ind x).
          { apply S3. intros g Ig Im. apply (pa_sharing _ _ _ _ _ P) in Ig. destruct Ig as (l' & Il' & -> & Lg'). fold h in Il'. apply In_nth_error in Il'. destruct Il' as (i' & El').
            destruct (member_level i' l' x El' Im) as (_ & _ & Eh'). rewrite Eh in Eh'. injection Eh' as <-. lia. }
          rewrite One. cbn [map]. change (zsum [amount (fst x) (snd x)]) with (amount (fst x) (snd x) + 0)%Z. rewrite Z.add_0_r, <- Ui.
          destruct (kept_row _ Io) as (od & ps & D & L & _). assert (Io' := Io). rewrite <- OS in Io'. destruct (Sh _ od ps Io' D) as (us & D1 & L1).
          assert (Gi : exists v, Model_Cost.get2 ind x = Ok v). { destruct (nth_lt us (snd x)) as (v & Ev); [lia|]. exists v. unfold Model_Cost.get2, dgetr, at_. rewrite D1. cbn [of_option rbind]. rewrite Ev. reflexivity. }
          destruct Gi as (v & Gv). rewrite (G2 _ _ _ Gv). rewrite <- Un in Gv. rewrite (G2 _ _ _ Gv). field. exact Q0.
    Qed.
  End Reported.
End Util.

(** C81, any mapping that suits the request *)
Lemma reports rq fuel pc ms : valid_request rq -> sound_hardware rq pc ms -> (passes_bound (rq_temporal rq) <= fuel)%nat -> whole_request rq -> (1 <= rq_size_out rq)%Z ->
  exists ci ind sh ind' sh' loops, prepare rq fuel = Ok ci /\ individual ci od_bit_unrolled = Ok ind /\ Model_Cost.shared ci ind = Ok sh /\
    individual ci od_effective_bit = Ok ind' /\ Model_Cost.shared ci ind' = Ok sh' /\ reported rq ms ind sh ind' sh' loops /\
    forall op lv, In op (rq_ops rq) -> (lv < length (loops op))%nat -> exists i m, nth_error ms i = Some m /\ resident rq ms i (op, lv).
Proof.
  intros V SH HF HW HS. destruct (Proof_EvalPrepare.prepared rq fuel pc ms V SH HF) as (ci & Ep & C & _). destruct (parts_of rq fuel pc ms V SH HF ci Ep) as (st & mac & counts & P).
  assert (K := kept_row rq fuel V HF HW HS ci st mac counts P).
  destruct (reported_right rq fuel pc ms V SH HF HW HS ci st mac counts P C od_bit_unrolled (util_kept ci)) as (ind & sh & A1 & A2 & A3).
  { intros op lv Io Lt. destruct (K op Io) as (od & ps & D & L & _ & _ & R). exists od, ps. cbn [fst snd]. split; [exact D|]. split; [lia|]. apply R. lia. }
  destruct (reported_right rq fuel pc ms V SH HF HW HS ci st mac counts P C od_effective_bit (time_live ci)) as (ind' & sh' & B1 & B2 & B3).
  { intros op lv Io Lt. destruct (K op Io) as (od & ps & D & L & _ & _ & R). exists od, ps. cbn [fst snd]. split; [exact D|]. split; [lia|]. apply R. lia. }
  exists ci, ind, sh, ind', sh', (time_loops st). do 5 (split; [assumption|]). split; [|intros; eapply level_home; eassumption].
  exists (util_kept ci), (time_live ci). split; [intros op Io; now destruct (K op Io) as (od & ps & _ & _ & _ & G & _)|]. split; [|now split].
  intros op lv Io Lt. destruct (K op Io) as (od & ps & D & L & _ & _ & R). destruct (R lv) as (_ & _ & R1 & _ & R2 & R3); [lia|]. now split.
Qed.

(** * Mappings found *)

(** Loops over irrelevant dimensions do not enlarge a tile. *)
Lemma elements_drop rq sizes op r ir l extra : relevancy_ok rq sizes op r ir ->
  (forall x, In x (l ++ extra) -> ~ In (fst x) (keys (l_pr_loop (rq_layer rq)))) -> (forall x, In x extra -> In (fst x) ir) ->
  (tile_elements (rq_layer rq) op (l ++ extra) == tile_elements (rq_layer rq) op l)%Q.
Proof.
  intros (_ & _ & _ & Hd & _ & _ & Hri & Hnp & Hpr & _) Hk He. unfold tile_elements. rewrite Hd. apply qprod_Forall2.
  assert (Ex : forall d, ~ In d ir -> (extent (l ++ extra) d == extent l d)%Q).
  { intros d Nd. rewrite Proof_AllocTile.extent_app, (Proof_AllocTile.extent_none extra), Qmult_1_r; [reflexivity|].
    apply not_true_is_false. intros Q. apply existsb_exists in Q. destruct Q as (x & Ix & Q). destruct (eqb_spec (fst x) d) as [Q'|]; [|discriminate]. clear Q. rename Q' into Q. apply Nd. rewrite <- Q. now apply He. }
  assert (G : forall d, In d (r ++ (if in_dec string_dec op (rq_pr rq) then keys (l_pr_loop (rq_layer rq)) else [])) ->
    (elements_along (rq_layer rq) (l ++ extra) d == elements_along (rq_layer rq) l d)%Q).
  { intros d Id. apply in_app_or in Id. destruct Id as [Id|Id].
    - assert (Np := proj1 (Hnp d (in_or_app _ _ _ (or_introl Id)))). rewrite !Proof_SpatialInt.elements_plain by assumption. apply Ex. now apply Hri.
    - destruct (in_dec string_dec op (rq_pr rq)) as [Ip|]; [|destruct Id]. unfold elements_along.
      assert (N : forall l', incl l' (l ++ extra) -> existsb (fun x : string * Q => eqb (fst x) d) l' = false).
      { intros l' I. apply not_true_is_false. intros Q. apply existsb_exists in Q. destruct Q as (x & Ix & Q). destruct (eqb_spec (fst x) d) as [Q'|]; [|discriminate]. clear Q. rename Q' into Q. apply (Hk x (I x Ix)). now rewrite Q. }
      rewrite (N (l ++ extra) (incl_refl _)), (N l (incl_appl _ (incl_refl _))).
      destruct (dget d (l_pr_loop (rq_layer rq))) as [[da db]|] eqn:Dp; [|reflexivity]. destruct (dget d (l_pr_scaling (rq_layer rq))) as [[sa sb]|]; [|reflexivity]. destruct (dget d (l_pr_sizes (rq_layer rq))) as [tot|]; [|reflexivity].
      assert (Nx : forall y, y = da \/ y = db -> ~ In y ir).
      { intros y Hy Iy. apply (Hpr Ip y (y, 1%Q) d (in_or_app _ _ _ (or_intror Iy))); [|reflexivity]. exists da, db. split; [now apply dget_In in Dp|exact Hy]. }
      rewrite (Qfloor_comp _ _ (Ex da (Nx da (or_introl eq_refl)))), (Qfloor_comp _ _ (Ex db (Nx db (or_intror eq_refl)))). reflexivity. }
  revert G. generalize (r ++ (if in_dec string_dec op (rq_pr rq) then keys (l_pr_loop (rq_layer rq)) else [])). intros dims G. induction dims as [|d dims IH]; cbn [map]; constructor; [apply G; now left|apply IH; intros; apply G; now right].
Qed.

(** Boundaries only move outwards. *)
Lemma merged_below ir old new k : merged_down ir old new -> (k <= length old)%nat -> exists moved, below k new = below k old ++ moved /\ Forall (over ir) moved /\ from k old = moved ++ from k new.
Proof.
  intros (L & Cc & M) Lt. assert (G : exists moved, below k new = below k old ++ moved /\ Forall (over ir) moved).
  { destruct k as [|k]; [exists []; now split|]. destruct (Nat.eq_dec (S k) (length old)) as [Q|Q]; [|apply M; lia].
    exists []. split; [|constructor]. unfold below. rewrite app_nil_r, Q. rewrite <- L at 1. now rewrite !firstn_all. }
  destruct G as (moved & B & F). exists moved. split; [exact B|]. split; [exact F|]. apply (app_inv_head (below k old)). rewrite app_assoc, <- B. unfold below, from. now rewrite <- !concat_app, !firstn_skipn.
Qed.

Lemma firstn_concat {A} (ls : list (list A)) k : firstn (length (concat (firstn k ls))) (concat ls) = concat (firstn k ls).
Proof. rewrite <- (firstn_skipn k ls) at 2. rewrite concat_app, firstn_app, firstn_all, Nat.sub_diag. cbn [firstn]. now rewrite app_nil_r. Qed.
Lemma skipn_concat {A} (ls : list (list A)) k : skipn (length (concat (firstn k ls))) (concat ls) = concat (skipn k ls).
Proof. rewrite <- (firstn_skipn k ls) at 2. rewrite concat_app, skipn_app, skipn_all, Nat.sub_diag. reflexivity. Qed.
Lemma skipn_more {A} (ls : list (list A)) k x : In x (concat (skipn (S k) ls)) -> In x (concat (skipn k ls)).
Proof. revert ls. induction k as [|k IH]; intros [|l ls]; cbn [skipn concat]; try easy; [intros I; apply in_or_app; now right|apply (IH ls)]. Qed.

Section Found.
  Variables (rq : request) (sizes : list (string * Z)) (pc : nat) (ms : list memspec).
  Hypothesis R : searchable rq sizes pc ms.
  Hypothesis FS : final_smaller rq.
  Let ly := rq_layer rq.
  Let h := rq_hierarchy rq.
  Variables (mt : mapping_type) (tops : dict string nat) (nodes : list memlevel) (p : list tloop) (tm : dict string (list (list tloop))).
  Hypothesis VW : allocator_view rq = Ok (tops, nodes).
  Hypothesis HN : forall n, In n nodes -> NoDup (m_operands n).
  Hypothesis RUN : allocator_run ly (rq_spatial rq) mt tops p nodes = Ok tm.
  Hypothesis CC : forall op levels, In (op, levels) tm -> concat levels = p.
  Hypothesis KP : forall x, In x p -> (1 <= snd x)%Z /\ ~ In (fst x) (keys (l_pr_loop ly)).
  Variables (loops : string -> list (list tloop)) (kept : string -> nat -> Z).
  Hypothesis HM : forall op, In op (rq_ops rq) -> exists given, dget op tm = Some given /\ merged_down (reuse_dims (rq_ir rq) op) given (loops op).
  Hypothesis HK : forall op lv, In op (rq_ops rq) -> (lv < length (loops op))%nat -> kept_bits (with_temporal rq tm) op (unrolling (rq_spatial rq) op) (loops op) lv (kept op lv) /\ (0 <= kept op lv)%Z.

  Lemma tile_kept op mop lv : In (op, mop) (l_links ly) -> (lv < length (loops op))%nat ->
    (inject_Z (kept op lv) <= Spec_Alloc.tile_bits ly (rq_spatial rq) p (op, mop) lv (loops_below (Spec_Alloc.levels_of tm op) lv) (loops_below (Spec_Alloc.levels_of tm op) (S lv)))%Q.
  Proof.
    intros Il Lt. assert (SL := se_layer _ _ _ _ R). destruct (links_once rq sizes pc ms R) as (N1 & N2). assert (Hl : dget op (lk_data (rq_links rq)) = Some mop) by (rewrite <- (se_links _ _ _ _ R); now apply In_dget).
    assert (Io : In op (rq_ops rq)) by (apply (proj2 (sl_operands _ SL op)); exact (dget_Some_key _ _ _ Hl)).
    destruct (se_relevancy _ _ _ _ R op Io) as (r & ir & RO). assert (RO' := RO). destruct RO' as (Hr & Hir & _ & _ & Hli & _ & _ & _ & _ & Hkn).
    destruct (sr_levels _ _ (se_spatial _ _ _ _ R) op mop Hl) as (su & Hs & Ls & Kn). destruct (HM op Io) as (given & Dg & M). assert (Cg := CC op given (dget_In _ _ _ Dg)).
    destruct (HK op lv Io Lt) as ((b & e & Bm & Q & Te) & Kp). unfold unrolling in Bm, Te. rewrite Hs in Bm, Te. cbn [rq_layer with_temporal] in Te.
    assert (Lg : length (loops op) = length given) by (exact (proj1 M)). unfold reuse_dims in M. rewrite Hir in M.
    destruct (merged_below ir given (loops op) (S lv) M) as (moved & Bl & Fm & _); [lia|].
    assert (El : Spec_Alloc.levels_of tm op = given) by (unfold Spec_Alloc.levels_of; now rewrite Dg). rewrite El.
    unfold Spec_Alloc.tile_bits. cbn [fst snd]. rewrite Hs. set (full := within su (loops op) (S lv) (S lv)) in *.
    set (inj := fun t : tloop => (fst t, inject_Z (snd t))).
    assert (El' : loops_inside su p lv (loops_below given (S lv)) = concat (firstn (S lv) su) ++ map inj (below (S lv) given)).
    { unfold loops_inside, loops_below. rewrite <- Cg, firstn_concat. reflexivity. }
    assert (Ew : Permutation full ((concat (firstn (S lv) su) ++ map inj (below (S lv) given)) ++ map inj moved)).
    { unfold full, within. rewrite firstn_map, <- concat_map. change (concat (firstn (S lv) (loops op))) with (below (S lv) (loops op)). fold inj. rewrite Bl, map_app. rewrite <- (app_assoc (concat (firstn (S lv) su))). apply Permutation_app_comm. }
    assert (NK : forall x, In x ((concat (firstn (S lv) su) ++ map inj (below (S lv) given)) ++ map inj moved) -> ~ In (fst x) (keys (l_pr_loop (rq_layer rq)))).
    { intros x Ix. apply (Permutation_in _ (Permutation_sym Ew)) in Ix. unfold full, within in Ix. apply in_app_or in Ix. destruct Ix as [Ix|Ix].
      - rewrite firstn_map, <- concat_map in Ix. apply in_map_iff in Ix. destruct Ix as (y & <- & Iy). cbn [fst]. apply KP. rewrite <- Cg, <- (proj1 (proj2 M)). rewrite <- (firstn_skipn (S lv) (loops op)), concat_app. apply in_or_app. now left.
      - apply (proj1 (proj1 (proj2 (Kn x r ir Hr Hir ltac:(rewrite <- (firstn_skipn (S lv) su), concat_app; apply in_or_app; now left))))). }
    assert (Et : (inject_Z e == tile_elements ly op (loops_inside su p lv (loops_below given (S lv))))%Q).
    { rewrite El', Te, (Proof_AllocTile.tile_elements_perm _ _ _ _ Ew). apply (elements_drop rq sizes op r ir); [exact RO|exact NK|].
      intros x Ix. apply in_map_iff in Ix. destruct Ix as (y & <- & Iy). rewrite Forall_forall in Fm. now apply Fm. }
    rewrite <- Et, Q, inject_Z_mult, <- !inject_Z_mult, <- Zle_Qle.
    set (bpe := bits_per_element ly su p (op, mop) lv (loops_below given lv)).
    assert (E0 : (0 <= e)%Z).
    { assert (G : (0 <= inject_Z e)%Q); [|rewrite Zle_Qle; exact G]. rewrite Te. apply Qle_trans with 1%Q; [discriminate|]. unfold tile_elements. destruct (dget op (l_r_or_pr (rq_layer rq))) as [dims|]; [|apply Qle_refl]. apply qprod_ge_1.
      intros q Iq. apply in_map_iff in Iq. destruct Iq as (d & <- & _). apply along_ge_1; [exact (sl_derived _ SL)|]. intros x Ix. unfold full, within in Ix. apply in_app_or in Ix. destruct Ix as [Ix|Ix].
      - rewrite firstn_map, <- concat_map in Ix. apply in_map_iff in Ix. destruct Ix as (y & <- & Iy). cbn [snd]. change 1%Q with (inject_Z 1). rewrite <- Zle_Qle. apply KP. rewrite <- Cg, <- (proj1 (proj2 M)). rewrite <- (firstn_skipn (S lv) (loops op)), concat_app. apply in_or_app. now left.
      - apply (Kn x r ir Hr Hir). rewrite <- (firstn_skipn (S lv) su), concat_app. apply in_or_app. now left. }
    assert (Lb : (b <= bpe)%Z).
    { destruct (sl_precision _ SL) as (_ & Hp). destruct (Hp op Io) as (f & Ef & _). destruct Bm as (B1 & B2). cbn [rq_inputs rq_out rq_layer with_temporal] in B1, B2.
      unfold bpe, bits_per_element. cbn [fst snd]. fold ly in Ef, Hli. rewrite Ef, Hli.
      destruct (proj1 (proj1 (sl_operands _ SL op)) Io) as [Qo|Ii].
      - destruct (eqb mop output_mem_op && _) eqn:Eb.
        + apply andb_true_iff in Eb. destruct Eb as (_ & Eb). apply negb_true_iff in Eb. rewrite (B2 Qo); [reflexivity|]. intros Pa. apply not_true_iff_false in Eb. apply Eb. apply existsb_exists.
          unfold partial_sums in Pa. cbn [inside fst] in Pa. cbn [rq_ir rq_out with_temporal] in Pa. rewrite <- Qo in Pa. unfold reuse_dims in Pa. rewrite Hir in Pa. destruct Pa as [(d & s & Ix & Id & _)|(d & s & Ix & Id & _)]; exists d; (split; [|now apply memb_In]); apply in_or_app.
          * right. change d with (fst (d, s)). apply List.in_map. unfold loops_below. rewrite <- Cg, skipn_concat. apply skipn_more. destruct (merged_below ir given (loops op) (S lv) M) as (moved' & _ & _ & Fr); [lia|]. change (concat (skipn (S lv) given)) with (from (S lv) given). rewrite Fr. apply in_or_app. now right.
          * left. change d with (fst (d, s)). apply List.in_map. now apply skipn_more.
        + destruct (Z.le_gt_cases b f) as [G|G]; [exact G|exfalso]. assert (Np : ~ partial_sums (with_temporal rq tm) su (loops op) lv RdHigh).
          { intros Pa. assert (X := B1 (or_intror (conj Qo Pa))). fold ly in X. rewrite Ef in X. injection X as <-. lia. }
          assert (X := B2 Qo Np). assert (Y := FS f). rewrite <- Qo in Y. specialize (Y Ef). fold ly in X, Y. lia.
      - assert (X := B1 (or_introl Ii)). fold ly in X. rewrite Ef in X. injection X as <-.
        destruct (proj2 (sl_inputs _ SL) op Ii) as (m & Hm & Qm). rewrite Hl in Hm. injection Hm as <-. destruct (eqb mop output_mem_op) eqn:Eq; [destruct (eqb_spec mop output_mem_op) as [->|]; [|discriminate]; destruct Qm as [Qm|Qm]; discriminate Qm|]. cbn [andb]. lia. }
    nia.
  Qed.

  Lemma pick_split i l : nth_error (h_list h) i = Some l -> exists L P1 P2, topological_order (h_graph h) L /\ pick (h_list h) L = P1 ++ l :: P2 /\ nodes = map node_of P1 ++ node_of l :: map node_of P2.
  Proof.
    intros El. assert (Hb := sh_built _ _ _ (se_hardware _ _ _ _ R)). fold h in Hb. destruct (levels_perm pc ms h Hb) as (L & EL & T & _). destruct (build_inv pc ms h Hb) as (HI & _).
    unfold allocator_view in VW. apply rbind_Ok in VW. destruct VW as (tops' & _ & Ev). fold h in Ev. rewrite EL in Ev. cbn [rbind] in Ev. injection Ev as _ En.
    assert (Ii : In i L). { destruct T as (Pm & _). rewrite (hi_nodes h HI) in Pm. apply (Permutation_in _ (Permutation_sym Pm)). apply in_seq. split; [lia|]. cbn. now apply lt_nth in El. }
    apply in_split in Ii. destruct Ii as (L1 & L2 & Q). exists L, (pick (h_list h) L1), (pick (h_list h) L2). split; [exact T|].
    assert (Ep : pick (h_list h) L = pick (h_list h) L1 ++ l :: pick (h_list h) L2). { rewrite Q, pick_app. f_equal. change (i :: L2) with ([i] ++ L2). rewrite pick_app. unfold pick at 1. cbn [flat_map]. rewrite El. reflexivity. }
    split; [exact Ep|]. rewrite <- En, Ep, map_app. reflexivity.
  Qed.

  Lemma fits_found i m ops : nth_error ms i = Some m -> NoDup ops -> (forall x, In x ops <-> resident (with_temporal rq tm) ms i x) ->
    (forall x, In x ops -> (snd x < length (loops (fst x)))%nat) -> (zsum (map (fun x : string * nat => kept (fst x) (snd x)) ops) <= ms_size m)%Z.
  Proof.
    intros Em ND Ho HL. assert (SH := se_hardware _ _ _ _ R). assert (SL := se_layer _ _ _ _ R). assert (Hb := sh_built _ _ _ SH). fold h in Hb. destruct (build_inv pc ms h Hb) as (HI & DF). destruct (F2_nth_r _ _ _ DF i m Em) as (l & El & Dm).
    destruct (pick_split i l El) as (L & P1 & P2 & T & Ep & En). destruct (links_once rq sizes pc ms R) as (N1 & N2). fold ly in N1, N2.
    assert (Ru := run_fits ly (rq_spatial rq) mt tops p N2 N1 (map node_of P1) (node_of l) (map node_of P2) tm). rewrite <- En in Ru. specialize (Ru HN RUN).
    cbn [m_size node_of] in Ru. rewrite (proj1 (proj2 Dm)) in Ru. rewrite Zle_Qle. eapply Qle_trans; [|exact Ru].
    set (pre := map node_of P1) in *. set (lks := stored_links ly (node_of l)).
    assert (St : forall mop, In mop (lv_operands l) -> storing mop pre = length (memories_for (firstn i ms) mop)).
    { intros mop Im. assert (St : storing mop pre = length (filter (holds mop) P1)).
      { unfold storing, pre. clear. induction P1 as [|x r IH]; [reflexivity|]. cbn [map filter node_of m_operands]. unfold holds at 1. destruct (memb mop (lv_operands x)); cbn [length]; now rewrite IH. }
      assert (Nt : nth_error (holders h mop) (storing mop pre) = Some l).
      { change (holders h mop) with (filter (holds mop) (h_list h)). rewrite <- (grown_order h L mop HI (sh_order _ _ _ SH) T), Ep, filter_app. cbn [filter]. assert (Hh : holds mop l = true) by (unfold holds; now apply memb_In). rewrite Hh, nth_error_app2 by lia. now rewrite St, Nat.sub_diag. }
      destruct (numbered pc ms h Hb _ _ _ Nt) as (D & _). assert (D' := hi_dict h HI i l mop El). rewrite D in D'. assert (Hm : memb mop (lv_operands l) = true) by (now apply memb_In). rewrite Hm in D'. injection D' as ->. now apply held_before. }
    assert (Pm : Permutation ops (map (fun lm : string * string => (fst lm, storing (snd lm) pre)) lks)).
    { apply NoDup_Permutation; [exact ND| |].
      - apply (NoDup_map_inv fst). rewrite map_map. cbn [fst]. unfold lks, stored_links. clear -N1. induction (l_links ly) as [|x r IH]; [constructor|]. cbn [map] in N1. inversion N1 as [|? ? Nx Nr]. cbn [filter].
        destruct (memb (snd x) (m_operands (node_of l))); [|now apply IH]. cbn [map]. constructor; [|now apply IH]. intros I. apply Nx. apply in_map_iff in I. destruct I as (y & Q & Iy). apply filter_In in Iy. rewrite <- Q. now apply List.in_map.
      - intros [op lv]. rewrite Ho. unfold resident, stored_as. cbn [rq_ops rq_links with_temporal fst snd]. rewrite in_map_iff. split.
        + intros (Io & (m' & Em' & Im) & Q). rewrite Em in Em'. injection Em' as <-. assert (Ik := proj1 (proj2 (sl_operands _ SL op)) Io). destruct (key_dget _ _ Ik) as (mop & Hl). rewrite Hl in Im, Q.
          exists (op, mop). cbn [fst snd]. assert (Iv : In mop (lv_operands l)) by (unfold lv_operands; now rewrite (proj1 Dm)). split; [now rewrite (St mop Iv), Q|]. apply filter_In. cbn [snd m_operands node_of]. split; [|now apply memb_In]. unfold ly. rewrite (se_links _ _ _ _ R). now apply dget_In.
        + intros ([op' mop] & Q & I). cbn [fst snd] in Q. assert (Q1 : op' = op) by congruence. assert (Q2 : storing mop pre = lv) by congruence. subst op'. apply filter_In in I. destruct I as (Il & Im). cbn [snd m_operands node_of] in Im. apply memb_In in Im. assert (Hl : dget op (lk_data (rq_links rq)) = Some mop) by (rewrite <- (se_links _ _ _ _ R); now apply In_dget). rewrite Hl.
          split; [apply (proj2 (sl_operands _ SL op)); exact (dget_Some_key _ _ _ Hl)|]. split; [exists m; split; [exact Em|]; unfold lv_operands in Im; now rewrite <- (proj1 Dm)|]. rewrite <- Q2. now apply St. }
    assert (HL' : forall lm, In lm lks -> (storing (snd lm) pre < length (loops (fst lm)))%nat).
    { intros lm I. apply (HL (fst lm, storing (snd lm) pre)). apply (Permutation_in _ (Permutation_sym Pm)). apply in_map_iff. now exists lm. }
    rewrite (Base.zsum_perm _ _ (Permutation_map _ Pm)), map_map. cbn [fst snd]. unfold total_bits. fold lks.
    assert (Sub : forall lm, In lm lks -> In lm (l_links ly)) by (intros lm I; now apply filter_In in I). clearbody lks. clear Pm. induction lks as [|[op mop] r IH]; [apply Qle_refl|]. cbn [map]. rewrite zsum_cons, inject_Z_plus.
    change (qsum (?x :: ?r)) with (x + qsum r)%Q. apply Qplus_le_compat; [|apply IH; intros; [apply HL'|apply Sub]; now right]. cbn [fst snd].
    assert (Il := Sub _ (or_introl eq_refl)). assert (Lk := HL' _ (or_introl eq_refl)). cbn [fst snd] in Lk. unfold tile_start, tile_stop. rewrite (In_dget _ _ _ N1 Il). now apply tile_kept.
  Qed.
End Found.

(** Utilisation that comes from bits that fit *)
Lemma utilisation_bounded rq ms loops bits ind sh : (forall m, In m ms -> (0 < ms_size m)%Z) -> right_utilisation rq ms loops bits ind sh ->
  (forall op lv, In op (rq_ops rq) -> (lv < length (loops op))%nat -> exists i m, nth_error ms i = Some m /\ resident rq ms i (op, lv)) ->
  (forall op lv, In op (rq_ops rq) -> (lv < length (loops op))%nat -> (0 <= bits op lv)%Z) ->
  (forall i m ops, nth_error ms i = Some m -> NoDup ops -> (forall x, In x ops <-> resident rq ms i x) -> (forall x, In x ops -> (snd x < length (loops (fst x)))%nat) ->
     (zsum (map (fun x : string * nat => bits (fst x) (snd x)) ops) <= ms_size m)%Z) ->
  within_size rq loops ind sh.
Proof.
  intros S1 [_ U] Home Pos Fit op lv Io Lt. destruct (Home op lv Io Lt) as (i & m & Em & Rs). destruct (U i m Em) as (ops & ND & Ho & A). assert (Ix : In (op, lv) ops) by (now apply Ho).
  destruct (A _ Ix) as (_ & A1 & A2). cbn [fst snd] in A1, A2. assert (F := Fit i m ops Em ND Ho (fun x I => proj1 (A x I))). assert (Sz := S1 m (nth_error_In _ _ Em)).
  assert (Pz : forall l, incl l ops -> (0 <= zsum (map (fun x : string * nat => bits (fst x) (snd x)) l))%Z /\ (In (op, lv) l -> (bits op lv <= zsum (map (fun x : string * nat => bits (fst x) (snd x)) l))%Z)).
  { induction l as [|x l IH]; intros I; [split; [reflexivity|easy]|]. destruct IH as (B1 & B2); [intros y Hy; apply I; now right|]. assert (Ax := I x (or_introl eq_refl)). assert (P0 := Pos (fst x) (snd x) (proj1 (proj1 (Ho x) Ax)) (proj1 (A x Ax))).
    cbn [map]. rewrite zsum_cons. split; [lia|]. intros [->|J]; cbn [fst snd] in *; [lia|]. specialize (B2 J). lia. }
  destruct (Pz ops (incl_refl _)) as (Z1 & Z2). specialize (Z2 Ix). assert (P0 := Pos op lv Io Lt). set (z := zsum _) in *. clearbody z. rewrite A1, A2.
  assert (Q0 : (0 < inject_Z (ms_size m))%Q) by (change 0%Q with (inject_Z 0); now rewrite <- Zlt_Qlt).
  split; [split|].
  - apply Qle_shift_div_l; [exact Q0|]. rewrite Qmult_0_l. change 0%Q with (inject_Z 0). now rewrite <- Zle_Qle.
  - apply Qmult_le_compat_r; [now rewrite <- Zle_Qle|]. apply Qlt_le_weak, Qinv_lt_0_compat, Q0.
  - apply Qle_shift_div_r; [exact Q0|]. rewrite Qmult_1_l. now rewrite <- Zle_Qle.
Qed.

(** C81, the mappings that the search finds *)
Lemma found_within rq sizes pc ms factorint lim mt : searchable rq sizes pc ms -> whole_unrollings rq -> (1 <= rq_size_out rq)%Z -> final_smaller rq ->
  factorint_ok factorint -> (forall l, lim = Some l -> (1 <= l)%Z) ->
  exists enough, forall fuel, (enough <= fuel)%nat -> exists found e, loma_mappings rq factorint lim sizes mt fuel = Ok (found, e) /\
    forall tm fuel', In tm found -> (passes_bound tm <= fuel')%nat ->
      exists ci ind sh ind' sh' loops, prepare (with_temporal rq tm) fuel' = Ok ci /\ individual ci od_bit_unrolled = Ok ind /\ Model_Cost.shared ci ind = Ok sh /\
        individual ci od_effective_bit = Ok ind' /\ Model_Cost.shared ci ind' = Ok sh' /\ reported (with_temporal rq tm) ms ind sh ind' sh' loops /\
        within_size (with_temporal rq tm) loops ind sh /\ within_size (with_temporal rq tm) loops ind' sh'.
Proof.
  intros R WU HS FS Hf Hlim. destruct (view rq sizes pc ms R) as (tops0 & nodes0 & Ev0 & HN & _ & Ht). destruct (search_ok rq sizes pc ms R factorint lim mt Hf Hlim) as (un & tops & nodes & lpfs & V & _ & Ev & _ & HV & _ & Hs). rewrite Ev in Ev0. injection Ev0 as <- <-.
  exists (length V). intros fuel Hfu. destruct (Hs fuel Hfu) as (found & e & Ef & Hin & _ & Hv). exists found, e. split; [exact Ef|]. intros tm fuel' It Hfu'.
  destruct (proj1 (Hin tm) It) as (p & Pp & Er). destruct (Hv tm It) as (Va & _). destruct (links_once rq sizes pc ms R) as (N1 & N2).
  assert (Kt := run_keys _ _ _ _ _ _ _ N2 N1 HN Er). assert (Nt : NoDup (keys tm)) by now rewrite Kt.
  assert (Cp : forall op levels, In (op, levels) tm -> concat levels = p).
  { intros op levels I. assert (Ik : In op (map fst (l_links (rq_layer rq)))) by (rewrite <- Kt; now apply (List.in_map fst) in I). apply in_map_iff in Ik. destruct Ik as ([op' mop] & Q & Il). cbn [fst] in Q. subst op'.
    destruct (run_keeps_loops _ _ mt tops p N2 N1 nodes tm HN Er op mop Il (proj2 (Ht op mop Il))) as (levels' & E & C & _). rewrite (In_dget _ _ _ Nt I) in E. injection E as <-. exact C. }
  assert (SL := se_layer _ _ _ _ R). assert (SH : sound_hardware (with_temporal rq tm) pc ms) by (destruct (se_hardware _ _ _ _ R); constructor; assumption).
  assert (WR : whole_request (with_temporal rq tm)).
  { intros op su levels Hs' _ x Ix. cbn [rq_spatial with_temporal] in Hs'. unfold whole_nest, within in Ix. apply in_app_or in Ix. destruct Ix as [Ix|Ix].
    - rewrite firstn_map, <- concat_map in Ix. apply in_map_iff in Ix. destruct Ix as (y & <- & _). exists (snd y). reflexivity.
    - rewrite firstn_all in Ix. now apply (WU op su x). }
  destruct (reports (with_temporal rq tm) fuel' pc ms Va SH Hfu' WR HS) as (ci & ind & sh & ind' & sh' & loops & B1 & B2 & B3 & B4 & B5 & RP & Home).
  exists ci, ind, sh, ind', sh', loops. do 6 (split; [assumption|]). destruct RP as (kept & live & M & K & U & U').
  assert (S1 := sh_sizes _ _ _ SH).
  assert (Fit : forall i m ops, nth_error ms i = Some m -> NoDup ops -> (forall x, In x ops <-> resident (with_temporal rq tm) ms i x) -> (forall x, In x ops -> (snd x < length (loops (fst x)))%nat) ->
     (zsum (map (fun x : string * nat => kept (fst x) (snd x)) ops) <= ms_size m)%Z).
  { intros i m ops. apply (fits_found rq sizes pc ms R FS mt tops nodes p tm Ev HN).
    - exact Er.
    - exact Cp.
    - intros x Ix. destruct (M (rq_out rq)) as (given & Dg & _); [apply (proj1 (sl_operands _ SL _)); now left|]. cbn [rq_temporal with_temporal] in Dg. destruct (sf_fits _ _ (vr_spatial _ Va) _ _ Dg) as (su & _ & oi & E1 & E2 & GO).
      destruct (go_sizes _ _ _ _ _ _ GO (fst x, inject_Z (snd x))) as (G1 & G2).
      { rewrite E1, E2. unfold whole_nest, within. apply in_or_app. left. rewrite <- (map_length (map (fun y : tloop => (fst y, inject_Z (snd y)))) given), firstn_all, <- concat_map. apply (List.in_map (fun y : tloop => (fst y, inject_Z (snd y)))). now rewrite (Cp _ _ (dget_In _ _ _ Dg)). }
      cbn [fst snd] in G1, G2. split; [|exact G2]. rewrite Zle_Qle. exact G1.
    - exact M.
    - intros op lv Io Lt. destruct (K op lv Io Lt) as (K1 & _ & K2). split; [exact K1|lia]. }
  split.
  - apply (utilisation_bounded _ ms loops kept); try assumption. intros op lv Io Lt. destruct (K op lv Io Lt) as (_ & _ & K2). lia.
  - apply (utilisation_bounded _ ms loops live); try assumption; [intros op lv Io Lt; destruct (K op lv Io Lt) as (_ & _ & K2); lia|].
    intros i m ops Em ND Ho HL. eapply Z.le_trans; [|exact (Fit i m ops Em ND Ho HL)]. assert (Sub : forall x, In x ops -> In (fst x) (rq_ops rq)) by (intros x Ix; exact (proj1 (proj1 (Ho x) Ix))). clear ND Ho. induction ops as [|x r IH]; [reflexivity|]. cbn [map]. rewrite !zsum_cons.
    assert (X := K _ _ (Sub x (or_introl eq_refl)) (HL x (or_introl eq_refl))). assert (Y := IH (fun y Iy => HL y (or_intror Iy)) (fun y Iy => Sub y (or_intror Iy))). lia.
Qed.
