(** C75: the energy of an evaluation. *)
From Coq Require Import QArith Lia.
From Verif Require Import Base Model_Alloc Model_Temporal Model_Decouple Model_SpatialInt Model_DataMove Model_Mapping Model_Links Model_Cost Model_Latency Model_Hierarchy Model_Evaluate
  Spec_Alloc Spec_Decouple Spec_SpatialInt Spec_Temporal Spec_DataMove Spec_Mapping Spec_Cost Spec_Latency Spec_Hierarchy Spec_Evaluate Spec_EvalEnergy
  Proof_AllocSearch Proof_Bandwidth Proof_Energy Proof_Links Proof_Hierarchy Proof_Ports Proof_MappingProps Proof_Mapping Proof_EvalTotal Proof_EvalMapping Proof_EvalBuild Proof_EvalHardware Proof_EvalPrepare Proof_EvalTiles.
Local Open Scope list_scope.

Lemma F2_filter {A B} (R : A -> B -> Prop) (f : A -> bool) (g : B -> bool) l l' :
  Forall2 R l l' -> (forall x y, R x y -> f x = g y) -> Forall2 R (filter f l) (filter g l').
Proof.
  intros F H. induction F as [|x y l l' Hxy F IH]; [constructor|]. cbn [filter]. rewrite (H x y Hxy). destruct (g y); [constructor; assumption|assumption].
Qed.
Lemma F2_nth_r {A B} (R : A -> B -> Prop) l l' : Forall2 R l l' -> forall i x, nth_error l i = Some x -> exists y, nth_error l' i = Some y /\ R x y.
Proof.
  induction 1 as [|x y l l' Hxy F IH]; intros i z E; destruct i; try discriminate; cbn [nth_error] in *; [injection E as <-; eauto|now apply IH].
Qed.

Lemma F2_at {A B} (R : A -> B -> Prop) l l' : Forall2 R l l' -> Forall2 (fun x y => R x y /\ exists i, nth_error l i = Some x /\ nth_error l' i = Some y) l l'.
Proof.
  induction 1 as [|x y l l' Hxy F IH]; constructor; [split; [exact Hxy|now exists 0%nat]|]. eapply F2_impl; [|exact IH]. cbv beta. intros a b (H & i & E1 & E2). split; [exact H|]. now exists (S i).
Qed.

Lemma sum_of {A} (R : A -> Q -> Prop) l qs : Forall2 R l qs -> forall g : A -> Q, (forall x q, In x l -> R x q -> (q == g x)%Q) -> (qsum qs == qsum (map g l))%Q.
Proof.
  induction 1 as [|x q l qs H F IH]; intros g Hg; [reflexivity|]. cbn [map]. rewrite !qsum_cons. apply Qplus_comp; [apply Hg; [now left|exact H]|]. apply IH. intros y z I. apply Hg. now right.
Qed.

Lemma spatial_keys ly r ir pr ops sp counts : build_spatial ly r ir pr ops sp = Ok counts -> keys counts = ops.
Proof.
  unfold build_spatial. intros Q. apply rbind_Ok in Q. destruct Q as (reform & _ & Q). apply rbind_Ok in Q. destruct Q as (per & Ep & Q).
  apply rbind_Ok in Q. destruct Q as (bottom & _ & Q). apply rbind_Ok in Q. destruct Q as (u & _ & Q).
  apply rmap_Forall2 in Ep. apply rmap_Forall2 in Q. unfold keys.
  assert (K1 : map fst per = ops).
  { clear - Ep. induction Ep as [|op x ops per Hx F IH]; [reflexivity|]. cbn [map]. f_equal; [|exact IH]. apply rbind_Ok in Hx. destruct Hx as (? & _ & Hx). apply rbind_Ok in Hx. destruct Hx as (? & _ & Hx). now injection Hx as <-. }
  rewrite <- K1. clear - Q. induction Q as [|x y per counts Hx F IH]; [reflexivity|]. cbn [map]. f_equal; [|exact IH]. apply rbind_Ok in Hx. destruct Hx as (? & _ & Hx). now injection Hx as <-.
Qed.

Lemma words_none mn mx reps n : (0 < mn)%Z -> (0 < mx)%Z -> words 0 mn mx reps n <-> n = 0%Z.
Proof.
  intros H1 H2. unfold words. split.
  - intros (w & (A & B) & C & D). assert (w = 0%Z) by nia. subst w. nia.
  - intros ->. exists 0%Z. nia.
Qed.

Lemma width_same d op k b b' : width d op k b -> width d op k b' -> b = b'.
Proof. intros (f & A & B) (f' & A' & B'). congruence. Qed.

Section Energy.
  Variables (rq : request) (fuel pc : nat) (ms : list memspec).
  Hypothesis V : valid_request rq.
  Hypothesis SH : sound_hardware rq pc ms.
  Hypothesis HF : (passes_bound (rq_temporal rq) <= fuel)%nat.
  Hypothesis HW : whole_request rq.
  Hypothesis HS : (1 <= rq_size_out rq)%Z.
  Let SL := vr_layer rq V.
  Let TF := vr_temporal rq V.
  Let h := rq_hierarchy rq.
  Let E : build pc ms = Ok h := sh_built rq pc ms SH.
  Let N : names_once ms := proj1 (sh_once rq pc ms SH).
  Let G : heights_grow h := sh_order rq pc ms SH.

  (** What an evaluation is prepared from *)
  Record parts (ci : inputs) (st : dict string tmlevels) (mac : dict string Z) (counts : dict string opcounts) : Prop := {
    pa_same : in_ops ci = rq_ops rq /\ in_links ci = rq_links rq /\ in_macs ci = rq_macs rq /\ in_mac_cost ci = rq_mac_cost rq;
    pa_hier : (forall op, holders h op <> [] -> dget op (in_hier ci) = Some (map lv_mem (holders h op))) /\
      (forall op ls, In (op, ls) (in_hier ci) -> ls = map lv_mem (holders h op));
    pa_counts : in_unit_count ci = map (fun kv => (fst kv, unit_count (snd kv))) counts /\ keys counts = rq_ops rq;
    pa_timed : exists cabl total ord counts', timed rq st mac cabl total ord /\ mapped rq total ord (in_map ci) /\
      wired rq (rq_spatial rq) counts st mac total (in_map ci) /\ mapped rq total ord (in_map_int ci) /\
      wired rq (rq_spatial_int rq) counts' st mac total (in_map_int ci) /\ in_total ci = total;
    pa_rest : in_inputs ci = rq_inputs rq /\ in_out ci = rq_out rq /\ in_levels ci = map lv_mem (h_list h) /\ in_cpo ci = rq_cpo rq;
    pa_sharing : forall g, In g (in_sharing ci) <-> exists l, In l (h_list h) /\ g = lv_dict l /\ (1 < length (lv_dict l))%nat }.

  Lemma parts_of ci : prepare rq fuel = Ok ci -> exists st mac counts, parts ci st mac counts.
  Proof.
    destruct (temporal_built rq fuel SL TF HF _ (vr_spatial rq V)) as (st & mac & cabl & total & ord & Et & TI).
    destruct (spatial_built rq SL TF _ (vr_spatial rq V)) as (counts & Ec & CT). destruct (spatial_built rq SL TF _ (vr_spatial_int rq V)) as (counts' & Ec' & CT').
    destruct (accelerator_ok pc ms h E G) as (hd & sharing & Ea & Hd & Hall & Hsh).
    assert (RB := fun op tm lv => read_ok rq fuel pc ms V SH HF hd op tm lv Hd).
    destruct (mapping_built rq SL TF hd _ counts st mac cabl total ord (vr_spatial rq V) CT TI RB) as (res & Er & MP & WR).
    destruct (mapping_built rq SL TF hd _ counts' st mac cabl total ord (vr_spatial_int rq V) CT' TI RB) as (res' & Er' & MP' & WR').
    unfold prepare. fold h. rewrite Et. cbn [rbind]. rewrite Ec. cbn [rbind]. rewrite Ec'. cbn [rbind]. rewrite Ea. cbn [rbind]. rewrite Er. cbn [rbind]. rewrite Er'. cbn [rbind snd].
    intros Q. injection Q as <-. exists st, mac, counts. constructor; cbn [in_ops in_links in_macs in_mac_cost in_hier in_unit_count in_map in_map_int in_total in_inputs in_out in_levels in_cpo in_sharing].
    - now repeat (split; [reflexivity|]).
    - now split.
    - split; [reflexivity|]. exact (spatial_keys _ _ _ _ _ _ _ Ec).
    - exists cabl, total, ord, counts'. now repeat (split; [assumption|]).
    - now repeat (split; [reflexivity|]).
    - exact Hsh.
  Qed.

  Lemma memories_held mem_op : Forall2 (fun m l => described m l /\ exists i, nth_error ms i = Some m /\ nth_error (h_list h) i = Some l) (memories_for ms mem_op) (holders h mem_op).
  Proof.
    apply F2_filter; [exact (F2_at _ _ _ (proj2 (build_inv pc ms h E)))|]. intros m l ((Q & _) & _). now rewrite Q.
  Qed.

  (** What happens to an operand at a level in a direction *)
  Definition in_row (op : string) (su : list (list (string * Q))) (tm : list (list (string * Z))) (lv : nat) (p : pattern) (units : Z) (k : direction) : Prop :=
    (still p k /\ ~ moving rq op su tm lv k) \/
    (moving rq op su tm lv k /\ exists b same, bits_moved rq op su tm lv k b /\ same_data rq op tm lv k same /\
       moved_row (rq_layer rq) op su tm (top_sizes (reuse_dims (rq_ir rq) op) tm) (cycles (concat tm)) p k (fst (inside k lv)) (snd (inside k lv)) same units b
         (towards_array k -> no_overlap (rq_layer rq) (rq_pr rq) op su lv)).

  (** The operand as mapped, with its tiles *)
  Lemma mapped_tiles sp counts st mac cabl total ord res op mem_op : timed rq st mac cabl total ord -> mapped rq total ord res -> wired rq sp counts st mac total res ->
    (forall su tm, dget op sp = Some su -> dget op (rq_temporal rq) = Some tm -> whole_sizes (whole_nest su tm)) ->
    dget op (lk_data (rq_links rq)) = Some mem_op -> exists su tm tm' od ps,
    dget op sp = Some su /\ dget op (rq_temporal rq) = Some tm /\ merged_down (reuse_dims (rq_ir rq) op) tm tm' /\ dget op st = Some tm' /\
    dget op res = Some (od, ps) /\ length ps = length tm' /\ length ps = length (holders h mem_op) /\ ps <> [] /\
    (forall p a k x, In p ps -> entry p a k = Some x -> (0 <= x)%Z) /\ (forall b, In b (od_bit_unrolled od) -> (0 <= b)%Z) /\
    exists c, dget op counts = Some c /\ length (unit_count c) = S (length ps) /\ (forall u, In u (unit_count c) -> (0 <= u)%Z) /\
    forall lv p units k, nth_error ps lv = Some p -> nth_error (unit_count c) (S lv) = Some units -> in_row op su tm' lv p units k /\
        exists b, bits_moved rq op su tm' lv RdHigh b /\ kept (rq_layer rq) op su tm' (top_sizes (reuse_dims (rq_r rq) op) tm') od (S lv) b.
  Proof.
    intros TI MP (ois & flags & rb & GM & Eb & Hois) HWo Hl. destruct (linked rq V op mem_op Hl) as (Io & Ik & tm & Et & Ll & Ne & _).
    destruct (Hois op Io) as (oi & Iois & Es & Ec & Est & Em & Etop & Etopr).
    destruct (ti_merged _ _ _ _ _ _ TI op tm _ _ Et Est Em) as (Mg & Lp).
    destruct (ti_op _ _ _ _ _ _ TI op tm Et) as (ls & m & cyc & Els & Em' & _ & Lls & Cls & Cord & Pm & _).
    rewrite Est in Els. injection Els as <-. rewrite Em in Em'. injection Em' as <-.
    assert (Dv : (oi_mac_stationary oi | total)%Z) by (rewrite (ti_total _ _ _ _ _ _ TI); now apply prefix_total).
    destruct (mp_op _ _ _ _ MP op tm Et) as (od & ps & oi' & Er & U & Lps & _).
    exists (oi_spatial oi), tm, (oi_temporal oi), od, ps. split; [exact Es|]. split; [exact Et|]. split; [exact Mg|]. split; [exact Est|]. split; [exact Er|]. split; [congruence|]. split; [fold h in Ll; congruence|].
    split; [intros Q; rewrite Q in Lps; destruct tm; [easy|discriminate]|].
    split; [intros p a k x Ip Ex; destruct (uf_attr _ _ _ _ _ _ _ U p a k Ip) as (y & Ey & Hy); congruence|].
    split; [exact (uf_nonneg _ _ _ _ _ _ _ U)|].
    assert (HW' : whole_sizes (whole_nest (oi_spatial oi) (oi_temporal oi))).
    { rewrite whole_nest_flat, Cls, <- whole_nest_flat. now apply HWo. }
    exists (oi_counts oi). split; [exact Ec|]. split.
    { destruct (gt_counts _ _ _ _ _ _ (gm_tables _ _ _ _ _ _ _ _ GM op oi Iois)) as (ls' & r0 & _ & _ & Hc). rewrite (proj1 (rc_levels _ _ _ _ _ Hc)), (proj1 (go_levels _ _ _ _ _ _ (gm_good _ _ _ _ _ _ _ _ GM op oi Iois))). congruence. }
    split.
    { intros u Iu. apply In_nth_error in Iu. destruct Iu as (j & Eu). pose proof (units_whole _ _ _ _ _ _ _ _ GM op oi Iois HW' j u Eu) as Q.
      assert (G1 : (1 <= unrolled_from j (oi_spatial oi))%Q).
      { apply (Proof_MappingLoops.iterations_ge_1). intros x Hx. apply (go_sizes _ _ _ _ _ _ (gm_good _ _ _ _ _ _ _ _ GM op oi Iois)). apply (outside_in _ _ 0 j). unfold outside. apply in_or_app. now right. }
      rewrite <- Q in G1. change 1%Q with (inject_Z 1) in G1. rewrite <- Zle_Qle in G1. lia. }
    intros lv p units k Ep Eu. destruct (proj2 (sl_precision rq SL) op Io) as (prec & Eprec & Pprec).
    assert (Et' : total = cycles (concat tm)) by (rewrite (ti_total _ _ _ _ _ _ TI), <- Cord, <- Cls; reflexivity). unfold in_row. rewrite Cls, <- Et', <- Etop, <- Etopr.
    destruct Ik as [Ik|Ik].
    - subst op. destruct (go_relevancy _ _ _ _ _ _ (gm_good _ _ _ _ _ _ _ _ GM _ oi Iois)) as (r & ir & _ & Ei & _).
      assert (Hnp : ~ In (rq_out rq) (rq_pr rq)) by (intros I; now apply (sl_pr rq SL (rq_out rq))).
      assert (Hni := out_not_input rq SL).
      destruct (output_tiles _ _ _ _ _ _ _ _ _ _ _ _ GM flags _ Eb oi od ps ir prec Hnp HS Iois Er HW' Dv Ei Eprec Pprec (proj1 (sl_precision rq SL)) lv p units Ep Eu) as (f & f' & Ff & Ff' & R0 & R1 & R2 & R3 & R4 & R5).
      assert (Hlt : (lv < length (oi_temporal oi))%nat) by (rewrite <- Lls in Lps; rewrite <- Lps; apply nth_error_Some; congruence).
      assert (Sd : forall k, same_data rq (rq_out rq) (oi_temporal oi) lv k 1) by (intros k'; split; [intros (_ & I & _); contradiction|reflexivity]).
      assert (Ri : reuse_dims (rq_ir rq) (rq_out rq) = ir) by (unfold reuse_dims; now rewrite Ei).
      assert (Bm : forall k' (g : bool), (g = true <-> partial_sums rq (oi_spatial oi) (oi_temporal oi) lv k') -> bits_moved rq (rq_out rq) (oi_spatial oi) (oi_temporal oi) lv k' (if g then prec else l_final_precision (rq_layer rq))).
      { intros k' g Hg. split; [intros [I|(_ & I)]; [contradiction|]; apply Hg in I; now rewrite I|]. intros _ I. destruct g; [now destruct I; apply Hg|reflexivity]. }
      assert (Pl : forall k', towards_array k' -> (f = true <-> partial_sums rq (oi_spatial oi) (oi_temporal oi) lv k')).
      { intros k' [-> | ->]; unfold partial_sums; cbn [inside fst]; rewrite Ri; exact Ff. }
      assert (Ph : forall k', k' = RdHigh \/ k' = WrHigh -> (f' = true <-> partial_sums rq (oi_spatial oi) (oi_temporal oi) lv k')).
      { intros k' [-> | ->]; unfold partial_sums; cbn [inside fst]; rewrite Ri; exact Ff'. }
      split; [|exists (if f' then prec else l_final_precision (rq_layer rq)); split; [exact (Bm RdHigh f' (Ph RdHigh (or_introl eq_refl)))|exact R0]].
      destruct k; cbn [inside fst snd].
      + destruct f; [right|left].
        * split; [right; split; [reflexivity|]; right; left; split; [reflexivity|]; apply (Pl RdLow); [now left|reflexivity]|].
          exists prec, 1%Z. split; [exact (Bm RdLow true (Pl RdLow (or_introl eq_refl)))|]. split; [apply Sd|].
          destruct (R3 eq_refl) as (a & n & A1 & A2 & A3 & A4 & A5). exists a, n. repeat (split; [assumption|]). split; [intros O; apply A4, O; now left|assumption].
        * split; [now apply R2|]. intros [(I & _)|(_ & [Q|[(_ & Q)|(_ & [Q|(Q & _)])]])]; try discriminate; [contradiction|]. apply (Pl RdLow) in Q; [discriminate|now left].
      + right. split; [right; split; [reflexivity|]; now left|]. exists (if f then prec else l_final_precision (rq_layer rq)), 1%Z. split; [exact (Bm WrLow f (Pl WrLow (or_intror eq_refl)))|]. split; [apply Sd|].
        destruct R1 as (a & n & A1 & A2 & A3 & A4 & A5). exists a, n. repeat (split; [assumption|]). split; [intros O; apply A4, O; now right|assumption].
      + destruct (Nat.eq_dec (S lv) (length (oi_temporal oi))) as [T|T].
        * left. split; [now apply R4|]. intros [(I & _)|(_ & [Q|[(Q & _)|(Q & _)]])]; try discriminate; [contradiction|lia].
        * right. split; [right; split; [reflexivity|]; right; right; split; [lia|now left]|]. exists (if f' then prec else l_final_precision (rq_layer rq)), 1%Z.
          split; [exact (Bm RdHigh f' (Ph RdHigh (or_introl eq_refl)))|]. split; [apply Sd|].
          destruct (R5 T) as ((a & n & A1 & A2 & A3 & A4 & A5) & _). exists a, n. repeat (split; [assumption|]). split; [intros _; now apply A4|assumption].
      + destruct (Nat.eq_dec (S lv) (length (oi_temporal oi))) as [T|T].
        * left. split; [now apply R4|]. intros [(I & _)|(_ & [Q|[(Q & _)|(Q & _)]])]; try discriminate; [contradiction|lia].
        * destruct (R5 T) as (_ & B1 & B2). destruct f'; [right|left].
          -- split; [right; split; [reflexivity|]; right; right; split; [lia|]; right; split; [reflexivity|]; apply (Ph WrHigh); [now right|reflexivity]|].
             exists prec, 1%Z. split; [exact (Bm WrHigh true (Ph WrHigh (or_intror eq_refl)))|]. split; [apply Sd|].
             destruct (B2 eq_refl) as (a & n & A1 & A2 & A3 & A4 & A5). exists a, n. repeat (split; [assumption|]). split; [intros _; now apply A4|assumption].
          -- split; [now apply B1|]. intros [(I & _)|(_ & [Q|[(Q & _)|(_ & [Q|(_ & Q)])]])]; try discriminate; [contradiction|]. apply (Ph WrHigh) in Q; [discriminate|now right].
    - assert (Ho : op <> rq_out rq) by (intros Q; subst op; now apply (out_not_input rq SL)).
      destruct (input_tiles _ _ _ _ _ _ _ _ _ _ _ _ GM flags _ Eb op oi od ps prec Iois Ik Er HW' Dv Eprec Pprec lv p units Ep Eu) as (R1 & R2 & R3 & R4 & R5 & R0).
      assert (Hlt : (lv < length (oi_temporal oi))%nat) by (rewrite <- Lls in Lps; rewrite <- Lps; apply nth_error_Some; congruence).
      assert (Bm : forall k', bits_moved rq op (oi_spatial oi) (oi_temporal oi) lv k' prec) by (intros k'; split; [intros _; exact Eprec|intros Q; contradiction]).
      split; [|exists prec; split; [apply Bm|exact R0]].
      destruct k; cbn [inside fst snd].
      + right. split; [left; split; [exact Ik|now left]|]. exists prec, (saved (rq_inputs rq) (rq_free rq) op oi lv). split; [apply Bm|]. split.
        * unfold same_data, saved. split.
          -- intros (F1 & _ & F2 & _). subst lv. rewrite F1, (proj2 (memb_In op (rq_inputs rq)) Ik). cbn [andb Nat.eqb]. rewrite Cls. exact Lp.
          -- intros F. destruct (rq_free rq); [|reflexivity]. destruct (Nat.eqb_spec lv 0) as [Q|Q]; [|now rewrite andb_false_r]. exfalso. apply F. now repeat (split; [assumption || reflexivity|]).
        * destruct R3 as (a & n & A1 & A2 & A3 & A4 & A5). exists a, n. repeat (split; [assumption|]). split; [intros O; apply A4, O; now left|assumption].
      + left. split; [exact R1|]. intros [(_ & [Q|(Q & _)])|(Q & _)]; try discriminate. contradiction.
      + left. split; [exact R2|]. intros [(_ & [Q|(Q & _)])|(Q & _)]; try discriminate. contradiction.
      + destruct (Nat.eq_dec (S lv) (length (oi_temporal oi))) as [T|T].
        * left. split; [now apply R4|]. intros [(_ & [Q|(_ & Q)])|(Q & _)]; try discriminate; [lia|contradiction].
        * right. split; [left; split; [exact Ik|]; right; split; [reflexivity|lia]|]. exists prec, 1%Z. split; [apply Bm|]. split.
          -- split; [intros (_ & _ & _ & Q); discriminate|reflexivity].
          -- destruct (R5 T) as (a & n & A1 & A2 & A3 & A4 & A5). exists a, n. repeat (split; [assumption|]). split; [intros _; now apply A4|assumption].
  Qed.

  Section Prepared.
    Variables (ci : inputs) (st : dict string tmlevels) (mac : dict string Z) (counts : dict string opcounts).
    Hypothesis P : parts ci st mac counts.

    Lemma held op mem_op : dget op (lk_data (rq_links rq)) = Some mem_op -> dget mem_op (in_hier ci) = Some (map lv_mem (holders h mem_op)).
    Proof.
      intros Hl. apply (proj1 (pa_hier _ _ _ _ P)). intros Q. destruct (linked rq V op mem_op Hl) as (_ & _ & tm & _ & Ll & Ne & _). fold h in Ll. rewrite Q in Ll. destruct tm; [easy|discriminate].
    Qed.

    (** The operand as mapped, with its tiles *)
    Lemma operand_tiles op mem_op : dget op (lk_data (rq_links rq)) = Some mem_op -> exists su tm tm' od ps,
      dget op (rq_spatial rq) = Some su /\ dget op (rq_temporal rq) = Some tm /\ merged_down (reuse_dims (rq_ir rq) op) tm tm' /\
      dget op (in_map ci) = Some (od, ps) /\ length ps = length tm' /\ length ps = length (holders h mem_op) /\ ps <> [] /\
      (forall p a k x, In p ps -> entry p a k = Some x -> (0 <= x)%Z) /\
      exists uc, dget op (in_unit_count ci) = Some uc /\ length uc = S (length ps) /\ (forall u, In u uc -> (0 <= u)%Z) /\
      forall lv p units k, nth_error ps lv = Some p -> nth_error uc (S lv) = Some units -> in_row op su tm' lv p units k.
    Proof.
      intros Hl. destruct (pa_timed _ _ _ _ P) as (cabl & total & ord & counts' & TI & MP & WR & _).
      destruct (mapped_tiles _ _ _ _ _ _ _ _ op mem_op TI MP WR (HW op) Hl) as (su & tm & tm' & od & ps & A1 & A2 & A3 & _ & A4 & A5 & A6 & A7 & A8 & _ & c & Ec & Rest).
      exists su, tm, tm', od, ps. repeat (split; [assumption|]). exists (unit_count c). destruct (pa_counts _ _ _ _ P) as (-> & _). split; [now rewrite dget_mapped, Ec|].
      destruct Rest as (B1 & B2 & B3). split; [exact B1|]. split; [exact B2|]. intros lv p u k Ep Eu. exact (proj1 (B3 lv p u k Ep Eu)).
    Qed.

    Lemma linked_op op : In op (rq_ops rq) -> dget op (lk_data (rq_links rq)) = Some (stored_as rq op).
    Proof.
      intros I. apply (proj2 (sl_operands rq SL op)) in I. destruct (key_dget _ _ I) as (m & Em). unfold stored_as. now rewrite Em.
    Qed.

    Lemma inputs_sound : sound_inputs ci.
    Proof.
      destruct (pa_timed _ _ _ _ P) as (cabl & total & ord & counts2 & _ & MP & _). destruct (pa_counts _ _ _ _ P) as (Ec & Kc).
      constructor.
      - intros op od ps p I Ip a k x Ex. destruct (row_linked rq V _ _ _ op (od, ps) MP (or_introl I)) as (D & mem_op & Hl).
        destruct (operand_tiles op mem_op Hl) as (su & tm & tm' & od' & ps' & _ & _ & _ & D' & _ & _ & _ & Pos & _). rewrite D in D'. injection D' as <- <-. exact (Pos p a k x Ip Ex).
      - intros op uc u I Iu. assert (D : dget op (in_unit_count ci) = Some uc).
        { apply In_dget; [|exact I]. rewrite Ec. unfold keys. rewrite map_map. cbn [fst]. change (NoDup (keys counts)). rewrite Kc. exact (proj1 (sl_once rq SL)). }
        assert (Io : In op (rq_ops rq)). { rewrite <- Kc. rewrite Ec in I. apply in_map_iff in I. destruct I as ((op' & c) & Q & I). injection Q as <- _. apply in_map_iff. now exists (op', c). }
        destruct (operand_tiles op _ (linked_op op Io)) as (su & tm & tm' & od' & ps' & _ & _ & _ & _ & _ & _ & _ & _ & uc' & D' & _ & Pos & _). rewrite D in D'. injection D' as <-. now apply Pos.
      - intros op msl m mem_op k b I Im Hw. rewrite (proj2 (pa_hier _ _ _ _ P) op msl I) in Im. apply in_map_iff in Im. destruct Im as (l & <- & Il).
        unfold holders in Il. apply filter_In in Il. destruct Il as (Il & _). apply In_nth_error in Il. destruct Il as (i & Ei). destruct (described_at pc ms h E i l Ei) as (d & Ed & Dd).
        assert (St : stores mem_op l).
        { exact (width_stored pc ms h E i l mem_op k _ Ei Hw). }
        destruct (level_widths pc ms h E N i d l mem_op k Ed Ei St) as [(p & M & Ip & W1 & W2)|(M & W1 & W2)].
        + destruct (sh_widths rq pc ms SH d p (nth_error_In _ _ Ed) Ip) as (B1 & B2). destruct Hw as [Hw|Hw]; [pose proof (width_same _ _ _ _ _ Hw W1) as Q|pose proof (width_same _ _ _ _ _ Hw W2) as Q]; now injection Q as ->.
        + destruct Hw as [Hw|Hw]; [pose proof (width_same _ _ _ _ _ Hw W1) as Q|pose proof (width_same _ _ _ _ _ Hw W2) as Q]; discriminate.
    Qed.

    Lemma moving_needed op mem_op su tm lv k : dget op (lk_data (rq_links rq)) = Some mem_op -> length tm = length (holders h mem_op) -> moving rq op su tm lv k ->
      needed rq op (S lv < length (holders h mem_op))%nat k.
    Proof. intros Hl L [(I & H)|(I & H)]; [left|right]; (split; [exact I|]); rewrite <- L; tauto. Qed.

    Lemma port_of op lv m l i k : dget op (lk_data (rq_links rq)) = Some (stored_as rq op) -> nth_error (holders h (stored_as rq op)) lv = Some l ->
      nth_error ms i = Some m -> nth_error (h_list h) i = Some l -> needed rq op (S lv < length (holders h (stored_as rq op)))%nat k ->
      exists p, moved_by m (stored_as rq op) k p /\ width (ml_bw_max (lv_mem l)) (stored_as rq op) k (Some (ps_bw_max p)) /\
        width (ml_bw_min (lv_mem l)) (stored_as rq op) k (Some (ps_bw_min p)) /\ (0 < ps_bw_max p)%Z /\ (0 < ps_bw_min p)%Z.
    Proof.
      intros Hl El Em Ei Hn. destruct (numbered pc ms h E (stored_as rq op) lv l El) as (_ & S0 & _).
      destruct (level_widths pc ms h E N i m l (stored_as rq op) k Em Ei S0) as [(p & M & Ip & W1 & W2)|(_ & W1 & W2)].
      - exists p. destruct (sh_widths rq pc ms SH m p (nth_error_In _ _ Em) Ip). now repeat (split; [assumption|]).
      - exfalso. destruct (widths_at rq fuel pc ms SH HF op (stored_as rq op) lv l k Hl El) as [(_ & _ & Q)|(mx & mn & Q1 & _)]; [now apply Q|].
        pose proof (width_same _ _ _ _ _ Q1 W1). discriminate.
    Qed.

    (** The counts at the memories of an operand *)
    Lemma counts_right acc op fs : calc_memory_word_access ci = Ok acc -> In (op, fs) acc -> In op (rq_ops rq) ->
      length fs = length (holders h (stored_as rq op)) /\
      right_accesses rq ms op (stored_as rq op) (fun lv k => match nth_error fs lv with Some f => count_in f k | None => 0%Z end).
    Proof.
      intros Ea I Io. assert (Hl := linked_op op Io). destruct (words_all ci acc inputs_sound Ea) as (W1 & _ & W3).
      destruct (operand_tiles op _ Hl) as (su & tm & tm' & od & ps & Esu & Et & Mg & Eps & Lps & Lh & _ & _ & uc & Euc & Luc & _ & Cases).
      destruct (W1 op fs I) as (_ & od0 & ps0 & Eps0 & Lfs). rewrite Eps in Eps0. injection Eps0 as <- <-.
      split; [congruence|]. exists su, tm, tm'. split; [exact Esu|]. split; [exact Et|]. split; [exact Mg|].
      intros lv m k Em Hno. destruct (F2_nth_r _ _ _ (memories_held (stored_as rq op)) lv m Em) as (l & El & Dl & i & Emi & Ei).
      assert (Lt : (lv < length (holders h (stored_as rq op)))%nat) by (apply nth_error_Some; congruence).
      destruct (nth_lt fs lv) as (f & Ef); [lia|]. rewrite Ef. destruct (W3 op fs lv f I Ef) as (Cf & Rf). destruct (Cf k) as (n & En). assert (R := Rf k n En).
      replace (count_in f k) with n by (unfold count_in; now rewrite En).
      destruct R as (mem_op & msl & ml & od' & ps' & p & a & prec & c & R1 & R2 & R3 & R4 & R5 & R6 & R7 & R8 & R9).
      rewrite (proj1 (proj2 (pa_same _ _ _ _ P))), Hl in R1. injection R1 as <-. rewrite (held op _ Hl) in R2. injection R2 as <-. rewrite nth_error_map, El in R3. cbn [option_map] in R3. injection R3 as <-.
      rewrite Eps in R4. injection R4 as <- <-.
      destruct (nth_lt uc (S lv)) as (u & Eu); [lia|].
      destruct (Cases lv p u k R5 Eu) as [(St & Nm)|(Mv & b & same & Hb & Hsame & a' & c' & A1 & A2 & A3 & A4 & A5)].
      - split; [intros _|contradiction]. destruct St as (St & _). rewrite R6 in St. injection St as ->.
        destruct R9 as [(_ & Q)|(mx & mn & uc2 & u2 & Q1 & Q2 & Q3 & Q4 & Q5)]; [exact Q|]. cbn [Z.mul] in Q5.
        destruct (widths_at rq fuel pc ms SH HF op (stored_as rq op) lv l k Hl El) as [(X & _)|(mx' & mn' & X1 & X2 & B1 & B2)]; [pose proof (width_same _ _ _ _ _ Q1 X); discriminate|].
        pose proof (width_same _ _ _ _ _ Q1 X1) as X. injection X as ->. pose proof (width_same _ _ _ _ _ Q2 X2) as X. injection X as ->. now apply words_none in Q5.
      - split; [contradiction|]. intros _. rewrite R6 in A1. injection A1 as <-. rewrite R8 in A2. injection A2 as <-. rewrite R7 in A3. injection A3 as <-.
        destruct (port_of op lv m l i k Hl El Emi Ei (moving_needed op _ su tm' lv k Hl ltac:(congruence) Mv)) as (pt & Mp & W5 & W6 & B1 & B2).
        exists pt, prec, a, same, (c * u)%Z. split; [exact Mp|]. split; [exact Hb|]. split; [exact Hsame|]. split; [now apply A4|]. split; [exact (proj1 A5)|].
        destruct R9 as [(Q1 & ->)|(mx & mn & uc2 & u2 & Q1 & Q2 & Q3 & Q4 & Q5)]; [rewrite Q1; now apply words_none|].
        rewrite Euc in Q3. injection Q3 as <-. rewrite Eu in Q4. injection Q4 as <-.
        pose proof (width_same _ _ _ _ _ Q1 W5) as X. injection X as ->. pose proof (width_same _ _ _ _ _ Q2 W6) as X. injection X as ->. exact Q5.
    Qed.

    Lemma all_counted acc : calc_memory_word_access ci = Ok acc -> keys acc = rq_ops rq.
    Proof.
      intros Ea. unfold calc_memory_word_access in Ea. apply rbind_Ok in Ea. destruct Ea as (all & Er & Ea). injection Ea as <-. rewrite (proj1 (pa_same _ _ _ _ P)) in Er.
      apply rmap_Forall2 in Er. assert (K : forall op x, In op (rq_ops rq) -> (a <- word_accesses_of ci op ;; Ok (op, a))%result = Ok x -> fst x = op /\ snd x <> []).
      { intros op x I Q. apply rbind_Ok in Q. destruct Q as (fs & Ef & Q). injection Q as <-. cbn [fst snd]. split; [reflexivity|]. assert (Hl := linked_op op I).
        destruct (operand_tiles op _ Hl) as (su & tm & tm' & od & ps & _ & _ & _ & Eps & _ & _ & Ne & _). unfold word_accesses_of in Ef. apply rbind_Ok in Ef. destruct Ef as (mo & _ & Ef).
        unfold Model_Cost.levels_of in Ef. apply rbind_Ok in Ef. destruct Ef as (n & En & Ef). apply rbind_Ok in En. destruct En as (y & Ey & En). apply dgetr_Ok in Ey. rewrite Eps in Ey. injection Ey as <-. cbn [snd] in En. injection En as <-.
        apply rmap_Forall2 in Ef. apply F2_len in Ef. rewrite seq_length in Ef. intros ->. destruct ps; [easy|discriminate]. }
      clear - Er K. unfold keys. induction Er as [|op x ops all Hx F IH]; [reflexivity|]. destruct (K op x (or_introl eq_refl) Hx) as (K1 & K2). cbn [filter map]. destruct (snd x) as [|f fs] eqn:Es; [easy|].
      cbn [map]. f_equal; [exact K1|]. apply IH. intros o y I. apply K. now right.
    Qed.
  End Prepared.

  Lemma spent_sum (n : nat -> direction -> Z) msl ls : Forall2 (fun m l => described m l /\ exists i, nth_error ms i = Some m /\ nth_error (h_list h) i = Some l) msl ls ->
    forall o fs, length fs = length ls -> (forall i f k, nth_error fs i = Some f -> n (o + i)%nat k = count_in f k) ->
    (spent_all (map lv_mem ls) fs == qsum (map (fun x => qsum (map (fun k => inject_Z (n (fst x) k) * cost_of (snd x) k) [RdLow; WrLow; RdHigh; WrHigh])) (combine (seq o (length msl)) msl)))%Q.
  Proof.
    induction 1 as [|m l msl ls ((_ & _ & D1 & D2 & _) & _) F IH]; intros o fs L Hn; destruct fs as [|f fs]; try discriminate; [reflexivity|].
    cbn [map spent_all seq combine length fst snd]. rewrite qsum_cons. apply Qplus_comp.
    - assert (Q := fun k => Hn 0%nat f k eq_refl). rewrite Nat.add_0_r in Q. unfold spent, dir_energy, access_cost. cbn [map]. rewrite !qsum_cons, !Q. cbn [cost_of]. rewrite D1, D2. unfold qsum. cbn [fold_right]. ring.
    - apply IH; [now injection L|]. intros i f' k Ef. specialize (Hn (S i) f' k Ef). now rewrite Nat.add_succ_r in Hn.
  Qed.

  Theorem energy_accounted e la : evaluation rq fuel = Ok (e, la) ->
    exists n : string -> nat -> direction -> Z,
      (e == rq_mac_cost rq * inject_Z (rq_macs rq) + qsum (map (fun op => spent_in (memories_for ms (stored_as rq op)) (n op)) (rq_ops rq)))%Q /\
      forall op, In op (rq_ops rq) -> right_accesses rq ms op (stored_as rq op) (n op).
  Proof.
    unfold evaluation. intros Q. apply rbind_Ok in Q. destruct Q as (ci & Ep & Q). destruct (parts_of ci Ep) as (st & mac & counts & P).
    unfold evaluate in Q. do 2 (apply rbind_Ok in Q; destruct Q as (? & _ & Q)). apply rbind_Ok in Q. destruct Q as (acc & Ea & Q).
    apply rbind_Ok in Q. destruct Q as ((((bd & further) & mem) & total) & Een & Q). apply rbind_Ok in Q. destruct Q as (la' & _ & Q). cbn [snd] in Q. injection Q as <- <-.
    assert (Kc := all_counted ci st mac counts P acc Ea).
    assert (Nd : NoDup (keys acc)) by (rewrite Kc; exact (proj1 (sl_once rq SL))).
    exists (fun op lv k => match dget op acc with Some fs => match nth_error fs lv with Some f => count_in f k | None => 0%Z end | None => 0%Z end). split.
    - rewrite (Proof_Energy.energy_total ci acc bd further mem total Een), (proj1 (proj2 (proj2 (pa_same _ _ _ _ P)))), (proj2 (proj2 (proj2 (pa_same _ _ _ _ P)))). apply Qplus_comp; [reflexivity|].
      destruct (energy_spends ci acc bd further mem total (words_good ci acc Ea) Een) as (qs & F & ->).
      rewrite <- Kc. unfold keys. rewrite map_map. apply (sum_of _ acc qs F). intros [op fs] q I (msl & (mem_op & Hl & Hm) & ->). cbn [fst snd] in *.
      assert (Io : In op (rq_ops rq)) by (rewrite <- Kc; apply (List.in_map fst _ _ I)). rewrite (proj1 (proj2 (pa_same _ _ _ _ P))), (linked_op op Io) in Hl. injection Hl as <-.
      rewrite (held ci st mac counts P op _ (linked_op op Io)) in Hm. injection Hm as <-. rewrite (In_dget _ _ _ Nd I).
      apply (spent_sum (fun lv k => match nth_error fs lv with Some f => count_in f k | None => 0%Z end) _ _ (memories_held (stored_as rq op)) 0 fs).
      + exact (proj1 (counts_right ci st mac counts P acc op fs Ea I Io)).
      + intros i f k Ef. cbn [Nat.add]. now rewrite Ef.
    - intros op Io. assert (Kx : In op (keys acc)) by (now rewrite Kc). destruct (key_dget _ _ Kx) as (fs & Ef). rewrite Ef. exact (proj2 (counts_right ci st mac counts P acc op fs Ea (dget_In _ _ _ Ef) Io)).
  Qed.
End Energy.
