(** The mappings of a valid request are built (C74). *)
From Coq Require Import QArith Lia.
From Verif Require Import Base Model_Alloc Model_Temporal Model_Decouple Model_SpatialInt Model_DataMove Model_Mapping Model_Links Model_Cost Model_Evaluate
  Spec_Alloc Spec_Decouple Spec_SpatialInt Spec_Temporal Spec_Mapping Spec_Cost Spec_Evaluate
  Proof_AllocSearch Proof_Bandwidth Proof_TemporalRun Proof_SpatialInt Proof_MappingMain Proof_EvalTotal Proof_EvalMapping.
Local Open Scope list_scope.
Local Open Scope Z_scope.

(** * Prefixes of an ordering *)
Definition prefix_product (ord : list tloop) (c : Z) : Prop := exists n, c = cycles (firstn n ord).

Lemma prefix_le ord n m : (n <= m)%nat -> (cycles (firstn n ord) | cycles (firstn m ord)).
Proof.
  intros H. rewrite <- (firstn_skipn n (firstn m ord)), firstn_firstn, Nat.min_l by exact H. rewrite cycles_app. now exists (cycles (skipn n (firstn m ord))); rewrite Z.mul_comm.
Qed.
Lemma prefix_divides ord a b : prefix_product ord a -> prefix_product ord b -> (a | b) \/ (b | a).
Proof.
  intros (n & ->) (m & ->). destruct (Nat.le_ge_cases n m) as [H|H]; [left|right]; now apply prefix_le.
Qed.
Lemma prefix_total ord a : prefix_product ord a -> (a | cycles ord).
Proof. intros (n & ->). rewrite <- (firstn_skipn n ord) at 2. rewrite cycles_app. now exists (cycles (skipn n ord)); rewrite Z.mul_comm. Qed.
Lemma prefix_pos ord a : (forall x, In x ord -> 1 <= snd x) -> prefix_product ord a -> 1 <= a.
Proof.
  intros H (n & ->). apply cycles_pos. intros d s I. apply (H (d, s)). rewrite <- (firstn_skipn n ord). apply in_or_app. now left.
Qed.
Lemma prefix_one ord : prefix_product ord 1.
Proof. now exists 0%nat. Qed.
Lemma lead_prefix dims l p : leading_product dims l p -> prefix_product l p.
Proof.
  induction 1 as [|x l N|x l p O L (n & ->)]; [now exists 0%nat|now exists 0%nat|]. exists (S n). cbn [firstn]. unfold cycles. cbn [map]. now rewrite zprod_cons.
Qed.
Lemma below_prefix k ls : prefix_product (concat ls) (cycles (below k ls)).
Proof.
  exists (length (below k ls)). f_equal. unfold below. rewrite <- (firstn_skipn k ls) at 3. rewrite concat_app, firstn_app, Nat.sub_diag, firstn_all. cbn [firstn]. now rewrite app_nil_r.
Qed.

(** * Tables *)
Lemma F2_dget {V W} (R : string -> V -> W -> Prop) (m : dict string V) (m' : dict string W) :
  Forall2 (fun kv kv' => fst kv' = fst kv /\ R (fst kv) (snd kv) (snd kv')) m m' ->
  forall op v, dget op m = Some v -> exists w, dget op m' = Some w /\ R op v w.
Proof.
  induction 1 as [|[k v0] [k' w0] m m' [E H] F IH]; intros op v D; [discriminate|]. cbn [fst snd] in *. subst k'. cbn [dget] in D |- *.
  destruct (eqb_spec op k) as [E|E]; [|now apply IH]. subst k. injection D as <-. eauto.
Qed.
Lemma F2_ops {W} (P : string -> W -> Prop) (ops : list string) (m' : dict string W) :
  Forall2 (fun op kc => fst kc = op /\ P op (snd kc)) ops m' -> forall op, In op ops -> exists w, dget op m' = Some w /\ P op w.
Proof.
  induction 1 as [|k [k' w0] m m' [E H] F IH]; intros op I; [destruct I|]. cbn [fst snd] in *. subst k'. cbn [dget].
  destruct (eqb_spec op k) as [E|E]; [subst k; eauto|]. destruct I as [I|I]; [congruence|]. now apply IH.
Qed.

(** * Levels *)
Lemma whole_nest_flat su tm : whole_nest su tm = map (fun x => (fst x, inject_Z (snd x))) (concat tm) ++ concat su.
Proof.
  unfold whole_nest, within. rewrite firstn_all. rewrite <- (map_length (map (fun x : string * Z => (fst x, inject_Z (snd x)))) tm), firstn_all. now rewrite concat_map.
Qed.
Lemma good_transfer ly r ir pr op oi oi' : good_operand ly r ir pr op oi -> oi_spatial oi' = oi_spatial oi ->
  length (oi_temporal oi') = length (oi_temporal oi) -> concat (oi_temporal oi') = concat (oi_temporal oi) -> good_operand ly r ir pr op oi'.
Proof.
  intros G Es El Ec. assert (W : whole_nest (oi_spatial oi') (oi_temporal oi') = whole_nest (oi_spatial oi) (oi_temporal oi)) by (now rewrite !whole_nest_flat, Es, Ec).
  destruct G as [G1 G2 G3 G4]. constructor.
  - rewrite Es, El. split; [exact (proj1 G1)|]. intros E. rewrite E in El. symmetry in El. apply length_zero_iff_nil in El. now apply (proj2 G1).
  - rewrite W. exact G2.
  - rewrite W. exact G3.
  - rewrite W. exact G4.
Qed.
Lemma top_sizes_ok dims ls : (forall x, In x (concat ls) -> 1 <= snd x) ->
  length (top_sizes dims ls) = S (length ls) /\ forall t, In t (top_sizes dims ls) -> 1 <= t.
Proof.
  intros H. unfold top_sizes. split; [cbn [length]; now rewrite map_length|]. intros t [<-|I]; [lia|]. apply in_map_iff in I. destruct I as (l & <- & I).
  assert (G : forall k, (forall x, In x k -> 1 <= snd x) -> 1 <= top_run dims k).
  { induction k as [|x k IH]; intros Hk; cbn [top_run]; [lia|]. destruct (memb (fst x) dims); [|lia]. assert (1 <= snd x) by (apply Hk; now left). assert (1 <= top_run dims k) by (apply IH; intros; apply Hk; now right). nia. }
  apply G. intros x Ix. apply H. apply in_concat. exists l. split; [exact I|now apply in_rev].
Qed.

Section Built.
  Variables (rq : request) (fuel : nat).
  Hypothesis SL : sound_layer rq.
  Hypothesis TF : temporal_fits rq.
  Hypothesis HF : (passes_bound (rq_temporal rq) <= fuel)%nat.

  Lemma in_ops_dget op : In op (rq_ops rq) -> exists tm, dget op (rq_temporal rq) = Some tm.
  Proof. intros I. apply key_dget. now apply (tf_operands rq TF). Qed.

  (** What the temporal mapping provides. *)
  Record timed (st : dict string tmlevels) (mac : dict string Z) (cabl : dict string (list Z)) (total : Z) (ord : list tloop) : Prop := {
    ti_total : total = cycles ord;
    ti_sizes : forall x, In x ord -> 1 <= snd x;
    ti_op : forall op tm, dget op (rq_temporal rq) = Some tm -> exists ls m cyc,
      dget op st = Some ls /\ dget op mac = Some m /\ dget op cabl = Some cyc /\ length ls = length tm /\ concat ls = concat tm /\
      concat tm = ord /\ prefix_product ord m /\ cycle_counts ls cyc;
    ti_merged : forall op tm ls m, dget op (rq_temporal rq) = Some tm -> dget op st = Some ls -> dget op mac = Some m ->
      merged_down (reuse_dims (rq_ir rq) op) tm ls /\ leading_product (reuse_dims (rq_ir rq) op) (concat tm) m }.

  Lemma temporal_built sp : spatial_fits rq sp -> exists st mac cabl total ord,
    build_temporal_mapping (rq_ir rq) fuel (rq_temporal rq) = Ok (st, mac, cabl, total) /\ timed st mac cabl total ord.
  Proof.
    intros SF. destruct (tf_loops rq TF) as (ord & Ho & Hc).
    assert (Hk : forall op, In op (keys (rq_temporal rq)) -> In op (keys (rq_ir rq))).
    { intros op I. destruct (key_dget _ _ I) as (tm & Et). destruct (sf_fits rq sp SF op tm Et) as (su & _ & oi & _ & _ & G).
      destruct (go_relevancy _ _ _ _ _ _ G) as (r & ir & _ & E & _). now apply dget_Some_key in E. }
    destruct (build_accepts (rq_ir rq) (rq_temporal rq) fuel (cycles ord) HF) as (st & mac & cabl & E).
    - intros E. assert (I : In (rq_out rq) (keys (rq_temporal rq))) by (apply (tf_operands rq TF); apply (proj2 (proj1 (sl_operands rq SL (rq_out rq)))); left; reflexivity). now rewrite E in I.
    - exact Hk.
    - intros op ls I. split; [|now rewrite (Hc op ls I)]. assert (Et := In_dget _ _ _ (tf_once rq TF) I).
      destruct (sf_fits rq sp SF op ls Et) as (su & _ & oi & _ & Eo & G). rewrite <- Eo. exact (proj2 (go_levels _ _ _ _ _ _ G)).
    - destruct (build_counts _ _ _ _ _ _ _ HF Hk E) as (_ & F1 & F2 & F3 & _). exists st, mac, cabl, (cycles ord), ord. split; [exact E|]. constructor; [reflexivity|exact Ho| |].
      2:{ intros op tm ls m Et Els Em.
        destruct (F2_dget (fun op a b => merged_down (reuse_dims (rq_ir rq) op) a b) _ _ F1 op tm Et) as (ls' & Els' & M).
        destruct (F2_dget (fun op a b => leading_product (reuse_dims (rq_ir rq) op) (concat a) b) _ _ F2 op tm Et) as (m' & Em' & Lp).
        rewrite Els in Els'. injection Els' as <-. rewrite Em in Em'. injection Em' as <-. now split. }
      intros op tm Et.
      destruct (F2_dget (fun op a b => merged_down (reuse_dims (rq_ir rq) op) a b) _ _ F1 op tm Et) as (ls & Els & M).
      destruct (F2_dget (fun op a b => leading_product (reuse_dims (rq_ir rq) op) (concat a) b) _ _ F2 op tm Et) as (m & Em & Lp).
      destruct (F2_dget (fun op a b => cycle_counts a b /\ nth_error b (length b - 1) = Some (cycles ord)) _ _ F3 op ls Els) as (cyc & Ec & Cc & _).
      destruct M as (M1 & M2 & _). assert (O := Hc op tm (dget_In _ _ _ Et)). exists ls, m, cyc. repeat (split; [assumption|]). split; [|exact Cc]. rewrite <- O. now apply lead_prefix in Lp.
  Qed.

  (** What the spatial mapping provides. *)
  Definition counted (sp : dict string qlevels) (counts : dict string opcounts) : Prop :=
    forall op, In op (rq_ops rq) -> exists su, dget op sp = Some su /\ exists c, dget op counts = Some c /\ exists su' r,
      dget op (rq_r rq) = Some r /\ decoupled_for (rq_layer rq) (rq_pr rq) op su su' /\ right_counts (rq_layer rq) r su su' c.

  Lemma spatial_built sp : spatial_fits rq sp -> exists counts,
    build_spatial (rq_layer rq) (rq_r rq) (rq_ir rq) (rq_pr rq) (rq_ops rq) sp = Ok counts /\ counted sp counts.
  Proof.
    intros SF.
    assert (SI : spatial_inputs (rq_layer rq) (rq_r rq) (rq_ir rq) (rq_pr rq) (rq_ops rq) sp).
    { split; [exact (sl_derived rq SL)|]. split; [intros op I; exact (proj1 (sl_pr rq SL op I))|]. intros op I. destruct (in_ops_dget op I) as (tm & Et).
      destruct (sf_fits rq sp SF op tm Et) as (su & Esu & oi & Es & _ & G). destruct (go_relevancy _ _ _ _ _ _ G) as (r & ir & Er & Ei & _ & _ & _ & _ & Hd & _).
      assert (GS := go_sizes _ _ _ _ _ _ G). rewrite whole_nest_flat in GS. rewrite Es in GS.
      exists su, r. split; [exact Esu|]. split; [|split; [exact Er|split]].
      - intros E. destruct (go_levels _ _ _ _ _ _ G) as (G1 & _). rewrite Es, E in G1. discriminate.
      - intros x Ix. apply GS. apply in_or_app. now right.
      - intros Ip x Ix. destruct (GS x (in_or_app _ _ _ (or_intror Ix))) as (A & B). split; [exact A|]. split; [exact B|]. intros p R Q. rewrite Ei in Q. now apply (Hd Ip (fst x) x p Q R). }
    destruct (build_spatial_accepts _ _ _ _ _ _ SI (sf_units rq sp SF)) as (counts & E). exists counts. split; [exact E|].
    assert (F := build_spatial_sound _ _ _ _ _ _ SI counts E). intros op I.
    destruct (F2_ops (fun op c => exists ls ls' r, dget op sp = Some ls /\ dget op (rq_r rq) = Some r /\ decoupled_for (rq_layer rq) (rq_pr rq) op ls ls' /\ right_counts (rq_layer rq) r ls ls' c) _ _ F op I)
      as (c & Ec & su & su' & r & E1 & E2 & E3 & E4). exists su. split; [exact E1|]. exists c. split; [exact Ec|]. now exists su', r.
  Qed.

  Lemma out_not_input : ~ In (rq_out rq) (rq_inputs rq).
  Proof.
    intros I. destruct (sl_inputs rq SL) as (_ & H). destruct (H _ I) as (m & E & Q). destruct (sl_output rq SL) as (m' & E' & N1 & N2). rewrite E in E'. injection E' as <-. now destruct Q.
  Qed.

  (** What a mapping provides. *)
  Record mapped (total : Z) (ord : list tloop) (res : dict string (opdata * list pattern)) : Prop := {
    mp_keys : keys res = rq_ops rq;
    mp_op : forall op tm, dget op (rq_temporal rq) = Some tm -> exists od ps oi, dget op res = Some (od, ps) /\
      unit_facts (rq_inputs rq) (rq_out rq) (rq_free rq) op oi od ps /\ length ps = length tm /\
      forall c, In c (cycle_each_level (rq_inputs rq) (rq_free rq) op oi) -> prefix_product ord c }.

  (** What a mapping is built from. *)
  Definition wired (sp : dict string qlevels) (counts : dict string opcounts) (st : dict string tmlevels) (mac : dict string Z) (total : Z)
      (res : dict string (opdata * list pattern)) : Prop :=
    exists ois flags rb,
      good_mapping (rq_layer rq) (rq_r rq) (rq_ir rq) (rq_pr rq) (rq_inputs rq) (rq_out rq) total ois /\
      build_mapping (rq_layer rq) (rq_r rq) (rq_ir rq) (rq_pr rq) (rq_inputs rq) (rq_out rq) (rq_macs rq) (rq_size_out rq) total (rq_free rq) rb ois = Ok (flags, res) /\
      forall op, In op (rq_ops rq) -> exists oi, In (op, oi) ois /\ dget op sp = Some (oi_spatial oi) /\ dget op counts = Some (oi_counts oi) /\
        dget op st = Some (oi_temporal oi) /\ dget op mac = Some (oi_mac_stationary oi) /\
        oi_top_ir oi = top_sizes (reuse_dims (rq_ir rq) op) (oi_temporal oi) /\ oi_top_r oi = top_sizes (reuse_dims (rq_r rq) op) (oi_temporal oi).

  Lemma mapping_built hd sp counts st mac cabl total ord : spatial_fits rq sp -> counted sp counts -> timed st mac cabl total ord ->
    (forall op tm lv, In op (rq_inputs rq) -> dget op (rq_temporal rq) = Some tm -> (lv < length tm)%nat -> exists b, read_bandwidth rq hd op lv = Ok b) ->
    exists res, mapping_of rq hd sp counts (st, mac, cabl, total) = Ok res /\ mapped total ord res /\ wired sp counts st mac total res.
  Proof.
    intros SF CT TI RB. destruct (sl_once rq SL) as (N1 & N2 & N3). unfold mapping_of.
    assert (Good : forall op, In op (rq_ops rq) -> exists tm oi, dget op (rq_temporal rq) = Some tm /\ opinput_of rq sp counts (st, mac, cabl, total) op = Ok (op, oi) /\
      good_operand (rq_layer rq) (rq_r rq) (rq_ir rq) (rq_pr rq) op oi /\ good_tables (rq_layer rq) (rq_r rq) (rq_pr rq) total op oi /\ length (oi_temporal oi) = length tm /\
      forall c, In c (cycle_each_level (rq_inputs rq) (rq_free rq) op oi) -> prefix_product ord c).
    { intros op I. destruct (in_ops_dget op I) as (tm & Et). exists tm. destruct (CT op I) as (su & Esu & c & Ec & su' & r & Er & Hd & Hr).
      destruct (ti_op _ _ _ _ _ TI op tm Et) as (ls & m & cyc & Els & Em & Ecy & Ll & Lc & Lo & Pm & Cc).
      destruct (sf_fits rq sp SF op tm Et) as (su0 & Esu0 & oi0 & Es0 & Et0 & G0). rewrite Esu in Esu0. injection Esu0 as <-.
      destruct (go_relevancy _ _ _ _ _ _ G0) as (r0 & ir & Er0 & Ei & _). rewrite Er in Er0. injection Er0 as <-.
      eexists. split; [exact Et|]. unfold opinput_of, dgetr. rewrite Esu, Ec, Els, Em, Ecy, Er, Ei. cbn [of_option rbind]. split; [reflexivity|].
      split; [|split; [|split; [exact Ll|]]].
      - apply (good_transfer _ _ _ _ _ oi0); [exact G0|now rewrite Es0|now rewrite Et0|now rewrite Et0].
      - assert (HS : forall x, In x (concat ls) -> 1 <= snd x) by (rewrite Lc, Lo; exact (ti_sizes _ _ _ _ _ TI)).
        constructor; cbn [oi_spatial oi_temporal oi_counts oi_cycles oi_mac_stationary oi_top_r oi_top_ir].
        + exists su', r. split; [exact Er|]. split; [exact Hd|exact Hr].
        + split; [exact Cc|]. rewrite Lc, Lo. symmetry. exact (ti_total _ _ _ _ _ TI).
        + exact (prefix_pos ord m (ti_sizes _ _ _ _ _ TI) Pm).
        + now apply top_sizes_ok.
        + now apply top_sizes_ok.
        + destruct (proj2 (sl_precision rq SL) op I) as (p & Ep & _). now apply dget_Some_key in Ep.
      - intros x [Q|Q]; [|cbn [oi_cycles] in Q].
        + cbn [oi_mac_stationary] in Q. subst x. destruct (_ && _); [exact Pm|apply prefix_one].
        + apply In_nth_error in Q. destruct Q as (k & Ek). destruct Cc as (_ & Cn & _). rewrite (Cn k x Ek). rewrite <- Lo, <- Lc. apply below_prefix. }
    destruct (rmap_ok' (opinput_of rq sp counts (st, mac, cabl, total)) (rq_ops rq)) as (ois & Eo).
    { intros op I. destruct (Good op I) as (tm & oi & _ & E & _). eauto. }
    rewrite Eo. cbn [rbind]. apply rmap_Forall2 in Eo.
    assert (Ko : keys ois = rq_ops rq).
    { assert (Q : forall op, In op (rq_ops rq) -> exists oi, opinput_of rq sp counts (st, mac, cabl, total) op = Ok (op, oi)) by (intros op I; destruct (Good op I) as (tm & oi & _ & E & _); eauto).
      clear - Eo Q. induction Eo as [|op x ops ois E F IH]; [reflexivity|]. cbn [keys map]. destruct (Q op (or_introl eq_refl)) as (oi & E'). rewrite E in E'. injection E' as ->. cbn [fst]. f_equal. apply IH. intros; apply Q; now right. }
    assert (Io : forall op oi, In (op, oi) ois -> In op (rq_ops rq) /\ opinput_of rq sp counts (st, mac, cabl, total) op = Ok (op, oi)).
    { intros op oi I. destruct (Forall2_in_r _ _ _ _ Eo I) as (op' & I' & E'). destruct (Good op' I') as (tm & oi' & _ & E2 & _). assert (op' = op) by (rewrite E' in E2; now injection E2 as -> _). subst op'. now split. }
    assert (Hgood : forall op oi, In (op, oi) ois -> exists tm, dget op (rq_temporal rq) = Some tm /\ good_operand (rq_layer rq) (rq_r rq) (rq_ir rq) (rq_pr rq) op oi /\
       good_tables (rq_layer rq) (rq_r rq) (rq_pr rq) total op oi /\ length (oi_temporal oi) = length tm /\ forall c, In c (cycle_each_level (rq_inputs rq) (rq_free rq) op oi) -> prefix_product ord c).
    { intros op oi I. destruct (Io op oi I) as (I' & E'). destruct (Good op I') as (tm & oi' & E1 & E2 & Q). rewrite E' in E2. injection E2 as <-. eauto. }
    assert (No : NoDup (keys ois)) by (now rewrite Ko).
    assert (Rb : read_bandwidths rq hd ois = Ok tt).
    { unfold read_bandwidths. assert (Q : forall op, In op (rq_inputs rq) -> In op (rq_ops rq)) by (intros op I; apply (proj2 (proj1 (sl_operands rq SL op))); now right).
      assert (B : forall op, In op (rq_inputs rq) -> (oi <- dgetr op ois ;; rfold (fun _ lv => _ <- read_bandwidth rq hd op lv ;; Ok tt) tt (seq 0 (length (oi_temporal oi))))%result = Ok tt).
      { intros op I. assert (Kx : In op (keys ois)) by (rewrite Ko; now apply Q). destruct (key_dget _ _ Kx) as (oi & E). unfold dgetr. rewrite E. cbn [of_option rbind].
        destruct (Hgood op oi (dget_In _ _ _ E)) as (tm & Et & _ & _ & Lt & _). rewrite Lt.
        assert (R := fun lv H => RB op tm lv I Et H). clear - R. assert (G : forall lvs, (forall lv, In lv lvs -> (lv < length tm)%nat) -> rfold (fun _ lv => (_ <- read_bandwidth rq hd op lv ;; Ok tt)%result) tt lvs = Ok tt).
        { induction lvs as [|lv lvs IH]; intros H; [reflexivity|]. cbn [rfold]. destruct (R lv (H lv (or_introl eq_refl))) as (b & ->). cbn [rbind]. apply IH. intros; apply H; now right. }
        apply G. intros lv I. apply in_seq in I. lia. }
      clear - B. induction (rq_inputs rq) as [|op l IH]; [reflexivity|]. cbn [rfold]. rewrite (B op (or_introl eq_refl)). cbn [rbind]. apply IH. intros; apply B; now right. }
    rewrite Rb. cbn [rbind].
    assert (GM : good_mapping (rq_layer rq) (rq_r rq) (rq_ir rq) (rq_pr rq) (rq_inputs rq) (rq_out rq) total ois).
    { constructor.
      - exact (sl_derived rq SL).
      - now rewrite Ko.
      - rewrite Ko. split; [apply (proj2 (proj1 (sl_operands rq SL (rq_out rq)))); now left|]. split; [exact out_not_input|]. split; [intros op I; now apply (proj1 (proj1 (sl_operands rq SL op)))|intros op I; exact (proj1 (sl_pr rq SL op I))].
      - intros op oi I. destruct (Hgood op oi I) as (tm & _ & Q & _). exact Q.
      - intros op oi I. destruct (Hgood op oi I) as (tm & _ & _ & Q & _). exact Q. }
    destruct (mapping_total _ _ _ _ _ _ (rq_macs rq) (rq_size_out rq) _ (rq_free rq) (fun op lv => match read_bandwidth rq hd op lv with Ok b => b | Err _ => 0 end) _ GM) as (flags & res & Eb & Kr & _).
    cbn [snd] in *. exists res. rewrite Eb. cbn [rbind snd]. split; [reflexivity|]. split.
    2:{ exists ois, flags. eexists. split; [exact GM|]. split; [exact Eb|]. intros op I. assert (Kx : In op (keys ois)) by (now rewrite Ko).
      destruct (key_dget _ _ Kx) as (oi & E). assert (Ix := dget_In _ _ _ E). exists oi. split; [exact Ix|]. destruct (Io op oi Ix) as (_ & Q).
      unfold opinput_of in Q. repeat (apply rbind_Ok in Q; let X := fresh "x" in let H := fresh "Hx" in destruct Q as (X & H & Q); apply dgetr_Ok in H).
      injection Q as <-. cbn [oi_spatial oi_counts oi_temporal oi_mac_stationary oi_top_ir oi_top_r]. repeat (split; [assumption|]). unfold reuse_dims.
      split; match goal with D : dget op ?d = Some _ |- context [dget op ?d] => rewrite D end; reflexivity. }
    constructor; [now rewrite Kr|].
    intros op tm Et. assert (Kx : In op (keys ois)) by (rewrite Ko; apply (tf_operands rq TF); now apply dget_Some_key in Et). destruct (key_dget _ _ Kx) as (oi & E). assert (Ix := dget_In _ _ _ E).
    destruct (Hgood op oi Ix) as (tm' & Et' & _ & _ & Lt & Pc). rewrite Et in Et'. injection Et' as <-.
    destruct (unit_facts_of _ _ _ _ _ _ _ _ _ _ _ _ GM flags res Eb) with (op := op) (oi := oi) as (od & ps & Ed & U).
    - intros I. now apply (sl_pr rq SL (rq_out rq)).
    - exact (sl_sizes rq SL).
    - exact (proj1 (sl_precision rq SL)).
    - intros o p I Ep. rewrite Ko in I. destruct (proj2 (sl_precision rq SL) o I) as (p' & Ep' & Hp). rewrite Ep in Ep'. now injection Ep' as <-.
    - rewrite (ti_total _ _ _ _ _ TI). apply cycles_pos. intros d s I. exact (ti_sizes _ _ _ _ _ TI (d, s) I).
    - exact Ix.
    - intros c I. rewrite (ti_total _ _ _ _ _ TI). apply prefix_total. now apply Pc.
    - exists od, ps, oi. split; [exact Ed|]. split; [exact U|]. split; [|exact Pc]. rewrite (uf_len _ _ _ _ _ _ _ U). exact Lt.
  Qed.
End Built.
