(** Proofs about the overall latency (C25). *)
From Coq Require Import QArith Lqa Qminmax Qround.
From Verif Require Import Base Model_Decouple Model_SpatialInt Model_DataMove Model_Mapping Model_Links Model_Cost Model_Latency Spec_DataMove Spec_Mapping Spec_Cost Spec_Latency
  Proof_AllocSearch Proof_Bandwidth Proof_Mapping Proof_Links Proof_Energy Proof_Loading Proof_Balance Proof_Window.

(** * Transfer cycles *)

Lemma four_of {A} (zero : A) (F : direction -> result (direction * A)) f :
  (forall k y, F k = Ok y -> fst y = k) ->
  (d <- rmap F directions ;; four_way zero (Some d))%result = Ok f ->
  forall k x, dget k f = Some x -> F k = Ok (k, x).
Proof.
  intros HF. unfold directions. cbn [rmap].
  destruct (F RdLow) as [a|] eqn:Ea; [|discriminate]. destruct (F WrLow) as [b|] eqn:Eb; [|discriminate].
  destruct (F RdHigh) as [c|] eqn:Ec; [|discriminate]. destruct (F WrHigh) as [d|] eqn:Ed; [|discriminate].
  assert (Ha := HF _ _ Ea). assert (Hb := HF _ _ Eb). assert (Hc := HF _ _ Ec). assert (Hd := HF _ _ Ed).
  destruct a, b, c, d. cbn in Ha, Hb, Hc, Hd. subst. cbn. intros H. injection H as <-.
  intros [] x Hx; cbn in Hx; congruence.
Qed.

Lemma real_spec ci op mem_op lv f : real_cycles ci op mem_op lv = Ok f ->
  exists ms m od ps p, dget mem_op (in_hier ci) = Some ms /\ nth_error ms lv = Some m /\
    dget op (in_map_int ci) = Some (od, ps) /\ nth_error ps lv = Some p /\
    forall k c, dget k f = Some c -> exists amount prec w, entry p AmountPerPeriod k = Some amount /\ entry p Precision k = Some prec /\
      width (ml_bw_max m) mem_op k w /\
      c = match w with None => 0%Z | Some b => if (b =? 0)%Z then 0%Z else Qceiling (inject_Z (amount * prec) / inject_Z b) end.
Proof.
  unfold real_cycles. intros H. apply rbind_Ok in H. destruct H as (m & Hm & H). unfold get_memory_level in Hm.
  apply rbind_Ok in Hm. destruct Hm as (ms & Hms & Hm). apply dgetr_Ok in Hms. apply at_Ok in Hm.
  apply rbind_Ok in H. destruct H as (p & Hp & H). unfold unit_mem in Hp. apply rbind_Ok in Hp. destruct Hp as ([od ps] & Hx & Hp).
  apply dgetr_Ok in Hx. apply at_Ok in Hp. cbn in Hp.
  exists ms, m, od, ps, p. repeat (split; [assumption|]). intros k c Hc.
  eapply four_of in H; [| |exact Hc].
  - apply rbind_Ok in H. destruct H as (prec & H1 & H). apply rbind_Ok in H. destruct H as (amount & H2 & H). apply rbind_Ok in H. destruct H as (w & H3 & H).
    apply attr_of_entry in H1, H2. apply bandwidth_width in H3. exists amount, prec, w. repeat (split; [assumption|]).
    destruct w as [b|]; [|now injection H as <-]. destruct (Z.eqb_spec b 0) as [->|N]; [now injection H as <-|].
    destruct b; [congruence| |]; now injection H as <-.
  - intros k' y Hy. apply rbind_Ok in Hy. destruct Hy as (? & _ & Hy). apply rbind_Ok in Hy. destruct Hy as (? & _ & Hy). apply rbind_Ok in Hy. destruct Hy as (w & _ & Hy).
    destruct w as [[]|]; now injection Hy as <-.
Qed.

Lemma allowed_spec ci flags op lv f : allowed_cycles ci flags op lv = Ok f ->
  exists od ps p fs this next, dget op (in_map_int ci) = Some (od, ps) /\ nth_error ps lv = Some p /\
    dget op flags = Some fs /\ nth_error fs lv = Some this /\ nth_error fs (S lv) = Some next /\
    forall k c, dget k f = Some c -> exists x, entry p (if (match k with RdHigh | WrHigh => next | _ => this end) : bool then Period else TransWindow) k = Some x /\
      c = Qceiling (inject_Z x * in_cpo ci).
Proof.
  unfold allowed_cycles. intros H. apply rbind_Ok in H. destruct H as (p & Hp & H). unfold unit_mem in Hp. apply rbind_Ok in Hp. destruct Hp as ([od ps] & Hx & Hp).
  apply dgetr_Ok in Hx. apply at_Ok in Hp. cbn in Hp. apply rbind_Ok in H. destruct H as (fs & Hf & H). apply dgetr_Ok in Hf.
  apply rbind_Ok in H. destruct H as (this & Ht & H). apply at_Ok in Ht. apply rbind_Ok in H. destruct H as (next & Hn & H). apply at_Ok in Hn.
  exists od, ps, p, fs, this, next. repeat (split; [assumption|]). intros k c Hc. cbn zeta in H.
  eapply four_of in H; [| |exact Hc].
  - apply rbind_Ok in H. destruct H as (x & Hx' & H). apply attr_of_entry in Hx'. injection H as <-. exists x. split; [|reflexivity].
    destruct k; exact Hx'.
  - intros k' y Hy. apply rbind_Ok in Hy. destruct Hy as (? & _ & Hy). now injection Hy as <-.
Qed.

Lemma seq_F2 {B} (R : nat -> B -> Prop) n (l : list B) i x : Forall2 R (seq 0 n) l -> nth_error l i = Some x -> R i x.
Proof.
  intros F Hx. assert (L : (i < n)%nat).
  { assert (L := F2_len _ _ _ F). rewrite seq_length in L. rewrite L. apply nth_error_Some. congruence. }
  eapply F2_nth; [exact F|now apply seq_nth'|exact Hx].
Qed.

Lemma transfer_spec ci flags allowed real : transfer_cycles ci flags = Ok (allowed, real) ->
  forall op lv k rc ac, cycles_at real op lv k = Ok rc -> cycles_at allowed op lv k = Ok ac ->
  exists mem_op a r, dget op (lk_data (in_links ci)) = Some mem_op /\
    allowed_cycles ci flags op lv = Ok a /\ real_cycles ci op mem_op lv = Ok r /\ dget k r = Some rc /\ dget k a = Some ac.
Proof.
  unfold transfer_cycles. intros H. apply rbind_Ok in H. destruct H as (l & E & H). injection H as <- <-.
  intros op lv k rc ac Hr Ha. unfold cycles_at in *.
  apply rbind_Ok in Hr. destruct Hr as (lr & Hlr & Hr). apply dgetr_Ok in Hlr. apply rbind_Ok in Ha. destruct Ha as (la & Hla & Ha). apply dgetr_Ok in Hla.
  assert (X : forall (B : Type) (f : four Z * four Z -> B), dget op (map (fun kv => (fst kv, map f (snd kv))) l) = match dget op l with Some x => Some (map f x) | None => None end).
  { intros B f. clear. induction l as [|[k x] l IH]; [reflexivity|]. cbn [map fst snd dget]. destruct (eqb op k); [reflexivity|exact IH]. }
  rewrite X in Hlr, Hla. destruct (dget op l) as [x|] eqn:D; [|discriminate]. injection Hlr as <-. injection Hla as <-.
  apply rbind_Ok in Hr. destruct Hr as (r & Hr & Hk). apply at_Ok in Hr. rewrite nth_error_map in Hr. destruct (nth_error x lv) as [[a r']|] eqn:N; [|discriminate]. injection Hr as <-.
  apply rbind_Ok in Ha. destruct Ha as (a' & Ha & Hka). apply at_Ok in Ha. rewrite nth_error_map, N in Ha. injection Ha as <-. cbn [fst snd] in *.
  apply rmap_Forall2 in E. apply dget_In in D. destruct (Forall2_in_r _ _ _ _ E D) as (op' & _ & Ho).
  apply rbind_Ok in Ho. destruct Ho as (mem_op & Hm & Ho). apply rbind_Ok in Ho. destruct Ho as (n & Hn & Ho). apply rbind_Ok in Ho. destruct Ho as (l' & El & Ho).
  injection Ho as <- <-. unfold layer_to_mem_op in Hm. apply dgetr_Ok in Hm. apply rmap_Forall2 in El.
  assert (R := seq_F2 _ _ _ _ _ El N). apply rbind_Ok in R. destruct R as (a2 & R1 & R). apply rbind_Ok in R. destruct R as (r2 & R2 & R). injection R as <- <-.
  exists mem_op, a2, r2. repeat (split; [assumption|]). unfold four_get in *. apply dgetr_Ok in Hk, Hka. tauto.
Qed.

(** * Stalls *)

Lemma zmax_spec l : (0 <= zmax_list l)%Z /\ forall x, In x l -> (x <= zmax_list l)%Z.
Proof.
  unfold zmax_list. assert (G : forall l a, (a <= fold_left Z.max l a)%Z /\ forall x, In x l -> (x <= fold_left Z.max l a)%Z).
  { clear. induction l as [|y l IH]; intros a; cbn; [split; [lia|intros x []]|]. destruct (IH (Z.max a y)) as (A & B). split; [lia|].
    intros x [->|I]; [lia|now apply B]. }
  apply G.
Qed.

Lemma zsum_ge l x : (forall y, In y l -> (0 <= y)%Z) -> In x l -> (x <= zsum l)%Z.
Proof.
  induction l as [|y l IH]; intros N I; [destruct I|]. rewrite zsum_cons. assert (N0 := N y (or_introl eq_refl)).
  assert (N' : forall z, In z l -> (0 <= z)%Z) by (intros; apply N; now right).
  destruct I as [->|I].
  - assert (0 <= zsum l)%Z by (clear -N'; induction l as [|z l IH]; [reflexivity|]; rewrite zsum_cons; assert (0 <= z)%Z by (apply N'; now left); assert (0 <= zsum l)%Z by (apply IH; intros; apply N'; now right); lia). lia.
  - assert (x <= zsum l)%Z by now apply IH. lia.
Qed.

Lemma port_stall_ge l s a : port_stall l = Ok (Some s) -> In a l -> (stall_or_slack a <= Z.max 0 s)%Z.
Proof.
  unfold port_stall. destruct l as [|b [|c l]]; intros H I; [destruct I| |].
  - injection H as <-. destruct I as [<-|[]]. lia.
  - apply rbind_Ok in H. destruct H as (u & _ & H). injection H as <-. destruct (Z.ltb_spec 0 (stall_or_slack a)) as [P|P]; [|lia].
    assert (X : (stall_or_slack a <= zsum (map stall_or_slack (filter (fun a0 => (0 <? stall_or_slack a0)%Z) (b :: c :: l))))%Z).
    { apply zsum_ge.
      - intros y Hy. apply in_map_iff in Hy. destruct Hy as (z & <- & Hz). apply filter_In in Hz. destruct Hz as (_ & Hz). apply Z.ltb_lt in Hz. lia.
      - apply List.in_map. apply filter_In. split; [exact I|]. now apply Z.ltb_lt. }
    cbn [filter] in X. lia.
Qed.

Lemma port_stall_some l s : port_stall l = Ok s -> l <> [] -> exists x, s = Some x.
Proof.
  unfold port_stall. destruct l as [|a [|b l]]; intros H N; [congruence|injection H as <-; eauto|]. apply rbind_Ok in H. destruct H as (u & _ & H). injection H as <-. eauto.
Qed.

Lemma activities_spec ci flags allowed real pt l : (exists data, NoDup (keys data) /\ make_links data = Ok (in_links ci)) ->
  transfer_cycles ci flags = Ok (allowed, real) -> port_activities ci allowed real pt = Ok l ->
  forall a, In a l -> served_activity ci flags pt a.
Proof.
  intros (data & K & EL) T H a Ia. unfold port_activities in H. apply rbind_Ok in H. destruct H as (r & E & H). injection H as <-.
  apply in_concat in Ia. destruct Ia as (x & Ix & Ia). apply rmap_Forall2 in E. destruct (Forall2_in_r _ _ _ _ E Ix) as ([[mem_op lv] k] & Is & H).
  destruct (contains_mem_op (in_links ci) mem_op); [|injection H as <-; destruct Ia].
  apply rbind_Ok in H. destruct H as (op & Ho & H).
  assert (El : dget op (lk_data (in_links ci)) = Some mem_op).
  { assert (X := proj2 (links_inverse data (in_links ci) K EL op mem_op) Ho). unfold layer_to_mem_op in X. now apply dgetr_Ok in X. }
  apply rbind_Ok in H. destruct H as (p & Hp & H). unfold unit_mem in Hp. apply rbind_Ok in Hp. destruct Hp as ([od ps] & Hx & Hp). apply dgetr_Ok in Hx. apply at_Ok in Hp. cbn in Hp.
  apply rbind_Ok in H. destruct H as (count & Hc & H). apply attr_of_entry in Hc.
  destruct (Z.eqb_spec count 0) as [C0|C0]; [injection H as <-; destruct Ia|].
  apply rbind_Ok in H. destruct H as (period & Hpe & H). apply attr_of_entry in Hpe. apply rbind_Ok in H. destruct H as (rc & Hr & H). apply rbind_Ok in H. destruct H as (ac & Ha & H).
  injection H as <-. destruct Ia as [<-|[]].
  destruct (transfer_spec ci flags allowed real T op lv k rc ac Hr Ha) as (mem_op' & fa & fr & El' & Ea & Er & Dr & Da).
  assert (mem_op' = mem_op) by congruence. subst mem_op'.
  destruct (real_spec ci op mem_op lv fr Er) as (ms & m & od1 & ps1 & p1 & Hms & Hm & Hx1 & Hp1 & RC).
  destruct (allowed_spec ci flags op lv fa Ea) as (od2 & ps2 & p2 & fs & this & next & Hx2 & Hp2 & Hf & Ht & Hn & AC).
  assert (od1 = od /\ ps1 = ps) as [-> ->] by (split; congruence). assert (od2 = od /\ ps2 = ps) as [-> ->] by (split; congruence).
  assert (p1 = p) by congruence. assert (p2 = p) by congruence. subst p1 p2.
  destruct (RC k rc Dr) as (amount & prec & w & R1 & R2 & R3 & R4). destruct (AC k ac Da) as (x0 & A1 & A2).
  exists op, lv, k, mem_op, od, ps, p, ms, m, fs, this, next, period, amount, prec. cbn [pa_served pa_count pa_period pa_real pa_allowed].
  repeat (split; [assumption || reflexivity|]). split; [now exists w|now exists x0].
Qed.

Lemma dict_of_ports ci allowed real : forall pts d d', NoDup (keys d ++ map pt_name pts) ->
  rfold (fun d pt => a <- port_activities ci allowed real pt ;; Ok (dset (pt_name pt) a d))%result d pts = Ok d' ->
  (forall x, In x d -> In x d') /\
  forall pt, In pt pts -> exists l, port_activities ci allowed real pt = Ok l /\ In (pt_name pt, l) d'.
Proof.
  induction pts as [|pt pts IH]; intros d d' N H; cbn [rfold] in H; [injection H as <-; split; [tauto|intros ? []]|].
  destruct (port_activities ci allowed real pt) as [l|] eqn:E; [|discriminate]. cbn [rbind] in H.
  assert (Nk : ~ In (pt_name pt) (keys d)).
  { cbn [map] in N. apply NoDup_remove_2 in N. intros I. apply N. apply in_or_app. now left. }
  destruct (IH (dset (pt_name pt) l d) d') as (A & B); [|exact H|].
  - rewrite keys_dset_notin by assumption. rewrite <- app_assoc. exact N.
  - assert (X : forall x, In x (dset (pt_name pt) l d) <-> In x d \/ x = (pt_name pt, l)).
    { rewrite dset_fresh by assumption. intros x. rewrite in_app_iff. cbn. intuition congruence. }
    split.
    + intros x Hx. apply A, X. now left.
    + intros p [<-|I]; [|now apply B]. exists l. split; [assumption|]. apply A, X. now right.
Qed.

Lemma stall_ge ci allowed real s : stall_slack_comb ci allowed real = Ok s ->
  (0 <= s)%Z /\
  forall m pt, In m (in_levels ci) -> NoDup (map pt_name (ml_ports m)) -> In pt (ml_ports m) ->
    exists l, port_activities ci allowed real pt = Ok l /\ forall a, In a l -> (stall_or_slack a <= s)%Z.
Proof.
  unfold stall_slack_comb. intros H. apply rbind_Ok in H. destruct H as (ds & E & H). apply rbind_Ok in H. destruct H as (ss & E2 & H). injection H as <-.
  set (L := concat _). destruct (zmax_spec L) as (Z0 & ZM). split; [exact Z0|]. intros m pt Im Nm Ip.
  apply rmap_Forall2 in E. destruct (Forall2_in_l _ _ _ _ E Im) as (d & Id & Ed). unfold memory_activities in Ed.
  destruct (dict_of_ports ci allowed real _ [] _ Nm Ed) as (_ & B). destruct (B pt Ip) as (l & El & Il). exists l. split; [exact El|].
  intros a Ia. apply rmap_Forall2 in E2. destruct (Forall2_in_l _ _ _ _ E2 Id) as (os & Ios & Eo). apply rmap_Forall2 in Eo.
  destruct (Forall2_in_l _ _ _ _ Eo Il) as (o & Io & Ho). cbn [snd] in Ho.
  destruct (port_stall_some l o Ho) as (x & ->); [intros ->; destruct Ia|]. assert (G := port_stall_ge l x a Ho Ia).
  assert (x <= zmax_list L)%Z.
  { apply ZM. apply in_concat. exists [x]. split; [|now left]. apply in_map_iff. exists (Some x). split; [reflexivity|]. apply in_concat. eauto. }
  lia.
Qed.

(** Without competition and with fast enough memories there is no stall *)
Lemma zmax_zero l : (forall x, In x l -> (x <= 0)%Z) -> zmax_list l = 0%Z.
Proof.
  unfold zmax_list. induction l as [|y l IH]; intros H; [reflexivity|]. cbn. assert (y <= 0)%Z by (apply H; now left).
  rewrite Z.max_l by assumption. apply IH. intros; apply H; now right.
Qed.

Lemma dict_of_ports' ci allowed real : forall pts d d',
  rfold (fun d pt => a <- port_activities ci allowed real pt ;; Ok (dset (pt_name pt) a d))%result d pts = Ok d' ->
  forall k l, In (k, l) d' -> In (k, l) d \/ exists pt, In pt pts /\ port_activities ci allowed real pt = Ok l.
Proof.
  induction pts as [|pt pts IH]; intros d d' H k l I; cbn [rfold] in H; [injection H as <-; now left|].
  destruct (port_activities ci allowed real pt) as [l0|] eqn:E; [|discriminate]. cbn [rbind] in H.
  destruct (IH _ _ H k l I) as [X|(p & Ip & Ep)]; [|right; exists p; split; [now right|assumption]].
  assert (Y : forall (d0 : dict string (list activity)) kk vv, In (k, l) (dset kk vv d0) -> In (k, l) d0 \/ l = vv).
  { clear. induction d0 as [|[a b] d0 IH]; intros kk vv; cbn [dset]; [intros [E|[]]; injection E as <- <-; now right|].
    destruct (eqb kk a); intros [E|I].
    - injection E as <- <-. now right.
    - left. now right.
    - left. now left.
    - destruct (IH _ _ I) as [J|J]; [left; now right|now right]. }
  destruct (Y _ _ _ X) as [J| ->]; [now left|]. right. exists pt. split; [now left|assumption].
Qed.

Lemma stall_none ci allowed real s : stall_slack_comb ci allowed real = Ok s ->
  (forall m pt l, In m (in_levels ci) -> In pt (ml_ports m) -> port_activities ci allowed real pt = Ok l ->
     (length l <= 1)%nat /\ forall a, In a l -> (stall_or_slack a <= 0)%Z) -> s = 0%Z.
Proof.
  unfold stall_slack_comb. intros H HP. apply rbind_Ok in H. destruct H as (ds & E & H). apply rbind_Ok in H. destruct H as (ss & E2 & H). injection H as <-.
  apply zmax_zero. intros x Hx. apply in_concat in Hx. destruct Hx as (o & Io & Hx). apply in_map_iff in Io. destruct Io as (oo & <- & Io).
  destruct oo as [y|]; [|destruct Hx]. destruct Hx as [<-|[]]. apply in_concat in Io. destruct Io as (os & Ios & Iy).
  apply rmap_Forall2 in E2. destruct (Forall2_in_r _ _ _ _ E2 Ios) as (d & Id & Ed). apply rmap_Forall2 in Ed. destruct (Forall2_in_r _ _ _ _ Ed Iy) as ([k l] & Il & Hl).
  apply rmap_Forall2 in E. destruct (Forall2_in_r _ _ _ _ E Id) as (m & Im & Hm). unfold memory_activities in Hm.
  destruct (dict_of_ports' _ _ _ _ _ _ Hm k l Il) as [[]|(pt & Ip & Ep)]. destruct (HP m pt l Im Ip Ep) as (L & S).
  cbn [snd] in Hl. destruct l as [|a [|b l]]; cbn in L; [discriminate| |lia]. cbn in Hl. injection Hl as <-. apply S. now left.
Qed.

(** * On- and off-loading are not negative *)

Definition nonneg_table (t : dict string (dict (nat * direction) (Q * bool))) : Prop :=
  forall op d x v, In (op, d) t -> In (x, v) d -> (0 <= fst v)%Q.
Definition nonneg_loading (st : loading) : Prop := nonneg_table (lo_on st) /\ nonneg_table (lo_off st).

Lemma In_dset {K V} `{EqB K} (d : dict K V) k v x : In x (dset k v d) -> In x d \/ x = (k, v).
Proof.
  induction d as [|[a b] d IH]; cbn [dset]; [intros [<-|[]]; now right|]. destruct (eqb_spec k a) as [E|E]; intros [<-|I].
  - subst. now right.
  - left. now right.
  - left. now left.
  - destruct (IH I); [left; now right|now right].
Qed.

Lemma nonneg_dset t op d x c b : nonneg_table t -> dget op t = Some d -> (0 <= c)%Q -> nonneg_table (dset op (dset x (c, b) d) t).
Proof.
  intros N D C op' d' x' v' I I'. apply In_dset in I. destruct I as [I|E]; [eapply N; eassumption|]. injection E as -> ->.
  apply In_dset in I'. destruct I' as [I'|E]; [eapply N; [apply dget_In; exact D|eassumption]|]. injection E as _ ->. exact C.
Qed.

Lemma record_nonneg st pt mem_op op lv k c st' : record_cycles st pt mem_op op lv k c = Ok st' -> (0 <= c)%Q -> nonneg_loading st -> nonneg_loading st'.
Proof.
  unfold record_cycles. intros H C (N1 & N2). destruct (memb mem_op _); apply rbind_Ok in H; destruct H as (d & D & H); apply dgetr_Ok in D; injection H as <-; split; cbn; try assumption; now apply nonneg_dset.
Qed.

Lemma single_nonneg ci pt comp st x st' : record_single ci pt comp st x = Ok st' -> (0 <= fst (snd x))%Q -> nonneg_loading st -> nonneg_loading st'.
Proof.
  destruct x as [[[mem_op lv] k] [rem red]]. cbn [fst snd]. unfold record_single. intros H C N. apply rbind_Ok in H. destruct H as (op & _ & H).
  apply rbind_Ok in H. destruct H as (st1 & R & H). cbn zeta in H. apply rbind_Ok in H. destruct H as (share & _ & H). injection H as <-.
  destruct (record_nonneg _ _ _ _ _ _ _ _ R C N) as (A & B). split; assumption.
Qed.

Lemma rfold_inv {A B} (P : A -> Prop) (f : A -> B -> result A) l : (forall a b a', In b l -> f a b = Ok a' -> P a -> P a') ->
  forall a a', rfold f a l = Ok a' -> P a -> P a'.
Proof.
  induction l as [|b l IH]; intros H a a' E Pa; cbn [rfold] in E; [now injection E as <-|]. destruct (f a b) as [a1|] eqn:E1; [|discriminate].
  eapply IH; [|exact E|]; [intros; eapply H; [right|..]; eassumption|]. eapply H; [now left|exact E1|exact Pa].
Qed.

Lemma ceil_nonneg q : (0 <= q)%Q -> (0 <= Qceiling q)%Z.
Proof. intros H. change 0%Z with (Qceiling 0). now apply Qceiling_resp_le. Qed.
Lemma inject_nonneg z : (0 <= z)%Z -> (0 <= inject_Z z)%Q.
Proof. intros H. change 0%Q with (inject_Z 0). now rewrite <- Zle_Qle. Qed.
Lemma div_nonneg a b : (0 <= a)%Z -> (0 <= b)%Z -> (0 <= inject_Z a / inject_Z b)%Q.
Proof. intros A B. unfold Qdiv. apply Qmult_le_0_compat; [now apply inject_nonneg|]. apply Qinv_le_0_compat. now apply inject_nonneg. Qed.

Lemma pdiv_val x y z : pdiv x y = Ok z -> z = (x / y)%Q /\ ~ (y == 0)%Q.
Proof. unfold pdiv, Model_Decouple.qis0. destruct (Qeq_bool y 0) eqn:E; [discriminate|]. intros H. injection H as <-. split; [reflexivity|]. now apply Qeq_bool_neq. Qed.

Lemma real_nonneg ci flags allowed real : sound_timing ci -> transfer_cycles ci flags = Ok (allowed, real) ->
  forall op lv k c, cycles_at real op lv k = Ok c -> (0 <= c)%Z.
Proof.
  intros ST. unfold transfer_cycles. intros H. apply rbind_Ok in H. destruct H as (l & E & H). injection H as _ <-.
  intros op lv k c Hr. unfold cycles_at in Hr. apply rbind_Ok in Hr. destruct Hr as (lr & Hlr & Hr). apply dgetr_Ok in Hlr.
  apply dget_In in Hlr. apply in_map_iff in Hlr. destruct Hlr as ([op' x] & Ex & Ix). cbn in Ex. injection Ex as -> <-.
  apply rbind_Ok in Hr. destruct Hr as (r & Hr & Hk). apply at_Ok in Hr. rewrite nth_error_map in Hr. destruct (nth_error x lv) as [[a r']|] eqn:N; [|discriminate]. injection Hr as <-. cbn [snd] in Hk.
  apply rmap_Forall2 in E. destruct (Forall2_in_r _ _ _ _ E Ix) as (op' & _ & Ho).
  apply rbind_Ok in Ho. destruct Ho as (mem_op & Hm & Ho). apply rbind_Ok in Ho. destruct Ho as (n & Hn & Ho). apply rbind_Ok in Ho. destruct Ho as (l' & El & Ho).
  injection Ho as <- <-. apply rmap_Forall2 in El. assert (R := seq_F2 _ _ _ _ _ El N). apply rbind_Ok in R. destruct R as (a2 & _ & R). apply rbind_Ok in R. destruct R as (r2 & R2 & R). injection R as <- <-.
  destruct (real_spec ci op' mem_op lv r2 R2) as (ms & m & od & ps & p & Hms & Hmm & Hx & Hp & RC). unfold four_get in Hk. apply dgetr_Ok in Hk.
  destruct (RC k c Hk) as (amount & prec & w & R1 & R2' & R3 & ->). destruct w as [b|]; [|lia]. destruct (b =? 0)%Z; [lia|].
  assert (SP := st_patterns ci ST op' od ps p (dget_In _ _ _ Hx) (nth_error_In _ _ Hp)).
  apply ceil_nonneg, div_nonneg; [apply Z.mul_nonneg_nonneg; eapply SP; eassumption|].
  eapply (st_widths ci ST); [apply dget_In; exact Hms|eapply nth_error_In; exact Hmm|exact R3].
Qed.

Lemma filter_one {A} (f : A -> bool) l : (forall i j x y, nth_error l i = Some x -> nth_error l j = Some y -> f x = true -> f y = true -> i = j) ->
  (length (filter f l) <= 1)%nat.
Proof.
  induction l as [|a l IH]; intros H; [cbn; lia|]. cbn [filter].
  assert (IH' : (length (filter f l) <= 1)%nat).
  { apply IH. intros i j x y Hi Hj Fx Fy. assert (S i = S j) by (eapply H; [exact Hi|exact Hj|exact Fx|exact Fy]). lia. }
  destruct (f a) eqn:F; [|assumption]. cbn [length]. destruct (filter f l) as [|b l'] eqn:E; [cbn; lia|]. exfalso.
  assert (I : In b (filter f l)) by (rewrite E; now left). apply filter_In in I. destruct I as (I & Fb). apply In_nth_error in I. destruct I as (j & Hj).
  assert (X : 0%nat = S j) by (eapply (H 0%nat (S j)); [reflexivity|exact Hj|assumption|assumption]). discriminate.
Qed.

Lemma combine_in_fst {A B C} (l : list A) (l1 : list B) (l2 : list C) x : In x (combine l (combine l1 l2)) -> In (fst (snd x)) l1.
Proof. destruct x as [a [b c]]. intros I. apply in_combine_r in I. now apply in_combine_l in I. Qed.

Lemma loading_single_nonneg ci real stall pt combs bw st st' :
  (length combs <= 1)%nat -> (0 < pt_bw_max pt)%Z -> sound_timing ci ->
  (forall op lv k c, cycles_at real op lv k = Ok c -> (0 <= c)%Z) ->
  loading_single ci real stall pt combs bw st = Ok st' -> nonneg_loading st -> nonneg_loading st'.
Proof.
  intros L PB ST RN H N. unfold loading_single in H. apply rbind_Ok in H. destruct H as (cm & Ecm & H). cbn zeta in H.
  apply rbind_Ok in H. destruct H as (share & _ & H). apply rbind_Ok in H. destruct H as ([rs ds] & Er & H). apply rbind_Ok in H. destruct H as (st1 & Ef & H). injection H as <-.
  cbn [fst snd] in Ef.
  assert (CM : forall c m, In (c, m) cm -> (0 <= c)%Q /\ (0 <= m)%Q).
  { intros c m I. apply rmap_Forall2 in Ecm. destruct (Forall2_in_r _ _ _ _ Ecm I) as ([[mem_op lv] k] & _ & Hs).
    apply rbind_Ok in Hs. destruct Hs as (op & _ & Hs). apply rbind_Ok in Hs. destruct Hs as ([od ps] & Hx & Hs). apply dgetr_Ok in Hx.
    apply rbind_Ok in Hs. destruct Hs as (bits & Hb & Hs). apply at_Ok in Hb. apply rbind_Ok in Hs. destruct Hs as (mn & Hm & Hs). apply rbind_Ok in Hs. destruct Hs as (c0 & Hc & Hs).
    injection Hs as <- <-. split; [apply inject_nonneg; eauto|]. apply inject_nonneg, ceil_nonneg. apply pdiv_val in Hm. destruct Hm as (-> & _).
    apply div_nonneg; [|lia]. eapply (st_bits ci ST); [apply dget_In; exact Hx|eapply nth_error_In; exact Hb]. }
  assert (RS : forall r, In r rs -> (0 <= r)%Q).
  { assert (LC : length cm = length combs) by (apply rmap_Forall2 in Ecm; symmetry; eapply F2_len; exact Ecm).
    destruct cm as [|[c m] [|? ?]]; [| |cbn in LC; lia].
    - cbn [map] in Er. rewrite reduce_trivial in Er by now right. injection Er as <- <-. intros r [].
    - cbn [map fst snd] in Er. destruct (CM c m (or_introl eq_refl)) as (C0 & M0). set (s := qmax _ _) in *.
      destruct (Qlt_le_dec 0 s) as [S0|S0].
      + destruct (reduce_one c m s S0) as (r0 & d0 & E0 & _ & C). rewrite E0 in Er. injection Er as <- <-. intros r [<-|[]]. destruct C as [(_ & C)|(C1 & C)]; lra.
      + rewrite reduce_trivial in Er by now left. injection Er as <- <-. intros r [<-|[]]. exact C0. }
  assert (N1 : nonneg_loading st1).
  { eapply (rfold_inv nonneg_loading); [|exact Ef|exact N]. intros a b a' I E Na. eapply single_nonneg; [exact E| |exact Na]. apply RS. eapply combine_in_fst. exact I. }
  destruct N1. split; assumption.
Qed.

Lemma loading_multi_nonneg ci real pt combs st st' :
  (forall op lv k c, cycles_at real op lv k = Ok c -> (0 <= c)%Z) ->
  loading_multi ci real pt combs st = Ok st' -> nonneg_loading st -> nonneg_loading st'.
Proof.
  intros RN H N. eapply (rfold_inv nonneg_loading); [|exact H|exact N]. intros a [[mem_op lv] k] a' _ E Na.
  apply rbind_Ok in E. destruct E as (op & _ & E). apply rbind_Ok in E. destruct E as (p & _ & E). apply rbind_Ok in E. destruct E as (count & _ & E).
  destruct (count =? 0)%Z; [now injection E as <-|]. apply rbind_Ok in E. destruct E as (c & Hc & E). eapply record_nonneg; [exact E| |exact Na]. apply inject_nonneg. eauto.
Qed.

Lemma loading_port_nonneg ci real stall m pt st st' : (exists data, NoDup (keys data) /\ make_links data = Ok (in_links ci)) ->
  sound_timing ci -> few_single ci -> In m (in_levels ci) -> In pt (ml_ports m) ->
  (forall op lv k c, cycles_at real op lv k = Ok c -> (0 <= c)%Z) ->
  loading_port ci real stall st pt = Ok st' -> nonneg_loading st -> nonneg_loading st'.
Proof.
  intros (data & K & EL) ST FS Im Ip RN H N. unfold loading_port in H. apply rbind_Ok in H. destruct H as (out_mem & Ho & H).
  apply rbind_Ok in H. destruct H as (cls & Ec & H). cbn zeta in H. apply rbind_Ok in H. destruct H as (bws & _ & H). apply rbind_Ok in H. destruct H as (st1 & E1 & E2).
  eapply loading_multi_nonneg; [exact RN|exact E2|]. eapply loading_single_nonneg; [| |exact ST|exact RN|exact E1|exact N].
  - rewrite map_length. apply filter_one. intros i j [s c] [s' c'] Hi Hj Fi Fj. cbn in Fi, Fj. apply Z.eqb_eq in Fi, Fj. subst c c'.
    apply rmap_Forall2 in Ec.
    assert (X : forall i s, nth_error cls i = Some (s, 1%Z) -> nth_error (pt_served pt) i = Some s /\ single_period ci s).
    { clear i j s s' Hi Hj. intros i s Hi. destruct (nth_error (pt_served pt) i) as [[[mem_op lv] k]|] eqn:Hs.
      2:{ apply nth_error_None in Hs. assert (L := F2_len _ _ _ Ec). assert (nth_error cls i <> None) by congruence. apply nth_error_Some in H. lia. }
      assert (R := F2_nth _ _ _ _ _ _ Ec Hs Hi). cbn beta iota in R.
      destruct (eqb mem_op out_mem && match k with RdLow | WrHigh => true | _ => false end) eqn:Cond; [injection R as R1 R2; discriminate|].
      apply rbind_Ok in R. destruct R as (op & Hop & R). apply rbind_Ok in R. destruct R as (p & Hp & R). apply rbind_Ok in R. destruct R as (c & Hc & R). injection R as <- ->.
      split; [reflexivity|]. unfold unit_mem in Hp. apply rbind_Ok in Hp. destruct Hp as ([od ps] & Hx & Hp). apply dgetr_Ok in Hx. apply at_Ok in Hp. cbn in Hp.
      assert (Hl := proj2 (links_inverse data (in_links ci) K EL op mem_op) Hop). unfold layer_to_mem_op in Hl. apply dgetr_Ok in Hl.
      apply attr_of_entry in Hc. exists op, od, ps, p. repeat (split; [assumption|]). intros (Eo & Ek). subst op.
      unfold layer_to_mem_op in Ho. apply dgetr_Ok in Ho. assert (mem_op = out_mem) by congruence. subst mem_op. rewrite eqb_refl in Cond.
      destruct Ek as [-> | ->]; discriminate. }
    destruct (X i s Hi), (X j s' Hj). eapply FS; eassumption.
  - eapply (st_ports ci ST); eassumption.
Qed.

Lemma loading_all_nonneg ci flags allowed real stall st : (exists data, NoDup (keys data) /\ make_links data = Ok (in_links ci)) ->
  sound_timing ci -> few_single ci -> transfer_cycles ci flags = Ok (allowed, real) ->
  loading_all ci real stall = Ok st -> nonneg_loading st.
Proof.
  intros LK ST FS T H. assert (RN := real_nonneg ci flags allowed real ST T). unfold loading_all in H.
  eapply (rfold_inv nonneg_loading); [|exact H|].
  - intros a m a' Im E Na. eapply (rfold_inv nonneg_loading); [|exact E|exact Na]. intros b pt b' Ip E' Nb.
    eapply loading_port_nonneg; try eassumption.
  - split; cbn; intros op d x v I I'.
    + apply in_map_iff in I. destruct I as (? & E & _). injection E as _ <-. destruct I'.
    + destruct I as [E|[]]. injection E as _ <-. destruct I'.
Qed.

Lemma nonneg_get t op d x v : nonneg_table t -> dget op t = Some d -> dget x d = Some v -> (0 <= fst v)%Q.
Proof. intros N D X. eapply N; apply dget_In; eassumption. Qed.

Lemma parts_nonneg ci st op i h s : nonneg_loading st -> loading_parts ci st op = Ok (i, h, s) -> (0 <= i /\ 0 <= h /\ 0 <= s)%Q.
Proof.
  intros (N & _) H. unfold loading_parts in H. apply rbind_Ok in H. destruct H as (n & _ & H).
  assert (G : forall l p p', rfold (part_step st op) p l = Ok p' -> (0 <= fst (fst p) /\ 0 <= snd (fst p) /\ 0 <= snd p)%Q -> (0 <= fst (fst p') /\ 0 <= snd (fst p') /\ 0 <= snd p')%Q).
  { intros l. apply rfold_inv. intros [[a b] c] lv p' _ E (A & B & C). cbn [fst snd] in *. unfold part_step in E.
    apply rbind_Ok in E. destruct E as (d & D & E). apply dgetr_Ok in D. apply rbind_Ok in E. destruct E as (e1 & E1 & E). apply dgetr_Ok in E1.
    apply rbind_Ok in E. destruct E as (e2 & E2 & E). apply dgetr_Ok in E2. cbn zeta in E.
    assert (X1 := nonneg_get _ _ _ _ _ N D E1). assert (X2 := nonneg_get _ _ _ _ _ N D E2).
    assert (M : (0 <= qmax (fst e1) (fst e2))%Q) by (destruct (qmax_cases (fst e1) (fst e2)) as [(_ & Y)|(_ & Y)]; rewrite Y; assumption).
    destruct (negb (snd e1) && negb (snd e2)); [injection E as <-; cbn; repeat split; lra|].
    destruct (snd e1 && snd e2); injection E as <-; cbn; repeat split; lra. }
  apply (G _ _ _ H). cbn. repeat split; apply Qle_refl.
Qed.

Lemma onloading_nonneg ci st on : nonneg_loading st -> onloading ci st = Ok on -> (0 <= on)%Q.
Proof.
  intros N H. unfold onloading in H. apply rbind_Ok in H. destruct H as (parts & E & H). apply rmap_Forall2 in E.
  assert (P : forall i h s, In (i, h, s) parts -> (0 <= i /\ 0 <= h /\ 0 <= s)%Q).
  { intros i h s I. destruct (Forall2_in_r _ _ _ _ E I) as (op & _ & Hp). eapply parts_nonneg; eassumption. }
  destruct parts as [|[[i1 h1] s1] [|[[i2 h2] s2] parts]]; [discriminate| |].
  - injection H as <-. apply (P i1 h1 s1). now left.
  - injection H as <-. destruct (P i1 h1 s1) as (A1 & A2 & A3); [now left|]. destruct (P i2 h2 s2) as (B1 & B2 & B3); [right; now left|].
    set (p1 := (s1 + qmax (s2 + h2 + i2) (h1 + i1))%Q). set (p2 := (s2 + qmax (s1 + h1 + i1) (h2 + i2))%Q).
    assert (0 <= p1)%Q by (subst p1; destruct (qmax_cases (s2 + h2 + i2) (h1 + i1)) as [(X & Y)|(X & Y)]; rewrite Y; lra).
    assert (0 <= p2)%Q by (subst p2; destruct (qmax_cases (s1 + h1 + i1) (h2 + i2)) as [(X & Y)|(X & Y)]; rewrite Y; lra).
    clearbody p1 p2. destruct (qmin_cases p1 p2) as [(_ & Y)|(_ & Y)]; rewrite Y; assumption.
Qed.

Lemma offloading_nonneg ci st off : nonneg_loading st -> offloading ci st = Ok off -> (0 <= off)%Q.
Proof.
  intros (_ & N) H. unfold offloading in H. apply rbind_Ok in H. destruct H as (n & _ & H). apply rbind_Ok in H. destruct H as (l & E & H). injection H as <-.
  apply qsum_nonneg. intros x I. apply rmap_Forall2 in E. destruct (Forall2_in_r _ _ _ _ E I) as (lv & _ & Hx).
  apply rbind_Ok in Hx. destruct Hx as (d & D & Hx). apply dgetr_Ok in D. apply rbind_Ok in Hx. destruct Hx as (e1 & E1 & Hx). apply dgetr_Ok in E1.
  apply rbind_Ok in Hx. destruct Hx as (e2 & E2 & Hx). apply dgetr_Ok in E2. injection Hx as <-.
  assert (X1 := nonneg_get _ _ _ _ _ N D E1). assert (X2 := nonneg_get _ _ _ _ _ N D E2).
  destruct (qmax_cases (fst e1) (fst e2)) as [(_ & Y)|(_ & Y)]; rewrite Y; assumption.
Qed.

(** * The whole *)

Lemma latency_inv ci la : calc_latency ci = Ok la ->
  exists ind sh flags sh' allowed real st, individual ci od_effective_bit = Ok ind /\ shared ci ind = Ok sh /\
    calc_double_buffer_flag ci ind sh = Ok (flags, sh') /\
    transfer_cycles ci flags = Ok (allowed, real) /\ stall_slack_comb ci allowed real = Ok (la_stall la) /\
    loading_all ci real (la_stall la) = Ok st /\ onloading ci st = Ok (la_on la) /\ offloading ci st = Ok (la_off la) /\
    overall_latency ci (la_stall la) (la_on la) (la_off la) = Ok la.
Proof.
  unfold calc_latency. intros H. apply rbind_Ok in H. destruct H as (ind & H1 & H). apply rbind_Ok in H. destruct H as (sh & H2 & H).
  apply rbind_Ok in H. destruct H as ([flags sh'] & H3 & H). apply rbind_Ok in H. destruct H as ([allowed real] & H4 & H).
  apply rbind_Ok in H. destruct H as (stall & H5 & H). apply rbind_Ok in H. destruct H as (st & H6 & H). apply rbind_Ok in H. destruct H as (on & H7 & H).
  apply rbind_Ok in H. destruct H as (off & H8 & H).
  assert (X : la_stall la = stall /\ la_on la = on /\ la_off la = off).
  { unfold overall_latency in H. repeat (apply rbind_Ok in H; destruct H as (? & _ & H)). injection H as <-. cbn. tauto. }
  destruct X as (-> & -> & ->). exists ind, sh, flags, sh', allowed, real, st. tauto.
Qed.

Lemma div_mul a b : ~ (b == 0)%Q -> (a / b * b == a)%Q.
Proof. intros H. field. exact H. Qed.

Lemma overall_spec ci stall on off la : overall_latency ci stall on off = Ok la ->
  (in_units ci <> 0)%Z /\
  la_ideal la = Qceiling (inject_Z (Qceiling (inject_Z (in_macs ci) / inject_Z (in_units ci))) * in_cpo ci) /\
  la_temporal la = (inject_Z (in_total ci) * in_cpo ci)%Q /\
  la_total0 la = (la_temporal la + inject_Z stall)%Q /\
  la_total1 la = (la_total0 la + on)%Q /\ la_total2 la = (la_total1 la + off)%Q /\
  (la_spatial_util la * la_temporal la == inject_Z (la_ideal la))%Q /\
  (la_util0 la * la_total0 la == inject_Z (la_ideal la))%Q /\
  (la_util1 la * la_total1 la == inject_Z (la_ideal la))%Q /\
  (la_util2 la * la_total2 la == inject_Z (la_ideal la))%Q.
Proof.
  unfold overall_latency. intros H. apply rbind_Ok in H. destruct H as (per & H1 & H). apply pdiv_val in H1. destruct H1 as (-> & U).
  cbn zeta in H.
  apply rbind_Ok in H. destruct H as (su & H2 & H). apply pdiv_val in H2. destruct H2 as (-> & N0).
  apply rbind_Ok in H. destruct H as (u0 & H2 & H). apply pdiv_val in H2. destruct H2 as (-> & N1).
  apply rbind_Ok in H. destruct H as (u1 & H2 & H). apply pdiv_val in H2. destruct H2 as (-> & N2).
  apply rbind_Ok in H. destruct H as (u2 & H2 & H). apply pdiv_val in H2. destruct H2 as (-> & N3). injection H as <-. cbn [la_ideal la_temporal la_total0 la_total1 la_total2 la_spatial_util la_util0 la_util1 la_util2].
  split; [intros X; apply U; rewrite X; reflexivity|]. do 5 (split; [reflexivity|]).
  repeat split; apply div_mul; assumption.
Qed.

Lemma util_mono i a b x y : (0 <= i)%Q -> (0 < a)%Q -> (a <= b)%Q -> (x * a == i)%Q -> (y * b == i)%Q -> (y <= x)%Q.
Proof.
  intros I A L X Y. assert (Hx : (x == i / a)%Q) by (rewrite <- X; field; lra). assert (Hy : (y == i / b)%Q) by (rewrite <- Y; field; lra).
  rewrite Hx, Hy. apply Qle_shift_div_l; [assumption|]. setoid_replace (i / b * a)%Q with (i * a / b)%Q by (field; lra).
  apply Qle_shift_div_r; [lra|]. nra.
Qed.

Lemma latency_chain ci la : (exists data, NoDup (keys data) /\ make_links data = Ok (in_links ci)) ->
  sound_timing ci -> few_single ci -> (0 < in_total ci)%Z -> (0 < in_cpo ci)%Q -> (0 <= in_macs ci)%Z -> (0 < in_units ci)%Z ->
  calc_latency ci = Ok la ->
  (0 < la_temporal la /\ la_temporal la <= la_total0 la /\ la_total0 la <= la_total1 la /\ la_total1 la <= la_total2 la /\
   0 <= la_util2 la /\ la_util2 la <= la_util1 la /\ la_util1 la <= la_util0 la /\ la_util0 la <= la_spatial_util la)%Q.
Proof.
  intros LK ST FS TT CP MA UN H. destruct (latency_inv ci la H) as (ind & sh & flags & sh' & allowed & real & st & _ & _ & _ & T & S & LD & ON & OFF & OV).
  destruct (stall_ge ci allowed real _ S) as (S0 & _).
  assert (NL := loading_all_nonneg ci flags allowed real _ st LK ST FS T LD).
  assert (On := onloading_nonneg ci st _ NL ON). assert (Off := offloading_nonneg ci st _ NL OFF).
  destruct (overall_spec ci _ _ _ _ OV) as (_ & I & Te & T0 & T1 & T2 & U & U0 & U1 & U2).
  assert (TP : (0 < la_temporal la)%Q).
  { rewrite Te. assert (0 < inject_Z (in_total ci))%Q by (change 0%Q with (inject_Z 0); now rewrite <- Zlt_Qlt). nra. }
  apply inject_nonneg in S0.
  assert (I0 : (0 <= inject_Z (la_ideal la))%Q).
  { rewrite I. apply inject_nonneg, ceil_nonneg. apply Qmult_le_0_compat; [|lra]. apply inject_nonneg, ceil_nonneg, div_nonneg; lia. }
  assert (L0 : (la_temporal la <= la_total0 la)%Q) by (rewrite T0; lra). assert (L1 : (la_total0 la <= la_total1 la)%Q) by (rewrite T1; lra).
  assert (L2 : (la_total1 la <= la_total2 la)%Q) by (rewrite T2; lra).
  assert (U2n : (0 <= la_util2 la)%Q).
  { assert (E : (la_util2 la == inject_Z (la_ideal la) / la_total2 la)%Q) by (rewrite <- U2; field; lra). rewrite E. apply Qle_shift_div_l; lra. }
  repeat (split; [assumption|]). repeat split.
  - eapply util_mono; [exact I0| |exact L2|exact U1|exact U2]. lra.
  - eapply util_mono; [exact I0| |exact L1|exact U0|exact U1]. lra.
  - eapply util_mono; [exact I0|exact TP|exact L0|exact U|exact U0].
Qed.

Lemma latency_totals ci la : calc_latency ci = Ok la ->
  (0 <= la_stall la)%Z /\ in_units ci <> 0%Z /\
  la_ideal la = Qceiling (inject_Z (Qceiling (inject_Z (in_macs ci) / inject_Z (in_units ci))) * in_cpo ci) /\
  (la_temporal la == inject_Z (in_total ci) * in_cpo ci)%Q /\
  (la_temporal la <= la_total0 la)%Q /\
  (la_total0 la == la_temporal la + inject_Z (la_stall la))%Q /\
  (la_total1 la == la_total0 la + la_on la)%Q /\ (la_total2 la == la_total1 la + la_off la)%Q /\
  (la_spatial_util la * la_temporal la == inject_Z (la_ideal la))%Q /\
  (la_util0 la * la_total0 la == inject_Z (la_ideal la))%Q /\
  (la_util1 la * la_total1 la == inject_Z (la_ideal la))%Q /\
  (la_util2 la * la_total2 la == inject_Z (la_ideal la))%Q.
Proof.
  intros H. apply latency_inv in H. destruct H as (ind & sh & flags & sh' & al & re & st & _ & _ & _ & _ & Hs & _ & _ & _ & Ho).
  apply stall_ge in Hs. destruct Hs as [S _].
  destruct (overall_spec _ _ _ _ _ Ho) as (U & E1 & E2 & E3 & E4 & E5 & R).
  split; [exact S|]. split; [exact U|]. split; [exact E1|]. split; [rewrite E2; reflexivity|].
  assert (P : (0 <= inject_Z (la_stall la))%Q) by (unfold Qle; cbn; lia).
  split; [rewrite E3; set (u := inject_Z _) in *; set (v := la_temporal la) in *; clearbody u v; lra|].
  split; [rewrite E3; reflexivity|]. split; [rewrite E4; reflexivity|]. split; [rewrite E5; reflexivity|]. exact R.
Qed.
