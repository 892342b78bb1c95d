(** What a built memory hierarchy provides to the evaluation (C74). *)
From Coq Require Import QArith Lia.
From Verif Require Import Base Model_DataMove Model_Cost Model_Graph Model_Hierarchy Spec_Graph Spec_Cost Spec_Hierarchy
  Proof_AllocSearch Proof_Graph Proof_Bandwidth Proof_Hierarchy Proof_Ports Proof_Sharing.
Local Open Scope list_scope.
Local Open Scope nat_scope.

Lemma filter_order {A} (f : A -> bool) l : forall a b x y, a < b -> nth_error (filter f l) a = Some x -> nth_error (filter f l) b = Some y ->
  exists i j, i < j /\ nth_error l i = Some x /\ nth_error l j = Some y.
Proof.
  induction l as [|z l IH]; intros a b x y L Ea Eb; [destruct a; discriminate|]. cbn [filter] in Ea, Eb. destruct (f z).
  - destruct b as [|b]; [lia|]. cbn [nth_error] in Eb. destruct a as [|a].
    + injection Ea as <-. apply nth_error_In in Eb. apply filter_In in Eb. destruct Eb as (Eb & _). apply In_nth_error in Eb. destruct Eb as (j & Ej). exists 0, (S j). split; [lia|]. now split.
    + cbn [nth_error] in Ea. destruct (IH a b x y) as (i & j & Lij & Ei & Ej); [lia|exact Ea|exact Eb|]. exists (S i), (S j). split; [lia|]. now split.
  - destruct (IH a b x y L Ea Eb) as (i & j & Lij & Ei & Ej). exists (S i), (S j). split; [lia|]. now split.
Qed.

Lemma dget_mapped {V W} (f : V -> W) (d : dict string V) op : dget op (map (fun x => (fst x, f (snd x))) d) = option_map f (dget op d).
Proof. induction d as [|[k v] d IH]; [reflexivity|]. cbn [map dget fst snd]. destruct (eqb op k); [reflexivity|exact IH]. Qed.

Lemma set_bandwidth_keys op d b bw bw' : set_bandwidth op d b bw = Ok bw' -> keys bw' = keys bw.
Proof.
  unfold set_bandwidth. intros Q. apply rbind_Ok in Q. destruct Q as (i & Ei & Q). injection Q as <-. apply keys_dset_in. apply dgetr_Ok in Ei. now apply dget_Some_key in Ei.
Qed.
Lemma fill_keys op lv a : forall st st', rfold (fill_one op lv) st a = Ok st' -> keys (snd st') = keys (snd st) /\ keys (snd (fst st')) = keys (snd (fst st)).
Proof.
  induction a as [|x a IH]; intros [[ps bmin] bmax] st' Q; cbn [rfold] in Q; [injection Q as <-; now split|]. apply rbind_Ok in Q. destruct Q as (st1 & E1 & Q). destruct (IH _ _ Q) as (-> & ->). clear IH Q.
  unfold fill_one in E1. apply rbind_Ok in E1. destruct E1 as (i & _ & E1). apply rbind_Ok in E1. destruct E1 as (y & _ & E1). cbv zeta in E1.
  apply rbind_Ok in E1. destruct E1 as (b1 & E3 & E1). apply rbind_Ok in E1. destruct E1 as (b2 & E2 & E1). injection E1 as <-. cbn [fst snd]. apply set_bandwidth_keys in E2. apply set_bandwidth_keys in E3. now split.
Qed.
Lemma fill_all_keys al levels : forall st st', rfold (fun st ol => a <- dgetr (fst ol) al ;; rfold (fill_one (fst ol) (snd ol)) st a)%result st levels = Ok st' -> keys (snd st') = keys (snd st) /\ keys (snd (fst st')) = keys (snd (fst st)).
Proof.
  induction levels as [|x a IH]; intros st st' Q; cbn [rfold] in Q; [injection Q as <-; now split|]. apply rbind_Ok in Q. destruct Q as (st1 & E1 & Q). destruct (IH _ _ Q) as (-> & ->). clear IH Q.
  apply rbind_Ok in E1. destruct E1 as (i & _ & E1). now apply fill_keys in E1.
Qed.
Lemma allocated_keys ports operands levels al pts bmin bmax : allocate_ports ports operands levels al = Ok (pts, bmin, bmax) -> forall op, In op (keys bmax) \/ In op (keys bmin) -> In op operands.
Proof.
  unfold allocate_ports. intros Q op I. cbv zeta in Q. apply rbind_Ok in Q. destruct Q as ([[ps b1] b2] & E & Q). injection Q as _ <- <-. apply fill_all_keys in E. cbn [fst snd] in E. destruct E as (E & E'). rewrite E, E' in I. assert (J : In op (keys (fold_left (fun d op => dset op (map (fun k : direction => (k, @None Z)) directions) d) operands []))) by tauto. clear I. rename J into I.
  apply key_dget in I. destruct I as (v & I). rewrite fold_dset_get in I. destruct (memb op operands) eqn:M; [now apply memb_In|discriminate].
Qed.

Lemma moved_dec m op d : (exists p, moved_by m op d p) \/ (forall p, ~ moved_by m op d p).
Proof.
  destruct (find (fun p => listedb op d (ps_alloc p)) (rev (ms_ports m))) as [p|] eqn:F.
  - left. exists p. apply (find_last (fun p => listedb op d (ps_alloc p))); [intros; apply listedb_spec|exact F].
  - right. intros p M. rewrite (last_find (fun p => listedb op d (ps_alloc p)) (listed op d) _ p) in F; [discriminate|intros; apply listedb_spec|exact M].
Qed.

Section Hardware.
  Variables (k : nat) (ms : list memspec) (h : hierarchy).
  Hypothesis E : build k ms = Ok h.
  Hypothesis N : names_once ms.
  Hypothesis G : heights_grow h.

  Lemma described_at i l : nth_error (h_list h) i = Some l -> exists m, nth_error ms i = Some m /\ described m l.
  Proof.
    intros El. destruct (build_inv k ms h E) as (_ & D). clear E N G. revert i El. induction D as [|m l' ms' ls' D0 D IH]; intros i El; [destruct i; discriminate|].
    destruct i as [|i]; [injection El as <-; now exists m|]. exact (IH i El).
  Qed.

  Lemma numbered op lv l : nth_error (holders h op) lv = Some l -> dget op (lv_dict l) = Some lv /\ stores op l /\ exists i, nth_error (h_list h) i = Some l.
  Proof.
    intros El. assert (L := levels_in_order k ms h op E). assert (Q : nth_error (map (fun l => dget op (lv_dict l)) (holders h op)) lv = Some (dget op (lv_dict l))) by (rewrite nth_error_map, El; reflexivity).
    rewrite L, nth_error_map in Q. assert (Lt : lv < length (holders h op)) by (apply nth_error_Some; congruence).
    assert (Es : nth_error (seq 0 (length (holders h op))) lv = Some lv) by (rewrite (nth_error_nth' _ 0) by (now rewrite seq_length); now rewrite seq_nth).
    rewrite Es in Q. cbn [option_map] in Q. injection Q as <-. split; [reflexivity|]. apply nth_error_In in El. apply filter_In in El. destruct El as (I & S0). split; [now apply memb_In|now apply In_nth_error].
  Qed.
  Lemma number_at op lv l : In l (h_list h) -> dget op (lv_dict l) = Some lv -> nth_error (holders h op) lv = Some l.
  Proof.
    intros I D. destruct (build_inv k ms h E) as (IV & _). assert (I' := I). apply In_nth_error in I'. destruct I' as (i & Ei). assert (D' := hi_dict h IV i l op Ei). rewrite D in D'.
    destruct (memb op (lv_operands l)) eqn:M; [|discriminate]. assert (H : In l (holders h op)) by (apply filter_In; now split). apply In_nth_error in H. destruct H as (lv' & El).
    destruct (numbered op lv' l El) as (Q & _). rewrite D in Q. now injection Q as <-.
  Qed.

  Lemma accelerator_ok : exists hd sharing, accelerator h = Ok (hd, map lv_mem (h_list h), sharing) /\
    (forall op, holders h op <> [] -> dget op hd = Some (map lv_mem (holders h op))) /\
    (forall op ls, In (op, ls) hd -> ls = map lv_mem (holders h op)) /\
    (forall g, In g sharing <-> exists l, In l (h_list h) /\ g = lv_dict l /\ (1 < length (lv_dict l))%nat).
  Proof.
    destruct (sharing_spec k ms h E) as (hd & Eh & _ & Sh). destruct (hd_ok k ms h E) as (hd' & Eh' & Kd & Ld). rewrite Eh in Eh'. injection Eh' as <-.
    destruct (build_inv k ms h E) as (IV & _). destruct (levels_perm k ms h E) as (L & _ & T & Q).
    assert (Hd : forall op ls, In (op, ls) hd -> ls = holders h op).
    { intros op ls I. apply Ld in I. destruct (Q op) as (ls' & E' & Ef & _). rewrite I in E'. injection E' as <-. rewrite Ef. now apply grown_order. }
    unfold accelerator. rewrite Eh. cbn [rbind]. exists (map (fun x => (fst x, map lv_mem (snd x))) hd), (mem_sharing_list hd). split; [reflexivity|]. split; [|split].
    - intros op H. rewrite dget_mapped. assert (K : In op (keys hd)).
      { rewrite Kd. apply (hi_nbkeys h IV). destruct (holders h op) as [|l ls] eqn:Eo; [easy|]. exists l. assert (I : In l (holders h op)) by (rewrite Eo; now left). apply filter_In in I. exact I. }
      destruct (key_dget _ _ K) as (ls & Es). rewrite Es. cbn [option_map]. now rewrite (Hd op ls (dget_In _ _ _ Es)).
    - intros op ls I. apply in_map_iff in I. destruct I as ((op', ls') & Q' & I). injection Q' as <- <-. now rewrite (Hd op' ls' I).
    - exact Sh.
  Qed.

  Lemma level_widths i m l op d : nth_error ms i = Some m -> nth_error (h_list h) i = Some l -> stores op l ->
    (exists p, moved_by m op d p /\ In p (ms_ports m) /\ width (ml_bw_max (lv_mem l)) op d (Some (ps_bw_max p)) /\ width (ml_bw_min (lv_mem l)) op d (Some (ps_bw_min p))) \/
    ((forall p, ~ moved_by m op d p) /\ width (ml_bw_max (lv_mem l)) op d None /\ width (ml_bw_min (lv_mem l)) op d None).
  Proof.
    intros Em El So. destruct (level_ports k ms h i m l N E Em El) as (_ & _ & A3 & A4).
    assert (W : forall (t : dict string (dict direction (option Z))) v, Spec_Hierarchy.get2 t op d = Some v -> width t op d v).
    { intros t v. unfold Spec_Hierarchy.get2, width. destruct (dget op t) as [f|]; [|discriminate]. intros Q. now exists f. }
    destruct (moved_dec m op d) as [(p & M)|M].
    - left. exists p. destruct (A3 op d p So M) as (B1 & B2). split; [exact M|]. split; [|split; [now apply W|now apply W]].
      destruct M as (l1 & l2 & -> & _). apply in_or_app. right. now left.
    - right. split; [exact M|]. destruct (A4 op d So M) as (B1 & B2). split; now apply W.
  Qed.

  Lemma width_stored i l op d b : nth_error (h_list h) i = Some l -> width (ml_bw_max (lv_mem l)) op d b \/ width (ml_bw_min (lv_mem l)) op d b -> stores op l.
  Proof.
    intros El W. assert (W' : exists f, dget op (ml_bw_max (lv_mem l)) = Some f \/ dget op (ml_bw_min (lv_mem l)) = Some f) by (destruct W as [(f & Ef & _)|(f & Ef & _)]; eauto). destruct W' as (f & Ef). assert (P := build_ported k ms h E). destruct (described_at i l El) as (m & Em & Dm).
    assert (Pm : ported m l) by (exact (Proof_Energy.F2_nth _ _ _ _ _ _ P Em El)). destruct Pm as (next & al & _ & Ep). unfold stores. rewrite (proj1 Dm). apply (allocated_keys _ _ _ _ _ _ _ Ep op). destruct Ef as [Ef|Ef]; apply dget_Some_key in Ef; [now left|now right].
  Qed.
End Hardware.
