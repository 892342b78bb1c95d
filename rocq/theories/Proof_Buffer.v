(** Proofs about double buffering (C38). *)
From Coq Require Import QArith Lqa.
From Verif Require Import Base Model_DataMove Model_Mapping Model_Links Model_Cost Model_Latency Spec_Cost Spec_Latency
  Proof_AllocSearch Proof_Bandwidth Proof_Links Proof_Energy.

(** * Members of a group *)

Lemma links_data data l : make_links data = Ok l -> lk_data l = data.
Proof. unfold make_links. destruct (Nat.eqb _ _); intros E; [|discriminate]. now injection E as <-. Qed.

Lemma filter_snd (data : dict string string) m : NoDup (keys data) -> NoDup (values data) ->
  filter (fun kv => eqb (snd kv) m) data =
  match dget m (map (fun kv => (snd kv, fst kv)) data) with Some op => [(op, m)] | None => [] end.
Proof.
  induction data as [|[k v] d IH]; intros N1 N2; [reflexivity|]. cbn in N1, N2. apply NoDup_cons_iff in N1, N2.
  destruct N1 as [K1 N1], N2 as [K2 N2]. cbn [filter map fst snd dget].
  destruct (eqb_spec v m) as [E|E].
  - subst m. rewrite eqb_refl. f_equal. rewrite IH by assumption.
    destruct (dget v _) as [op|] eqn:D; [|reflexivity]. elim K2. apply dget_In in D. apply in_map_iff in D.
    destruct D as ((a & b) & X & I). cbn in X. injection X as -> ->. apply in_map_iff. now exists (op, v).
  - rewrite eqb_neq by congruence. now apply IH.
Qed.

Lemma members_ok ci g : sharing_ok ci -> used_members ci g = Ok (members ci g).
Proof.
  intros [(data & K & E) _ _ _]. assert (N : NoDup (values data)) by (apply links_ok; eauto).
  assert (D : lk_data (in_links ci) = data /\ lk_reverse (in_links ci) = map (fun kv => (snd kv, fst kv)) data).
  { unfold make_links in E. destruct (Nat.eqb _ _); [|discriminate]. injection E as <-. cbn. now rewrite reverse_nodup. }
  destruct D as [D1 D2]. unfold used_members, members. rewrite D1.
  induction g as [|[m lv] g IH]; [reflexivity|]. cbn [filter flat_map fst snd].
  rewrite (filter_snd _ _ K N). unfold contains_mem_op. rewrite D1.
  destruct (dget m (map (fun kv => (snd kv, fst kv)) data)) as [op|] eqn:X.
  - assert (M : memb m (values data) = true).
    { apply memb_In. apply dget_Some_key in X. unfold keys in X. rewrite map_map in X. exact X. }
    rewrite M. cbn [rmap fst snd map app]. unfold mem_to_layer_op, dgetr. rewrite D2, X. cbn [of_option rbind].
    unfold mem_to_layer_op, dgetr in IH. rewrite D2 in IH. unfold contains_mem_op in IH. rewrite D1 in IH. now rewrite IH.
  - assert (M : memb m (values data) = false).
    { apply memb_not_In. apply dget_None in X. unfold keys in X. rewrite map_map in X. exact X. }
    rewrite M. cbn [map app]. unfold contains_mem_op in IH. rewrite D1 in IH. exact IH.
Qed.

Lemma members_In ci g x : sharing_ok ci ->
  In x (members ci g) <-> exists m, In (m, snd x) g /\ dget (fst x) (lk_data (in_links ci)) = Some m.
Proof.
  intros [(data & K & E) _ _ _]. assert (N : NoDup (values data)) by (apply links_ok; eauto).
  assert (D : lk_data (in_links ci) = data) by now apply links_data.
  unfold members. rewrite D, in_flat_map. split.
  - intros ((m & lv) & I & H). apply in_map_iff in H. destruct H as ((o & m') & <- & H). apply filter_In in H. cbn [fst snd] in H.
    destruct H as (H & Em). destruct (eqb_spec m' m) as [Q|Q]; [|discriminate]. subst m'. exists m. cbn. split; [assumption|]. now apply In_dget.
  - intros (m & I & H). exists (m, snd x). split; [assumption|]. apply in_map_iff. exists (fst x, m). cbn [fst snd]. split; [now destruct x|].
    apply filter_In. cbn [fst snd]. split; [now apply dget_In|apply eqb_refl].
Qed.

Lemma members_NoDup ci g : sharing_ok ci -> NoDup g -> NoDup (members ci g).
Proof.
  intros SO. assert (SO' := SO). destruct SO' as [(data & K & E) _ _ _]. assert (N : NoDup (values data)) by (apply links_ok; eauto).
  assert (D : lk_data (in_links ci) = data) by now apply links_data.
  induction g as [|[m lv] g IH]; intros NG; [constructor|]. apply NoDup_cons_iff in NG. destruct NG as [G1 G2].
  unfold members. cbn [flat_map]. fold (members ci g). apply NoDup_app_intro.
  - cbn [fst snd]. rewrite D, (filter_snd _ _ K N). destruct (dget m _); repeat constructor; intros [].
  - now apply IH.
  - intros x H1 H2. apply members_In in H2; [|assumption]. destruct H2 as (m' & I & H2). cbn [fst snd] in H1.
    apply in_map_iff in H1. destruct H1 as ((o & m2) & <- & H1). apply filter_In in H1. cbn [fst snd] in H1, H2, I.
    destruct H1 as (H1 & Em). destruct (eqb_spec m2 m) as [Q|Q]; [|discriminate]. subst m2.
    rewrite D in H1, H2. assert (dget o data = Some m) by now apply In_dget. apply G1. congruence.
Qed.

Lemma members_same ci g g' x : sharing_ok ci -> In g (in_sharing ci) -> In g' (in_sharing ci) ->
  In x (members ci g) -> In x (members ci g') -> g = g'.
Proof.
  intros SO I I' H H'. apply members_In in H; [|assumption]. apply members_In in H'; [|assumption].
  destruct H as (m & Hm & E), H' as (m' & Hm' & E'). assert (m' = m) by congruence. subst m'.
  eapply (so_disjoint ci SO); eassumption.
Qed.

(** * Tables *)

Lemma set_at_nth {A} i (x : A) l l' : set_at i x l = Ok l' ->
  forall j, nth_error l' j = if Nat.eqb j i then Some x else nth_error l j.
Proof.
  revert l l'. induction i as [|i IH]; intros [|y l] l' H; cbn in H; try discriminate.
  - injection H as <-. intros [|j]; reflexivity.
  - apply rbind_Ok in H. destruct H as (r & Hr & H). injection H as <-. intros [|j]; [reflexivity|]. cbn. now apply IH.
Qed.

Lemma set2_get d x v d' : set2 d x v = Ok d' -> forall y, get2 d' y = if eqb y x then Ok v else get2 d y.
Proof.
  unfold set2, get2. intros H y. apply rbind_Ok in H. destruct H as (l & Hl & H). apply dgetr_Ok in Hl.
  apply rbind_Ok in H. destruct H as (l' & Hl' & H). injection H as <-.
  assert (N := set_at_nth _ _ _ _ Hl'). destruct x as [o lv], y as [o' lv']. cbn [fst snd] in *.
  unfold dgetr. cbn [eqb EqB_prod fst snd]. destruct (eqb_spec o' o) as [E|E].
  - subst o'. rewrite dget_dset_eq, Hl. cbn [of_option rbind]. unfold at_. rewrite N. change (eqb lv' lv) with (Nat.eqb lv' lv).
    cbn [andb]. destruct (Nat.eqb lv' lv); reflexivity.
  - rewrite dget_dset_neq by congruence. reflexivity.
Qed.

Lemma eqb_sym {A} `{EqB A} (x y : A) : eqb x y = eqb y x.
Proof. destruct (eqb_spec x y), (eqb_spec y x); congruence. Qed.

Lemma set_all ms v : forall d d', rfold (fun d x => set2 d x v) d ms = Ok d' ->
  forall y, get2 d' y = if memb y ms then Ok v else get2 d y.
Proof.
  induction ms as [|x ms IH]; intros d d' H y; cbn [rfold] in H; [injection H as <-; reflexivity|].
  destruct (set2 d x v) as [d1|] eqn:E; [|discriminate]. rewrite (IH _ _ H y), (set2_get _ _ _ _ E y).
  unfold memb. cbn [existsb]. destruct (eqb y x), (existsb (eqb y) ms); reflexivity.
Qed.

Lemma add_all ms i : NoDup ms -> forall d d', rfold (fun d x => v <- get2 d x ;; set2 d x (v + i)%Q)%result d ms = Ok d' ->
  forall y, get2 d' y = if memb y ms then (v <- get2 d y ;; Ok (v + i)%Q)%result else get2 d y.
Proof.
  induction ms as [|x ms IH]; intros N d d' H y; cbn [rfold] in H; [injection H as <-; reflexivity|].
  apply NoDup_cons_iff in N. destruct N as [N1 N].
  destruct (get2 d x) as [v|] eqn:G; [|discriminate]. cbn [rbind] in H.
  destruct (set2 d x (v + i)%Q) as [d1|] eqn:E; [|discriminate]. rewrite (IH N _ _ H y), (set2_get _ _ _ _ E y).
  unfold memb. cbn [existsb]. destruct (eqb_spec y x) as [Q|Q]; [|reflexivity]. subst y.
  apply memb_not_In in N1. unfold memb in N1. rewrite N1. cbn [orb]. now rewrite G.
Qed.

Lemma get2_util d x v : get2 d x = Ok v -> util d x = v.
Proof.
  unfold get2, util. intros H. apply rbind_Ok in H. destruct H as (l & Hl & H). apply dgetr_Ok in Hl. rewrite Hl.
  apply at_Ok in H. now apply nth_error_nth.
Qed.

Lemma rmap_util d ms us : rmap (get2 d) ms = Ok us -> us = map (util d) ms.
Proof.
  intros H. apply rmap_Forall2 in H. induction H as [|x u ms us H F IH]; [reflexivity|]. cbn. now rewrite (get2_util _ _ _ H), IH.
Qed.

(** * Shared utilization *)

Lemma shared_spec ci ind sh : sharing_ok ci -> shared ci ind = Ok sh ->
  (forall g x, In g (in_sharing ci) -> In x (members ci g) -> get2 sh x = Ok (qsum (map (util ind) (members ci g))) /\ exists v, get2 ind x = Ok v) /\
  (forall x, (forall g, In g (in_sharing ci) -> ~ In x (members ci g)) -> get2 sh x = get2 ind x).
Proof.
  intros SO H. unfold shared in H.
  assert (P : forall gs pre d d', (pre ++ gs = in_sharing ci)%list ->
    (forall g x, In g pre -> In x (members ci g) -> get2 d x = Ok (qsum (map (util ind) (members ci g))) /\ exists v, get2 ind x = Ok v) ->
    (forall x, (forall g, In g pre -> ~ In x (members ci g)) -> get2 d x = get2 ind x) ->
    rfold (fun d g => ms <- used_members ci g ;; us <- rmap (get2 ind) ms ;; rfold (fun d x => set2 d x (qsum us)) d ms)%result d gs = Ok d' ->
    (forall g x, In g (pre ++ gs) -> In x (members ci g) -> get2 d' x = Ok (qsum (map (util ind) (members ci g))) /\ exists v, get2 ind x = Ok v) /\
    (forall x, (forall g, In g (pre ++ gs) -> ~ In x (members ci g)) -> get2 d' x = get2 ind x)).
  { induction gs as [|g gs IH]; intros pre d d' Epre A B R; cbn [rfold] in R.
    - injection R as <-. rewrite app_nil_r. tauto.
    - rewrite members_ok in R by assumption. cbn [rbind] in R.
      destruct (rmap (get2 ind) (members ci g)) as [us|] eqn:U; [|discriminate]. cbn [rbind] in R.
      destruct (rfold (fun d x => set2 d x (qsum us)) d (members ci g)) as [d1|] eqn:S; [|discriminate].
      assert (S' := set_all _ _ _ _ S). assert (U' := rmap_util _ _ _ U).
      assert (Ig : In g (in_sharing ci)) by (rewrite <- Epre; apply in_or_app; right; now left).
      replace (pre ++ g :: gs)%list with ((pre ++ [g]) ++ gs)%list by (now rewrite <- app_assoc).
      apply IH with (d := d1); [now rewrite <- app_assoc| | |exact R].
      + intros g' x I Ix. apply in_app_or in I. destruct I as [I|[<-|[]]].
        * rewrite S'. destruct (A g' x I Ix) as (A1 & A2). destruct (memb x (members ci g)) eqn:M; [|tauto].
          apply memb_In in M. assert (Ig' : In g' (in_sharing ci)) by (rewrite <- Epre; apply in_or_app; now left).
          assert (g' = g) by (eapply members_same; eassumption). subst g'. split; [now rewrite U'|assumption].
        * rewrite S'. assert (M : memb x (members ci g) = true) by now apply memb_In. rewrite M. split; [now rewrite U'|].
          apply rmap_Forall2 in U. destruct (Forall2_in_l _ _ _ _ U Ix) as (v & _ & Hv). now exists v.
      + intros x Hx. rewrite S'. assert (M : memb x (members ci g) = false).
        { apply memb_not_In. apply Hx. apply in_or_app. right. now left. }
        rewrite M. apply B. intros g' I. apply Hx. apply in_or_app. now left. }
  apply (P (in_sharing ci) [] ind sh); [reflexivity|intros ? ? []|reflexivity|exact H].
Qed.

(** * Granting *)

Definition glog (log : list ((string * nat) * bool)) (y : string * nat) : bool :=
  existsb (fun e => eqb y (fst e) && snd e) log.

Lemma glog_app l1 l2 y : glog (l1 ++ l2) y = glog l1 y || glog l2 y.
Proof. apply existsb_app. Qed.
Lemma glog_fresh log y : ~ In y (map fst log) -> glog log y = false.
Proof.
  intros N. unfold glog. destruct (existsb _ log) eqn:E; [|reflexivity]. apply existsb_exists in E. destruct E as ((z & b) & I & E).
  cbn [fst snd] in E. destruct (eqb_spec y z) as [Q|Q]; [|discriminate]. subst z. elim N. apply in_map_iff. now exists (y, b).
Qed.

Definition taken (ind : dict string (list Q)) (log : list ((string * nat) * bool)) (ms : list (string * nat)) : Q :=
  qsum (map (util ind) (filter (glog log) ms)).

Lemma taken_false ind log ms y : taken ind (log ++ [(y, false)]) ms = taken ind log ms.
Proof.
  unfold taken. f_equal. f_equal. apply filter_ext. intros z. rewrite glog_app. cbn [glog existsb fst snd]. now rewrite andb_false_r, !orb_false_r.
Qed.
Lemma taken_out ind log ms y b : ~ In y ms -> taken ind (log ++ [(y, b)]) ms = taken ind log ms.
Proof.
  intros N. unfold taken. f_equal. f_equal. apply filter_ext_in. intros z I. rewrite glog_app. cbn [glog existsb fst snd].
  rewrite eqb_neq by (intros ->; contradiction). cbn. now rewrite orb_false_r.
Qed.
Lemma taken_true ind log ms y : NoDup ms -> In y ms -> glog log y = false ->
  (taken ind (log ++ [(y, true)]) ms == taken ind log ms + util ind y)%Q.
Proof.
  unfold taken. induction ms as [|x ms IH]; intros N I G; [destruct I|]. apply NoDup_cons_iff in N. destruct N as [N1 N].
  cbn [filter]. rewrite glog_app. destruct I as [<-|I].
  - rewrite G. cbn [glog existsb fst snd]. rewrite eqb_refl. cbn [andb orb map]. rewrite qsum_cons.
    assert (T := taken_out ind log ms x true N1). unfold taken in T. rewrite T. ring.
  - assert (Nx : x <> y) by (intros ->; contradiction). cbn [glog existsb fst snd]. rewrite (eqb_neq x y Nx). cbn [andb orb]. rewrite orb_false_r.
    destruct (glog log x); cbn [map]; rewrite ?qsum_cons, IH by assumption; ring.
Qed.

Lemma taken_nonneg ind log ms : (forall x, (0 <= util ind x)%Q) -> (0 <= taken ind log ms)%Q.
Proof. intros H. apply qsum_nonneg. intros x Hx. apply in_map_iff in Hx. destruct Hx as (y & <- & _). apply H. Qed.

(** What is known of one group after the visits [log] *)
Definition group_inv (ind : dict string (list Q)) (ms : list (string * nat)) (log : list ((string * nat) * bool)) (sh : dict string (list Q)) : Prop :=
  let U := qsum (map (util ind) ms) in
  if Qle_bool U (1 # 2)
  then (forall x, In x ms -> exists v, get2 sh x = Ok v /\ (v == U)%Q) /\ (forall x b, In (x, b) log -> In x ms -> b = true)
  else (forall x, In x ms -> exists v, get2 sh x = Ok v /\ (v == U + taken ind log ms)%Q) /\
       ((exists x, In x ms /\ glog log x = true) -> (U + taken ind log ms <= 1)%Q).

Lemma step_group ci ind sh g op mem_op lv b sh' log : sharing_ok ci -> (forall x, (0 <= util ind x)%Q) -> In g (in_sharing ci) ->
  dget op (lk_data (in_links ci)) = Some mem_op -> ~ In (op, lv) (map fst log) ->
  double_buffer_step ci ind op mem_op lv sh = Ok (b, sh') ->
  group_inv ind (members ci g) log sh -> group_inv ind (members ci g) (log ++ [((op, lv), b)]) sh'.
Proof.
  intros SO NN Ig El Fr H J. unfold double_buffer_step in H.
  apply rbind_Ok in H. destruct H as (s & Gs & H).
  set (ms := members ci g) in *.
  assert (Other : forall g' i, In g' (in_sharing ci) -> In (mem_op, lv) g' -> ~ In (op, lv) ms ->
    forall sh1, rfold (fun d x => v <- get2 d x ;; set2 d x (v + i)%Q)%result sh (members ci g') = Ok sh1 ->
    forall x, In x ms -> get2 sh1 x = get2 sh x).
  { intros g' i Ig' Im No sh1 R x Ix. rewrite (add_all _ i (members_NoDup ci g' SO (so_sets ci SO g' Ig')) _ _ R).
    destruct (memb x (members ci g')) eqn:M; [|reflexivity]. apply memb_In in M. exfalso. apply No.
    assert (g' = g) by (eapply members_same; eassumption). subst g'. apply members_In; [assumption|]. now exists mem_op. }
  assert (Find : forall g', shared_mem_list ci mem_op lv = Some g' -> In g' (in_sharing ci) /\ In (mem_op, lv) g').
  { intros g' F. unfold shared_mem_list in F. apply find_some in F. destruct F as (F & M). apply memb_In in M. tauto. }
  unfold group_inv in *. cbn zeta in *. set (U := qsum (map (util ind) ms)) in *.
  destruct (in_dec (fun x y => eq_dec_of x y) (op, lv) ms) as [I|No].
  - (* a member *)
    destruct (Qle_bool U (1 # 2)) eqn:BU.
    + destruct J as (J1 & J2). destruct (J1 _ I) as (v & Gv & Ev). rewrite Gs in Gv. injection Gv as <-.
      apply Qle_bool_iff in BU. assert (Bs : Qle_bool s (1 # 2) = true) by (apply Qle_bool_iff; lra). rewrite Bs in H.
      injection H as <- <-. split; [exact J1|]. intros x b' Ib Ix. apply in_app_or in Ib. destruct Ib as [Ib|[E|[]]]; [eauto|]. now injection E as <- <-.
    + destruct J as (J1 & J2). destruct (J1 _ I) as (v & Gv & Ev). rewrite Gs in Gv. injection Gv as <-.
      assert (BU' : (1 # 2 < U)%Q) by (apply Qnot_le_lt; intros L; apply Qle_bool_iff in L; congruence).
      assert (T0 := taken_nonneg ind log ms NN).
      assert (Bs : Qle_bool s (1 # 2) = false).
      { destruct (Qle_bool s (1 # 2)) eqn:Bs; [|reflexivity]. apply Qle_bool_iff in Bs. lra. }
      rewrite Bs in H. apply rbind_Ok in H. destruct H as (i & Gi & H). assert (Ui := get2_util _ _ _ Gi).
      assert (GF := glog_fresh _ _ Fr).
      destruct (Qle_bool i (1 - s)) eqn:Bi.
      * apply Qle_bool_iff in Bi.
        destruct (shared_mem_list ci mem_op lv) as [g'|] eqn:F.
        -- destruct (Find g' eq_refl) as (Ig' & Im).
           assert (g' = g).
           { apply members_In in I; [|assumption]. destruct I as (m & Hm & E). cbn in Hm, E. assert (m = mem_op) by congruence. subst m.
             eapply (so_disjoint ci SO); eassumption. }
           subst g'. rewrite members_ok in H by assumption. cbn [rbind] in H. apply rbind_Ok in H. destruct H as (sh1 & R & H). injection H as <- <-.
           assert (A := add_all _ i (members_NoDup ci g SO (so_sets ci SO g Ig)) _ _ R). fold ms in A.
           assert (N := members_NoDup ci g SO (so_sets ci SO g Ig)). fold ms in N.
           assert (TT := taken_true ind log ms (op, lv) N I GF). rewrite Ui in TT.
           split.
           ++ intros x Ix. destruct (J1 x Ix) as (v & Gv & Evx). exists (v + i)%Q. rewrite A. apply memb_In in Ix. rewrite Ix, Gv. cbn [rbind].
              split; [reflexivity|]. rewrite Evx, TT. ring.
           ++ intros _. rewrite TT. lra.
        -- exfalso. apply members_In in I; [|assumption]. destruct I as (m & Hm & E). cbn in Hm, E. assert (m = mem_op) by congruence. subst m.
           unfold shared_mem_list in F. assert (X := find_none _ _ F g Ig). cbn in X. apply memb_In in Hm. congruence.
      * injection H as <- <-. rewrite taken_false. split; [exact J1|]. intros (x & Ix & Gx). apply J2. exists x. split; [assumption|].
        rewrite glog_app in Gx. cbn [glog existsb fst snd] in Gx. rewrite andb_false_r, !orb_false_r in Gx. exact Gx.
  - (* elsewhere: nothing changes for this group *)
    assert (Same : forall x, In x ms -> get2 sh' x = get2 sh x).
    { destruct (Qle_bool s (1 # 2)); [injection H as _ <-; reflexivity|]. apply rbind_Ok in H. destruct H as (i & Gi & H).
      destruct (Qle_bool i (1 - s)); [|injection H as _ <-; reflexivity].
      destruct (shared_mem_list ci mem_op lv) as [g'|] eqn:F; [|injection H as _ <-; reflexivity].
      destruct (Find g' eq_refl) as (Ig' & Im). rewrite members_ok in H by assumption. cbn [rbind] in H.
      apply rbind_Ok in H. destruct H as (sh1 & R & H). injection H as _ <-. eapply Other; eassumption. }
    destruct (Qle_bool U (1 # 2)) eqn:BU.
    + destruct J as (J1 & J2). split; [intros x Ix; rewrite Same by assumption; now apply J1|].
      intros x b' Ib Ix. apply in_app_or in Ib. destruct Ib as [Ib|[E|[]]]; [eauto|]. injection E as <- <-. contradiction.
    + destruct J as (J1 & J2). rewrite taken_out by assumption. split; [intros x Ix; rewrite Same by assumption; now apply J1|].
      intros (x & Ix & Gx). apply J2. exists x. split; [assumption|]. rewrite glog_app in Gx. cbn [glog existsb fst snd] in Gx.
      rewrite (eqb_neq x (op, lv)) in Gx by (intros ->; contradiction). cbn in Gx. now rewrite orb_false_r in Gx.
Qed.

(** and of a memory that is not shared *)
Definition alone_inv (ind : dict string (list Q)) (x : string * nat) (log : list ((string * nat) * bool)) (sh : dict string (list Q)) : Prop :=
  get2 sh x = get2 ind x /\ (glog log x = true -> (util ind x <= 1 # 2)%Q) /\ ((util ind x <= 1 # 2)%Q -> forall b, In (x, b) log -> b = true).

Lemma step_alone ci ind sh op mem_op lv b sh' log x : sharing_ok ci ->
  (forall g, In g (in_sharing ci) -> ~ In x (members ci g)) ->
  dget op (lk_data (in_links ci)) = Some mem_op ->
  double_buffer_step ci ind op mem_op lv sh = Ok (b, sh') ->
  alone_inv ind x log sh -> alone_inv ind x (log ++ [((op, lv), b)]) sh'.
Proof.
  intros SO Hx El H (J1 & J2 & J3). unfold double_buffer_step in H. apply rbind_Ok in H. destruct H as (s & Gs & H).
  assert (Same : get2 sh' x = get2 sh x).
  { destruct (Qle_bool s (1 # 2)); [injection H as _ <-; reflexivity|]. apply rbind_Ok in H. destruct H as (i & Gi & H).
    destruct (Qle_bool i (1 - s)); [|injection H as _ <-; reflexivity].
    destruct (shared_mem_list ci mem_op lv) as [g'|] eqn:F; [|injection H as _ <-; reflexivity].
    unfold shared_mem_list in F. apply find_some in F. destruct F as (Ig' & _).
    rewrite members_ok in H by assumption. cbn [rbind] in H. apply rbind_Ok in H. destruct H as (sh1 & R & H). injection H as _ <-.
    rewrite (add_all _ i (members_NoDup ci g' SO (so_sets ci SO g' Ig')) _ _ R).
    destruct (memb x (members ci g')) eqn:M; [|reflexivity]. apply memb_In in M. elim (Hx g' Ig' M). }
  split; [congruence|]. split.
  - intros G. rewrite glog_app in G. apply orb_true_iff in G. destruct G as [G|G]; [now apply J2|]. cbn [glog existsb fst snd] in G. rewrite orb_false_r in G.
    apply andb_true_iff in G. destruct G as [G Gb]. subst b. destruct (eqb_spec x (op, lv)) as [E|E]; [|discriminate]. subst x.
    rewrite Gs in J1. assert (U := get2_util _ _ _ (eq_sym J1)). rewrite U.
    destruct (Qle_bool s (1 # 2)) eqn:B; [now apply Qle_bool_iff|].
    apply rbind_Ok in H. destruct H as (i & Gi & H). rewrite <- J1 in Gi. injection Gi as <-.
    destruct (Qle_bool s (1 - s)) eqn:B'; [|discriminate]. apply Qle_bool_iff in B'. lra.
  - intros L b' I. apply in_app_or in I. destruct I as [I|[E|[]]]; [now apply J3|]. injection E as <- <-.
    rewrite Gs in J1. assert (U := get2_util _ _ _ (eq_sym J1)). rewrite U in L. apply Qle_bool_iff in L. rewrite L in H. now injection H as <- _.
Qed.

(** * The loops *)

Lemma buffer_op ci ind op sh fl sh' (P : list ((string * nat) * bool) -> dict string (list Q) -> Prop) log mem_op :
  dget op (lk_data (in_links ci)) = Some mem_op ->
  (forall lv log sh b sh', ~ In (op, lv) (map fst log) -> double_buffer_step ci ind op mem_op lv sh = Ok (b, sh') -> P log sh -> P (log ++ [((op, lv), b)])%list sh') ->
  ~ In op (map (fun e => fst (fst e)) log) ->
  double_buffer_op ci ind op sh = Ok (fl, sh') -> P log sh ->
  exists n bs, levels_of (in_map_int ci) op = Ok n /\ fl = false :: bs /\ length bs = n /\
    P (log ++ combine (map (pair op) (seq 0 n)) bs)%list sh'.
Proof.
  intros El HP Fr H P0. unfold double_buffer_op in H. rewrite (links_mem _ _ _ El) in H. cbn [rbind] in H.
  apply rbind_Ok in H. destruct H as (n & En & H). exists n.
  assert (G : forall lvs log sh st', NoDup lvs -> (forall lv, In lv lvs -> ~ In (op, lv) (map fst log)) -> P log sh -> forall fl0,
    rfold (fun st lv => x <- double_buffer_step ci ind op mem_op lv (snd st) ;; Ok (fst st ++ [fst x], snd x)%list)%result (fl0, sh) lvs = Ok st' ->
    exists bs, fst st' = (fl0 ++ bs)%list /\ length bs = length lvs /\ P (log ++ combine (map (pair op) lvs) bs)%list (snd st')).
  { induction lvs as [|lv lvs IH]; intros lg s st' N F Pl fl0 R; cbn [rfold] in R.
    - injection R as <-. exists []. cbn. rewrite !app_nil_r. tauto.
    - cbn [snd fst] in R. destruct (double_buffer_step ci ind op mem_op lv s) as [[b s1]|] eqn:E; [|discriminate]. cbn [rbind fst snd] in R.
      apply NoDup_cons_iff in N. destruct N as [N1 N].
      assert (P1 := HP lv lg s b s1 (F lv (or_introl eq_refl)) E Pl).
      destruct (IH (lg ++ [((op, lv), b)])%list s1 st' N) with (fl0 := (fl0 ++ [b])%list) as (bs & B1 & B2 & B3); try assumption.
      + intros lv' I J. rewrite map_app in J. apply in_app_or in J. destruct J as [J|[J|[]]]; [now apply (F lv' (or_intror I))|].
        cbn in J. injection J as ->. contradiction.
      + exists (b :: bs). rewrite B1, <- app_assoc. cbn. rewrite B2. split; [reflexivity|]. split; [reflexivity|]. rewrite <- app_assoc in B3. exact B3. }
  destruct (G (seq 0 n) log sh (fl, sh') (seq_NoDup _ _)) with (fl0 := [false]) as (bs & B1 & B2 & B3); try assumption.
  - intros lv _ I. apply Fr. apply in_map_iff in I. destruct I as (e & Ee & I). apply in_map_iff. exists e. now rewrite Ee.
  - exists bs. rewrite seq_length in B2. cbn in B1, B3. tauto.
Qed.

Lemma glog_row op n bs y : length bs = n ->
  glog (combine (map (pair op) (seq 0 n)) bs) y = if eqb (fst y) op then nth (snd y) bs false else false.
Proof.
  intros L. subst n. destruct y as [o lv]. cbn [fst snd].
  assert (G : forall bs s, glog (combine (map (pair op) (seq s (length bs))) bs) (o, lv) = if eqb o op then (if (lv <? s)%nat then false else nth (lv - s) bs false) else false).
  { clear bs. induction bs as [|b bs IH]; intros s.
    - destruct (eqb o op), (lv <? s)%nat; try reflexivity. cbn. now destruct (lv - s)%nat.
    - cbn [length seq map combine]. unfold glog. cbn [existsb fst snd]. fold (glog (combine (map (pair op) (seq (S s) (length bs))) bs) (o, lv)).
      rewrite IH. cbn [eqb EqB_prod fst snd]. destruct (eqb_spec o op) as [E|E]; cbn [andb]; [|reflexivity].
      change (eqb lv s) with (Nat.eqb lv s). destruct (Nat.eqb_spec lv s) as [E2|E2].
      + subst lv. rewrite Nat.ltb_irrefl, Nat.sub_diag. assert (s <? S s = true)%nat as -> by (apply Nat.ltb_lt; lia). cbn. now rewrite orb_false_r.
      + cbn [andb orb]. destruct (Nat.ltb_spec lv s), (Nat.ltb_spec lv (S s)); try lia; try reflexivity.
        replace (lv - s)%nat with (S (lv - S s)) by lia. reflexivity. }
  rewrite G. rewrite Nat.sub_0_r. reflexivity.
Qed.

Lemma buffer_all ci ind sh flags sh' (P : list ((string * nat) * bool) -> dict string (list Q) -> Prop) :
  sharing_ok ci ->
  (forall op mem_op lv log sh b sh', dget op (lk_data (in_links ci)) = Some mem_op -> ~ In (op, lv) (map fst log) ->
     double_buffer_step ci ind op mem_op lv sh = Ok (b, sh') -> P log sh -> P (log ++ [((op, lv), b)])%list sh') ->
  calc_double_buffer_flag ci ind sh = Ok (flags, sh') -> P [] sh ->
  exists log, P log sh' /\ (forall y, glog log y = granted flags y) /\
    (forall op n lv, In op (in_ops ci) -> levels_of (in_map_int ci) op = Ok n -> (lv < n)%nat -> In (op, lv) (map fst log)).
Proof.
  intros SO HP H P0. unfold calc_double_buffer_flag in H.
  assert (G : forall ops pre log fl s st', (pre ++ ops = in_ops ci)%list -> P log s -> (forall y, glog log y = granted fl y) ->
    keys fl = pre -> (forall e, In e log -> In (fst (fst e)) pre) ->
    (forall op n lv, In op pre -> levels_of (in_map_int ci) op = Ok n -> (lv < n)%nat -> In (op, lv) (map fst log)) ->
    rfold (fun st op => x <- double_buffer_op ci ind op (snd st) ;; Ok (dset op (fst x) (fst st), snd x))%result (fl, s) ops = Ok st' ->
    exists log', P log' (snd st') /\ (forall y, glog log' y = granted (fst st') y) /\
      (forall op n lv, In op (pre ++ ops) -> levels_of (in_map_int ci) op = Ok n -> (lv < n)%nat -> In (op, lv) (map fst log'))).
  { induction ops as [|op ops IH]; intros pre log fl s st' E Pl Gl K Lo Vi R; cbn [rfold] in R.
    - injection R as <-. exists log. cbn. rewrite app_nil_r. tauto.
    - cbn [fst snd] in R. destruct (double_buffer_op ci ind op s) as [[f s1]|] eqn:D; [|discriminate]. cbn [rbind fst snd] in R.
      assert (Np : ~ In op pre).
      { intros I. assert (N := so_ops ci SO). rewrite <- E in N. apply NoDup_remove_2 in N. apply N. apply in_or_app. now left. }
      assert (El : exists mem_op, dget op (lk_data (in_links ci)) = Some mem_op).
      { unfold double_buffer_op in D. apply rbind_Ok in D. destruct D as (m & Dm & _). unfold layer_to_mem_op in Dm. apply dgetr_Ok in Dm. now exists m. }
      destruct El as (mem_op & El).
      destruct (buffer_op ci ind op s f s1 P log mem_op El) as (n & bs & En & Ef & Lb & P1); try assumption.
      { intros. eapply HP; eassumption. }
      { intros I. apply in_map_iff in I. destruct I as (e & <- & I). apply Np. now apply Lo. }
      replace (pre ++ op :: ops)%list with ((pre ++ [op]) ++ ops)%list by (now rewrite <- app_assoc).
      apply IH with (log := (log ++ combine (map (pair op) (seq 0 n)) bs)%list) (fl := dset op f fl) (s := s1); try assumption.
      + now rewrite <- app_assoc.
      + intros y. rewrite glog_app, glog_row by assumption. rewrite Gl. unfold granted. destruct (eqb_spec (fst y) op) as [Q|Q].
        * rewrite Q, dget_dset_eq, Ef. cbn [nth].
          assert (Nn : dget op fl = None) by (apply dget_None; now rewrite K). rewrite Nn. reflexivity.
        * rewrite dget_dset_neq by assumption. now rewrite orb_false_r.
      + rewrite keys_dset_notin by now rewrite K. now rewrite K.
      + intros e I. apply in_app_or in I. apply in_or_app. destruct I as [I|I]; [left; now apply Lo|right]. left.
        destruct e as [[o l] b]. apply in_combine_l in I. apply in_map_iff in I. destruct I as (q & Eq & _). now injection Eq as <- _.
      + intros o n' lv I En' L. rewrite map_app. apply in_or_app. apply in_app_or in I. destruct I as [I|[<-|[]]]; [left; eauto|right].
        rewrite En in En'. injection En' as <-.
        assert (M : map fst (combine (map (pair op) (seq 0 n)) bs) = map (pair op) (seq 0 n)).
        { assert (Lm : length (map (pair op) (seq 0 n)) = length bs) by (rewrite map_length, seq_length; congruence).
          revert Lm. generalize (map (pair op) (seq 0 n)). clear. intros l. revert bs. induction l as [|a l IH]; intros [|b bs] H; cbn in *; try discriminate; [reflexivity|].
          f_equal. apply IH. congruence. }
        rewrite M. apply List.in_map. apply in_seq. lia. }
  destruct (G (in_ops ci) [] [] [] sh (flags, sh')) as (log & A & B & C); try assumption; try reflexivity.
  - intros e [].
  - intros ? ? ? [].
  - exists log. cbn in *. tauto.
Qed.

Lemma buffer_group ci ind sh flags sh' g : sharing_ok ci -> (forall x, (0 <= util ind x)%Q) -> In g (in_sharing ci) ->
  shared ci ind = Ok sh -> calc_double_buffer_flag ci ind sh = Ok (flags, sh') ->
  ((exists x, In x (members ci g) /\ granted flags x = true) ->
   (qsum (map (util ind) (members ci g)) + qsum (map (util ind) (filter (granted flags) (members ci g))) <= 1)%Q) /\
  ((qsum (map (util ind) (members ci g)) <= 1 # 2)%Q -> forall op lv n, In (op, lv) (members ci g) -> In op (in_ops ci) ->
     levels_of (in_map_int ci) op = Ok n -> (lv < n)%nat -> granted flags (op, lv) = true).
Proof.
  intros SO NN Ig Es Ed. destruct (shared_spec ci ind sh SO Es) as (S1 & S2).
  destruct (buffer_all ci ind sh flags sh' (group_inv ind (members ci g)) SO) as (log & J & G & Vi); try assumption.
  - intros. eapply step_group; eassumption.
  - unfold group_inv. cbn zeta. destruct (Qle_bool _ _).
    + split; [|intros x b []]. intros x Ix. destruct (S1 g x Ig Ix) as (A & _). eexists. split; [exact A|reflexivity].
    + assert (T0 : taken ind [] (members ci g) = 0%Q).
      { unfold taken. assert (filter (glog []) (members ci g) = []) as ->; [|reflexivity]. induction (members ci g); [reflexivity|exact IHl]. }
      rewrite T0. split.
      * intros x Ix. destruct (S1 g x Ig Ix) as (A & _). eexists. split; [exact A|]. ring.
      * intros (x & _ & F). discriminate.
  - assert (TE : taken ind log (members ci g) = qsum (map (util ind) (filter (granted flags) (members ci g)))).
    { unfold taken. f_equal. f_equal. apply filter_ext. exact G. }
    unfold group_inv in J. cbn zeta in J. destruct (Qle_bool _ _) eqn:B.
    + apply Qle_bool_iff in B. destruct J as (J1 & J2). split.
      * intros _.
        assert (X : forall l, (qsum (map (util ind) (filter (granted flags) l)) <= qsum (map (util ind) l))%Q).
        { induction l as [|x l IH]; [apply Qle_refl|]. cbn [filter]. assert (N := NN x). destruct (granted flags x); cbn [map]; rewrite ?qsum_cons; lra. }
        specialize (X (members ci g)). lra.
      * intros _ op lv n Im Io En L. rewrite <- G. assert (I := Vi op n lv Io En L). apply in_map_iff in I. destruct I as ((y & b) & Ey & I).
        cbn in Ey. subst y. assert (b = true) by eauto. subst b. unfold glog. apply existsb_exists. exists ((op, lv), true). split; [assumption|].
        cbn [fst snd]. now rewrite eqb_refl.
    + split.
      * rewrite <- TE. intros (x & Ix & Gx). destruct J as (_ & J2). apply J2. exists x. now rewrite G.
      * intros L. exfalso. apply Qle_bool_iff in L. congruence.
Qed.

Lemma buffer_alone ci ind sh flags sh' op lv n : sharing_ok ci ->
  shared ci ind = Ok sh -> calc_double_buffer_flag ci ind sh = Ok (flags, sh') ->
  (forall g, In g (in_sharing ci) -> ~ In (op, lv) (members ci g)) ->
  In op (in_ops ci) -> levels_of (in_map_int ci) op = Ok n -> (lv < n)%nat ->
  (granted flags (op, lv) = true <-> (util ind (op, lv) <= 1 # 2)%Q).
Proof.
  intros SO Es Ed Hx Io En L. destruct (shared_spec ci ind sh SO Es) as (S1 & S2).
  destruct (buffer_all ci ind sh flags sh' (alone_inv ind (op, lv)) SO) as (log & (J1 & J2 & J3) & G & Vi); try assumption.
  - intros. eapply step_alone; eassumption.
  - split; [now apply S2|]. split; [discriminate|intros _ b []].
  - rewrite <- G. split; [exact J2|]. intros U. assert (I := Vi op n lv Io En L). apply in_map_iff in I. destruct I as ((y & b) & Ey & I).
    cbn in Ey. subst y. assert (b = true) by eauto. subst b. unfold glog. apply existsb_exists. exists ((op, lv), true). split; [assumption|].
    cbn [fst snd]. now rewrite eqb_refl.
Qed.
