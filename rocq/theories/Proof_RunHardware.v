(** C84: accelerators that are read from files suit the search and the generation of mappings. *)
From Coq Require Import QArith Ascii.
From Verif Require Import Base Model_Text Model_DataMove Model_Cost Model_Graph Model_Hierarchy Model_AccelFile Model_Cacti
  Spec_Layer Spec_MapFile Spec_Hierarchy Spec_AccelFile Spec_Run Proof_Hierarchy Proof_Ports Proof_AccelFile.
Open Scope string_scope.
Open Scope list_scope.
Open Scope Z_scope.

Lemma last_exists {A} (P : A -> Prop) (dec : forall x, {P x} + {~ P x}) l : (exists x, In x l /\ P x) -> exists x, last_such P l x.
Proof.
  induction l as [|y l IH]; intros (x & I & Px); [destruct I|].
  assert (D : (exists z, In z l /\ P z) \/ forall z, In z l -> ~ P z).
  { clear - dec. induction l as [|z l IH]; [right; intros z []|]. destruct (dec z) as [H|H]; [left; exists z; split; [now left|exact H]|].
    destruct IH as [(t & I & Pt)|N]; [left; exists t; split; [now right|exact Pt]|right]. intros t [<-|I]; [exact H|now apply N]. }
  destruct D as [D|D].
  - destruct (IH D) as (z & l1 & l2 & -> & Pz & N). exists z, (y :: l1), l2. split; [reflexivity|]. now split.
  - exists y, [], l. split; [reflexivity|]. split; [|exact D]. destruct I as [<-|I]; [exact Px|]. now apply D in I.
Qed.

Lemma listed_dec op d p : {listed op d p} + {~ listed op d p}.
Proof. unfold listed. apply in_dec. intros x y. decide equality; apply string_dec. Qed.

Lemma list_max_same a b : (forall x, In x a <-> In x b) -> list_max a = list_max b.
Proof.
  intros H. assert (G : forall a b, (forall x : nat, In x a -> In x b) -> (list_max a <= list_max b)%nat).
  { clear. intros a b H. apply list_max_le, Forall_forall. intros x I. apply H in I. exact (proj1 (Forall_forall _ _) (proj1 (list_max_le b (list_max b)) (le_n _)) x I). }
  apply Nat.le_antisymm; apply G; intros x; apply H.
Qed.

Lemma direction_name_inj d d' : direction_name d = direction_name d' -> d = d'.
Proof. now destruct d, d'. Qed.

Lemma append_cut (a b c d : string) : String.length a = String.length c -> (a ++ b)%string = (c ++ d)%string -> a = c /\ b = d.
Proof.
  revert c. induction a as [|x a IH]; intros [|y c] L E; try discriminate L; [now split|]. cbn in L, E. injection E as -> E. injection L as L.
  destruct (IH c L E) as (-> & ->). now split.
Qed.

(** What a text says is unambiguous. *)
Lemma says_once text op d op' d' : operand_name op -> operand_name op' -> says text op d -> says text op' d' -> op = op' /\ d = d'.
Proof.
  intros O O' -> E. destruct (Nat.eq_dec (String.length op) (String.length op')) as [L|L].
  - apply append_cut in E; [|exact L]. destruct E as (-> & E). split; [reflexivity|]. apply direction_name_inj. destruct d, d'; (discriminate E || reflexivity).
  - cbn in O, O'. destruct O as [<-|[<-|[<-|[]]]], O' as [<-|[<-|[<-|[]]]]; destruct d, d'; (discriminate E || (elim L; reflexivity)).
Qed.

Definition mem_of (m : raw_memory) (s : memspec) : Prop :=
  ms_size s = rm_size m /\ ms_operands s = rm_operands m /\ ms_served s = rm_served m /\ Forall2 port_as (rm_ports m) (ms_ports s).

Lemma memories_read sim tech p f a p' : memories_as sim tech p f a p' -> exists ms, Forall2 mem_of (memories f) ms /\ build 0 ms = Ok (ac_hierarchy a).
Proof.
  intros (cs & ms & _ & F & L & B & _). exists ms. split; [|exact B]. unfold memories.
  assert (Lc : length (combine (map snd (rf_memories f)) cs) = length ms) by now apply Proof_Energy.F2_len in F.
  rewrite combine_length, map_length, L in Lc. remember (map snd (rf_memories f)) as raws eqn:E. assert (Lr : length raws = length (rf_memories f)) by (subst; now rewrite map_length).
  assert (Lrs : length raws = length ms) by congruence. clear - F Lrs. revert cs ms Lrs F. induction raws as [|m raws IH]; intros cs ms L F.
  - destruct ms; [constructor|discriminate].
  - destruct cs as [|c cs]; [cbn in F; inversion F; subst; discriminate|]. cbn [combine] in F. inversion F as [|x s xs ss H F']; subst. constructor.
    + destruct H as (H1 & _ & _ & H2 & H3 & H4). cbn [fst snd] in *. now repeat split.
    + apply (IH cs); [now injection L|exact F'].
Qed.

Section Hardware.
  Variables (f : raw_accel) (ms : list memspec) (h : hierarchy).
  Hypothesis usable : usable_accelerator f.
  Hypothesis read : Forall2 mem_of (memories f) ms.
  Hypothesis built : build 0 ms = Ok h.

  Lemma raw_at i s : nth_error ms i = Some s -> exists m, nth_error (memories f) i = Some m /\ mem_of m s.
  Proof.
    clear - read. revert i. induction read as [|m s' raws ss H F IH]; intros [|i] E; cbn [nth_error] in *; try discriminate; [injection E as <-; eauto|]. now apply IH.
  Qed.
  Lemma spec_at i m : nth_error (memories f) i = Some m -> exists s, nth_error ms i = Some s /\ mem_of m s.
  Proof.
    clear - read. revert i. induction read as [|m' s' raws ss H F IH]; intros [|i] E; cbn [nth_error] in *; try discriminate; [injection E as <-; eauto|]. now apply IH.
  Qed.
  Lemma raw_in s : In s ms -> exists m, In m (memories f) /\ mem_of m s.
  Proof. intros I. apply In_nth_error in I. destruct I as (i & E). apply raw_at in E. destruct E as (m & E & H). exists m. split; [now apply nth_error_In in E|exact H]. Qed.

  Lemma raw_proper m : In m (memories f) -> proper_memory (ra_dims (rf_array f)) m.
  Proof.
    intros I. unfold memories in I. apply in_map_iff in I. destruct I as ((x & m') & <- & I).
    exact (proj1 (proj2 (proj1 (proj1 (ua_accepted f usable)))) x m' I).
  Qed.

  (** Ports as written *)
  Lemma listed_as p s op d : operand_name op -> proper_port p -> port_as p s -> (listed op d s <-> lists p op d).
  Proof.
    intros O (_ & _ & t & _ & T) (_ & _ & _ & _ & F). unfold listed, lists. split.
    - intros I. destruct (Proof_Bandwidth.Forall2_in_r _ _ _ _ F I) as (text & It & d' & S & E). cbn [fst snd] in *. apply direction_name_inj in E. subst d'. eauto.
    - intros (text & It & S). destruct (Proof_Bandwidth.Forall2_in_l _ _ _ _ F It) as ([o s'] & Io & d' & S' & E). cbn [fst snd] in *. subst s'.
      destruct (T text It) as (op' & d'' & O' & S'' & _). destruct (says_once text op d op' d'' O O' S S'') as (<- & <-).
      assert (X : o = op /\ d' = d).
      { unfold says in S, S'. rewrite S in S'. destruct (Nat.eq_dec (String.length op) (String.length o)) as [L|L].
        - apply append_cut in S'; [|exact L]. destruct S' as (-> & S'). split; [reflexivity|]. apply direction_name_inj. destruct d, d'; (discriminate S' || reflexivity).
        - exfalso. assert (X := f_equal String.length S'). rewrite !length_append in X. cbn [String.length] in X. destruct d, d'; cbn in X; lia. }
      destruct X as (-> & ->). exact Io.
  Qed.

  Lemma operands_named m op : In m (memories f) -> In op (rm_operands m) -> operand_name op.
  Proof. intros I J. exact (proj1 (raw_proper m I) op J). Qed.

  Lemma hw_once : names_once ms /\ operands_once ms.
  Proof.
    split; intros s I; apply raw_in in I; destruct I as (m & I & (_ & Eo & _ & Fp)); destruct (ua_memories f usable m I) as (_ & N1 & N2 & _).
    - replace (map ps_name (ms_ports s)) with (map rp_name (rm_ports m)); [exact N2|]. clear - Fp. induction Fp as [|p q ps qs (E & _) F IH]; cbn; congruence.
    - now rewrite Eo.
  Qed.
  Lemma hw_sizes s : In s ms -> 0 < ms_size s.
  Proof. intros I. apply raw_in in I. destruct I as (m & I & (-> & _)). exact (proj1 (ua_memories f usable m I)). Qed.
  Lemma hw_widths s p : In s ms -> In p (ms_ports s) -> 0 < ps_bw_min p /\ 0 < ps_bw_max p.
  Proof.
    intros I J. apply raw_in in I. destruct I as (m & I & (_ & _ & _ & Fp)). destruct (Proof_Bandwidth.Forall2_in_r _ _ _ _ Fp J) as (q & Iq & (_ & _ & -> & -> & _)).
    destruct (ua_memories f usable m I) as (_ & _ & _ & P). specialize (P q Iq). destruct (proj1 (proj2 (raw_proper m I)) q Iq) as (_ & L & _). lia.
  Qed.
  Lemma hw_operands s op : In s ms -> In op (ms_operands s) -> operand_name op.
  Proof. intros I J. apply raw_in in I. destruct I as (m & I & (_ & E & _)). rewrite E in J. now apply (operands_named m). Qed.
  Lemma hw_stored op : operand_name op -> exists s, In s ms /\ In op (ms_operands s).
  Proof.
    intros O. destruct (ua_stored f usable op O) as (m & I & J). apply In_nth_error in I. destruct I as (i & E). apply spec_at in E. destruct E as (s & E & (_ & Eo & _)).
    exists s. split; [now apply nth_error_In in E|now rewrite Eo].
  Qed.

  Lemma above_spec i op : above f i op <-> exists j m', (i < j)%nat /\ nth_error ms j = Some m' /\ In op (ms_operands m').
  Proof.
    split; intros (j & m & L & E & I).
    - apply spec_at in E. destruct E as (s & E & (_ & Eo & _)). exists j, s. rewrite Eo. now repeat split.
    - apply raw_at in E. destruct E as (s & E & (_ & Eo & _)). exists j, s. rewrite <- Eo. now repeat split.
  Qed.
  Lemma hw_moved i s op d : nth_error ms i = Some s -> In op (ms_operands s) -> movement f i op d -> exists p, moved_by s op d p.
  Proof.
    intros E I M. destruct (raw_at i s E) as (m & Em & (_ & Eo & _ & Fp)). rewrite Eo in I. destruct (ua_moved f usable i m op d Em I M) as (p & Ip & L).
    assert (Im : In m (memories f)) by now apply nth_error_In in Em.
    destruct (Proof_Bandwidth.Forall2_in_l _ _ _ _ Fp Ip) as (q & Iq & A). apply last_exists; [apply listed_dec|]. exists q. split; [exact Iq|].
    apply (listed_as p q op d); [now apply (operands_named m)|exact (proj1 (proj2 (raw_proper m Im)) p Ip)|exact A|exact L].
  Qed.

  Lemma counts_below i op : before_count (h_list h) i op = below f i op.
  Proof.
    destruct (build_inv 0 ms h built) as (_ & D). unfold before_count, below.
    assert (G : Forall2 (fun m l => lv_operands l = rm_operands m) (memories f) (h_list h)).
    { clear - read D. revert D. generalize (h_list h). induction read as [|m s raws ss H F IH]; intros ls D; inversion D as [|s' l ss' ls' H' D']; subst; constructor; [|now apply IH].
      unfold lv_operands. rewrite (proj1 H'). exact (proj1 (proj2 H)). }
    clear - G. revert i. induction G as [|m l raws ls H F IH]; intros [|i]; try reflexivity. cbn [firstn filter]. unfold holds at 1. rewrite H.
    destruct (memb op (rm_operands m)); cbn [length]; now rewrite IH.
  Qed.
  Lemma rank_height i m l : nth_error (memories f) i = Some m -> nth_error (h_list h) i = Some l -> height l = rank f i m.
  Proof.
    intros Em El. destruct (build_inv 0 ms h built) as (I & D). destruct (spec_at i m Em) as (s & Es & (_ & Eo & _)).
    assert (Ol : lv_operands l = rm_operands m).
    { assert (X : forall i s l, nth_error ms i = Some s -> nth_error (h_list h) i = Some l -> described s l).
      { clear - D. induction D as [|s l ss ls H F IH]; intros [|i] s' l' E E'; cbn [nth_error] in *; try discriminate; [congruence|]. now apply (IH i). }
      unfold lv_operands. rewrite (proj1 (X i s l Es El)). exact Eo. }
    unfold height, rank. apply list_max_same. intros x. split; intros J; apply in_map_iff in J.
    - destruct J as ((op & y) & <- & J). cbn [snd]. assert (G : dget op (lv_dict l) = Some y) by (apply In_dget; [apply (hi_keys h I); now apply nth_error_In in El|exact J]).
      rewrite (hi_dict h I i l op El) in G. destruct (memb op (lv_operands l)) eqn:M; [|discriminate]. injection G as <-. apply memb_In in M. rewrite Ol in M.
      apply in_map_iff. exists op. split; [symmetry; apply counts_below|exact M].
    - destruct J as (op & <- & J). assert (G := hi_dict h I i l op El). assert (M : memb op (lv_operands l) = true) by (apply memb_In; now rewrite Ol).
      rewrite M, counts_below in G. apply dget_In in G. apply in_map_iff. now exists (op, below f i op).
  Qed.
  Lemma hw_order : heights_grow h.
  Proof.
    intros op i j li lj L Ei Ej Si Sj. destruct (build_inv 0 ms h built) as (I & D).
    assert (X : forall i l, nth_error (h_list h) i = Some l -> exists m, nth_error (memories f) i = Some m /\ ml_operands (lv_mem l) = rm_operands m).
    { assert (Y : forall i l, nth_error (h_list h) i = Some l -> exists s, nth_error ms i = Some s /\ described s l).
      { clear - D. induction D as [|s l ss ls H F IH]; intros [|i] l' E; cbn [nth_error] in *; try discriminate; [injection E as <-; eauto|]. now apply IH. }
      intros k l E. destruct (Y k l E) as (s & Es & (Ed & _)). destruct (raw_at k s Es) as (m & Em & (_ & Eo & _)). exists m. split; [exact Em|congruence]. }
    destruct (X i li Ei) as (m & Em & Om), (X j lj Ej) as (m' & Em' & Om'). rewrite (rank_height i m li Em Ei), (rank_height j m' lj Em' Ej).
    apply (ua_order f usable i j m m' op L Em Em'); [unfold stores in Si; now rewrite Om in Si|unfold stores in Sj; now rewrite Om' in Sj].
  Qed.

  (** The memories next to the array *)
  Lemma inner_memory l : In l (get_inner_memories h) -> exists m i s, nth_error ms i = Some s /\ nth_error (h_list h) i = Some l /\ first_memory f m /\ In m (memories f) /\ mem_of m s /\ described s l.
  Proof.
    intros I. apply (inner_spec 0 ms h built) in I. destruct I as (I & Z0). apply In_nth_error in I. destruct I as (i & E).
    destruct (build_inv 0 ms h built) as (Iv & D).
    assert (Y : forall i l, nth_error (h_list h) i = Some l -> exists s, nth_error ms i = Some s /\ described s l).
    { clear - D. induction D as [|s l ss ls H F IH]; intros [|i] l' E; cbn [nth_error] in *; try discriminate; [injection E as <-; eauto|]. now apply IH. }
    destruct (Y i l E) as (s & Es & Ds). destruct (raw_at i s Es) as (m & Em & Hm). exists m, i, s. split; [exact Es|]. split; [exact E|].
    split; [|split; [now apply nth_error_In in Em|now split]]. exists i. split; [exact Em|]. intros op J.
    assert (G := hi_dict h Iv i l op E). assert (M : memb op (lv_operands l) = true).
    { apply memb_In. unfold lv_operands. rewrite (proj1 Ds), (proj1 (proj2 Hm)). exact J. }
    rewrite M, counts_below in G. exact (Z0 op _ G).
  Qed.
End Hardware.
