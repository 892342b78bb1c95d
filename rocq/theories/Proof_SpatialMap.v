(** Proofs for C16. *)
From Coq Require Import QArith Lqa.
From Verif Require Import Base Model_SpatialMap Spec_SpatialMap Proof_AllocSearch.
Local Open Scope result_scope.
Local Open Scope Q_scope.

Lemma qgt_spec a b : reflect (b < a) (qgt a b).
Proof.
  unfold qgt. destruct (Qle_bool a b) eqn:E; cbn; constructor.
  - apply Qle_bool_iff in E. intros H. lra.
  - destruct (Qlt_le_dec b a) as [H|H]; [exact H|]. apply Qle_bool_iff in H. congruence.
Qed.

(** * Totals *)
Lemma filter_key_dget d (m : dict string Q) : NoDup (keys m) ->
  qprod (map snd (filter (fun kv => eqb (fst kv) d) m)) == match dget d m with Some u => u | None => 1 end.
Proof.
  induction m as [|[k v] m IH]; cbn [keys map fst filter dget]; intros Hnd; [reflexivity|].
  inversion Hnd as [|? ? Hk Hm]; subst. destruct (eqb_spec k d) as [->|Hne].
  - rewrite eqb_refl. cbn [map snd]. rewrite qprod_cons, IH by exact Hm.
    replace (dget d m) with (@None Q); [lra|]. symmetry. now apply dget_None.
  - rewrite (eqb_neq d k) by congruence. now apply IH.
Qed.

Lemma total_eq d sm : dicts sm -> total_unrolling d sm == unrolled_total sm d.
Proof.
  intros [_ Hi]. unfold total_unrolling, flatten_unrollings.
  induction sm as [|[o m] sm IH]; [reflexivity|]. cbn [values map concat snd unrolled_total].
  rewrite filter_app, map_app, qprod_app, filter_key_dget by (apply (Hi o); now left).
  rewrite IH by (intros; eapply Hi; right; eassumption). reflexivity.
Qed.

Lemma contained_unrolled sm d : dicts sm -> In d (contained_dims sm) <-> exists o u, unrolled sm o d u.
Proof.
  intros [Hk Hi]. unfold contained_dims, flatten_unrollings. rewrite nodup_In, in_map_iff. split.
  - intros ([d' u] & <- & H). apply in_concat in H as (m & Hm & H). apply in_map_iff in Hm as ([o m'] & <- & Ho).
    exists o, u, m'. split; [now apply In_dget|]. apply In_dget; [now apply (Hi o)|exact H].
  - intros (o & u & m & Ho & Hd). exists (d, u). split; [reflexivity|]. apply in_concat. exists m. split.
    + apply dget_In in Ho. apply in_map_iff. now exists (o, m).
    + now apply dget_In.
Qed.

(** * The validity check *)
Lemma dims_valid_spec lim m : dims_valid lim m = true <->
  forall d u, In (d, u) m -> exists x, dget d lim = Some x /\ u <= x.
Proof.
  induction m as [|[d u] m IH]; cbn [dims_valid]; [split; [intros _ ? ? []|reflexivity]|].
  destruct (dget d lim) as [x|] eqn:E.
  - destruct (qgt_spec u x) as [H|H].
    + split; [discriminate|]. intros Ha. destruct (Ha d u (or_introl eq_refl)) as (y & Ey & Hy).
      assert (x = y) by congruence. subst. lra.
    + rewrite IH. split; intros Ha.
      * intros d' u' [[= <- <-]|Hi]; [exists x; split; [exact E|lra]|now apply Ha].
      * intros d' u' Hi. apply Ha. now right.
  - split; [discriminate|]. intros Ha. destruct (Ha d u (or_introl eq_refl)) as (y & Ey & _). congruence.
Qed.

Lemma oa_valid_spec maxu oa l : oa_valid maxu oa l = Ok true <->
  forall o m, In (o, m) l ->
    (forall d u, In (d, u) m -> exists lim x, dget o maxu = Some lim /\ dget d lim = Some x /\ u <= x) /\
    exists s, dget o oa = Some s /\ qprod (values m) <= s.
Proof.
  induction l as [|[o m] l IH]; cbn [oa_valid]; [split; [intros _ ? ? []|reflexivity]|].
  assert (Hm : match m with
        | [] => Ok true
        | _ => lim <- dgetr o maxu ;; Ok (dims_valid lim m)
        end = Ok true <-> forall d u, In (d, u) m -> exists lim x, dget o maxu = Some lim /\ dget d lim = Some x /\ u <= x).
  { destruct m as [|[d0 u0] m]; [split; [intros _ ? ? []|reflexivity]|]. unfold dgetr.
    destruct (dget o maxu) as [lim|] eqn:E; cbn [of_option rbind].
    - split.
      + intros H d u Hi. injection H as H. apply (proj1 (dims_valid_spec lim _)) with (1:=H) in Hi as (x & Ex & Hx).
        now exists lim, x.
      + intros H. f_equal. apply dims_valid_spec. intros d u Hi. destruct (H d u Hi) as (l0 & x & El & Ex & Hx).
        assert (l0 = lim) by congruence. subst. now exists x.
    - split; [discriminate|]. intros H. destruct (H d0 u0 (or_introl eq_refl)) as (? & ? & ? & _). congruence. }
  destruct (match m with [] => Ok true | _ => _ end) as [b|e] eqn:E; cbn [rbind].
  2:{ split; [discriminate|]. intros H. exfalso. destruct (H o m (or_introl eq_refl)) as [H1 _].
      apply Hm in H1. discriminate H1. }
  destruct b.
  - unfold dgetr. destruct (dget o oa) as [s|] eqn:Es; cbn [of_option rbind].
    + destruct (qgt_spec (utilization m) s) as [H|H].
      * split; [discriminate|]. intros Ha. destruct (Ha o m (or_introl eq_refl)) as (_ & s' & E' & Hs).
        assert (s' = s) by congruence. subst. unfold utilization in H. lra.
      * rewrite IH. split; intros Ha.
        -- intros o' m' [[= <- <-]|Hi]; [|now apply Ha]. split; [now apply Hm|]. exists s. split; [exact Es|].
           unfold utilization in H. lra.
        -- intros o' m' Hi. apply Ha. now right.
    + split; [discriminate|]. intros Ha. destruct (Ha o m (or_introl eq_refl)) as (_ & s' & E' & _). congruence.
  - split; [discriminate|]. intros H. exfalso. destruct (H o m (or_introl eq_refl)) as [H1 _].
    apply Hm in H1. discriminate H1.
Qed.

Theorem is_valid_iff oa maxu sizes sm : dicts sm -> NoDup (keys sizes) ->
  (forall o, In o (keys sm) <-> In o (keys oa)) ->
  is_valid (Some oa) maxu sizes sm = Ok true <-> mapping_fits oa maxu sizes sm.
Proof.
  intros Hd Hs Ho. unfold is_valid.
  replace (forallb (fun o => dmem o oa) (keys sm)) with true
    by (symmetry; apply forallb_forall; intros o Hi; apply dmem_keys; now apply Ho).
  replace (forallb (fun o => dmem o sm) (keys oa)) with true
    by (symmetry; apply forallb_forall; intros o Hi; apply dmem_keys; now apply Ho).
  cbn [negb]. destruct Hd as [Hk Hi]. assert (Hd : dicts sm) by now split.
  assert (Hu : forall o d u, unrolled sm o d u <-> exists m, In (o, m) sm /\ In (d, u) m).
  { intros o d u. split.
    - intros (m & H1 & H2). exists m. split; now apply dget_In.
    - intros (m & H1 & H2). exists m. split; [now apply In_dget|]. apply In_dget; [now apply (Hi o)|exact H2]. }
  split.
  - destruct (oa_valid maxu oa sm) as [b|e] eqn:E; cbn [rbind]; [|discriminate].
    destruct b; [|discriminate]. assert (Ha := proj1 (oa_valid_spec maxu oa sm) E).
    destruct (forallb (fun d => dmem d sizes) (contained_dims sm)) eqn:E1; cbn [negb]; [|discriminate].
    intros H. injection H as H. rewrite forallb_forall in E1, H. split.
    + intros o d u H0. apply Hu in H0 as (m & H1 & H2). now apply (Ha o m H1).
    + intros o m H0. apply dget_In in H0. now apply (Ha o m H0).
    + intros o d u H0. apply key_dget, dmem_keys, E1. apply contained_unrolled; [exact Hd|]. now exists o, u.
    + intros d s H0. apply dget_In in H0. apply H in H0. cbn in H0. apply Qle_bool_iff in H0.
      now rewrite total_eq in H0.
  - intros [F1 F2 F3 F4]. rewrite (proj2 (oa_valid_spec maxu oa sm)).
    + cbn [rbind]. replace (forallb (fun d => dmem d sizes) (contained_dims sm)) with true.
      * cbn [negb]. f_equal. apply forallb_forall. intros [d s] Hin. cbn. apply Qle_bool_iff. rewrite total_eq by exact Hd.
        apply F4. now apply In_dget.
      * symmetry. apply forallb_forall. intros d Hin. apply contained_unrolled in Hin as (o & u & H); [|exact Hd].
        apply F3 in H as (s & Es). apply dmem_keys. now apply dget_Some_key in Es.
    + intros o m Hin. split; [|now apply F2, In_dget].
      intros d u H. apply F1. apply Hu. now exists m.
Qed.

(** * Deletions *)
Inductive odrops : dict string Q -> dict string Q -> Prop :=
| od_refl m : odrops m m
| od_step d m m' : odrops (ddel d m) m' -> odrops m m'.

Lemma odrops_trans a b c : odrops a b -> odrops b c -> odrops a c.
Proof. induction 1; intros; [assumption|]. eapply od_step. eauto. Qed.

Definition ones (m : dict string Q) : Prop := forall d u, In (d, u) m -> 1 <= u.

Lemma ones_del d m : ones m -> ones (ddel d m).
Proof. intros H d' u Hi. apply In_ddel in Hi. now apply (H d'). Qed.

Lemma qprod_one (l : list Q) : (forall x, In x l -> 1 <= x) -> 1 <= qprod l.
Proof.
  induction l as [|x l IH]; intros H; [cbn; lra|]. rewrite qprod_cons.
  assert (1 <= x) by (apply H; now left). assert (1 <= qprod l) by (apply IH; intros; apply H; now right). nra.
Qed.
Lemma ones_util m : ones m -> 1 <= utilization m.
Proof. intros H. apply qprod_one. intros x Hx. apply in_map_iff in Hx as ([d u] & <- & Hi). now apply (H d). Qed.

Lemma util_del d m : ones m -> utilization (ddel d m) <= utilization m.
Proof.
  unfold utilization. induction m as [|[k v] m IH]; intros H; cbn [ddel]; [lra|].
  assert (Hm : ones m) by (intros d' u Hi; apply (H d'); now right).
  assert (Hv : 1 <= v) by (apply (H k); now left).
  destruct (eqb_spec d k) as [->|Hne].
  - change (values ((k, v) :: m)) with (v :: values m). rewrite qprod_cons.
    assert (H1 := ones_util m Hm). unfold utilization in H1. nra.
  - change (values ((k, v) :: m)) with (v :: values m).
    change (values ((k, v) :: ddel d m)) with (v :: values (ddel d m)). rewrite !qprod_cons. specialize (IH Hm). nra.
Qed.

Lemma odrops_props m m' : odrops m m' -> NoDup (keys m) ->
  NoDup (keys m') /\ (forall d u, In (d, u) m' -> In (d, u) m) /\ (ones m -> utilization m' <= utilization m).
Proof.
  induction 1 as [m|d m m' H IH]; intros Hn; [split; [exact Hn|split; [auto|intros; lra]]|].
  destruct (IH (NoDup_ddel d m Hn)) as (H1 & H2 & H3). split; [exact H1|]. split.
  - intros d' u Hi. apply H2 in Hi. now apply In_ddel in Hi.
  - intros Ho. specialize (H3 (ones_del d m Ho)). assert (Hu := util_del d m Ho). lra.
Qed.

(** Whole mappings. *)
Definition drops (sm sm' : dict string (dict string Q)) : Prop :=
  Forall2 (fun x y => fst x = fst y /\ odrops (snd x) (snd y)) sm sm'.

Lemma drops_refl sm : drops sm sm.
Proof. induction sm; constructor; [split; [reflexivity|constructor]|assumption]. Qed.
Lemma drops_trans a b c : drops a b -> drops b c -> drops a c.
Proof.
  intros H. revert c. induction H as [|x y a b (E & H) F IH]; intros c Hc; inversion Hc as [|? z ? ? (E' & H') F']; subst; constructor.
  - split; [congruence|]. eapply odrops_trans; eassumption.
  - now apply IH.
Qed.
Lemma drops_keys sm sm' : drops sm sm' -> keys sm' = keys sm.
Proof. induction 1 as [|x y a b (E & H) F IH]; [reflexivity|]. cbn. unfold keys in IH. now rewrite E, IH. Qed.

Lemma drops_In sm sm' o m' : drops sm sm' -> In (o, m') sm' -> exists m, In (o, m) sm /\ odrops m m'.
Proof.
  induction 1 as [|[o1 m1] y a b (E & H) F IH]; intros Hi; [destruct Hi|]. destruct Hi as [->|Hi].
  - cbn in E, H. subst o1. exists m1. split; [now left|exact H].
  - destruct (IH Hi) as (m & H1 & H2). exists m. split; [now right|exact H2].
Qed.

Lemma drops_dicts sm sm' : drops sm sm' -> dicts sm -> dicts sm'.
Proof.
  intros H [H1 H2]. split; [rewrite (drops_keys _ _ H); exact H1|].
  intros o m' Hi. destruct (drops_In _ _ _ _ H Hi) as (m & Hm & Hd). apply (odrops_props m m' Hd). now apply (H2 o).
Qed.

Lemma drops_unrolled sm sm' o d u : drops sm sm' -> dicts sm -> unrolled sm' o d u -> unrolled sm o d u.
Proof.
  intros H Hd (m' & H1 & H2). apply dget_In in H1, H2. destruct (drops_In _ _ _ _ H H1) as (m & Hm & Ho).
  destruct Hd as [Hk Hi]. exists m. split; [now apply In_dget|]. apply In_dget; [now apply (Hi o)|].
  apply (odrops_props m m' Ho); [now apply (Hi o)|exact H2].
Qed.

Definition all_ones (sm : dict string (dict string Q)) : Prop := forall o m, In (o, m) sm -> ones m.

Lemma all_ones_unrolled sm : dicts sm -> (forall o d u, unrolled sm o d u -> 1 <= u) <-> all_ones sm.
Proof.
  intros [Hk Hi]. split.
  - intros H o m Hm d u Hd. apply (H o d). exists m. split; [now apply In_dget|]. apply In_dget; [now apply (Hi o)|exact Hd].
  - intros H o d u (m & Ho & Hd). apply dget_In in Ho, Hd. now apply (H o m Ho d).
Qed.

Lemma drops_ones sm sm' : drops sm sm' -> dicts sm -> all_ones sm -> all_ones sm'.
Proof.
  intros H Hd Ho. apply all_ones_unrolled; [eapply drops_dicts; eassumption|].
  assert (Ho' := proj2 (all_ones_unrolled sm Hd) Ho). clear Ho. rename Ho' into Ho. intros o d u Hu. apply (Ho o d). eapply drops_unrolled; eassumption.
Qed.

Lemma drops_total sm sm' d : drops sm sm' -> dicts sm -> all_ones sm -> 1 <= unrolled_total sm' d <= unrolled_total sm d.
Proof.
  induction 1 as [|[o m] [o' m'] a b (E & H) F IH]; intros [Hk Hi] Ho; [cbn; lra|]. cbn [fst snd unrolled_total] in *.
  assert (Hm : NoDup (keys m)) by (apply (Hi o); now left).
  destruct (odrops_props m m' H Hm) as (Hm' & Hin & _).
  destruct IH as [I1 I2].
  { split; [now inversion Hk|intros; eapply Hi; right; eassumption]. }
  { intros o1 m1 H1. apply (Ho o1). now right. }
  assert (Hones : ones m) by (apply (Ho o); now left).
  assert (Hx : 1 <= match dget d m' with Some u => u | None => 1 end <= match dget d m with Some u => u | None => 1 end).
  { destruct (dget d m') as [u'|] eqn:E1.
    - apply dget_In in E1. apply Hin in E1. assert (1 <= u') by now apply (Hones d).
      apply (In_dget d) in E1; [|exact Hm]. rewrite E1. lra.
    - destruct (dget d m) as [u|] eqn:E2; [|lra]. apply dget_In in E2. apply Hones in E2. lra. }
  split; [nra|]. nra.
Qed.

Lemma drops_fits oa maxu sizes sm sm' : drops sm sm' -> dicts sm -> all_ones sm ->
  (forall o d u, unrolled sm o d u -> exists lim x, dget o maxu = Some lim /\ dget d lim = Some x /\ u <= x) ->
  (forall o m, dget o sm = Some m -> exists s, dget o oa = Some s /\ qprod (values m) <= s) ->
  (forall o d u, unrolled sm o d u -> exists s, dget d sizes = Some s) ->
  (forall d s, dget d sizes = Some s -> unrolled_total sm' d <= s) -> mapping_fits oa maxu sizes sm'.
Proof.
  intros H Hd Ho H1 H2 H3 H4. split; [| | |exact H4].
  - intros o d u Hu. apply (H1 o d u). eapply drops_unrolled; eassumption.
  - intros o m' Hm. apply dget_In in Hm. destruct (drops_In _ _ _ _ H Hm) as (m & Hm1 & Hd1).
    assert (Hnd : NoDup (keys m)) by (now apply (proj2 Hd o)).
    destruct (H2 o m) as (s & Es & Hs); [apply In_dget; [apply Hd|exact Hm1]|].
    exists s. split; [exact Es|]. destruct (odrops_props m m' Hd1 Hnd) as (_ & _ & Hu).
    specialize (Hu (Ho o m Hm1)). unfold utilization in Hu. lra.
  - intros o d u Hu. apply (H3 o d u). eapply drops_unrolled; eassumption.
Qed.

(** * The phases *)
Section Phases.
  Variables order1 order2 : list string -> list string.
  Variable pick_dim : string -> dict string Q -> string.
  Variable pick_oa : string -> dict string (dict string Q) -> string.
  Hypothesis Ho1 : orders order1.
  Hypothesis Ho2 : orders order2.
  Hypothesis Hp1 : picks_dim pick_dim.
  Hypothesis Hp2 : picks_oa pick_oa.
  Variables (oa sizes : dict string Q) (maxu : dict string (dict string Q)).

  (** Phase 1. *)
  Definition known (sm : dict string (dict string Q)) : dict string (dict string Q) :=
    map (fun om => (fst om, filter (fun du => dmem (fst du) sizes) (snd om))) sm.

  Lemma filter_all {A} (f : A -> bool) l : (forall x, In x l -> f x = true) -> filter f l = l.
  Proof.
    induction l as [|x l IH]; intros H; [reflexivity|]. cbn [filter]. rewrite H by now left. f_equal. apply IH.
    intros; apply H; now right.
  Qed.
  Lemma ddel_filter d (m : dict string Q) : NoDup (keys m) -> ddel d m = filter (fun du => negb (eqb (fst du) d)) m.
  Proof.
    induction m as [|[k v] m IH]; cbn [ddel keys map fst filter]; intros Hn; [reflexivity|].
    inversion Hn as [|? ? Hk Hm]; subst. destruct (eqb_spec d k) as [->|Hne].
    - rewrite eqb_refl. cbn [negb]. symmetry. apply filter_all. intros [k' v'] Hi. cbn [fst]. rewrite (eqb_neq k' k); [reflexivity|].
      intros ->. apply Hk. apply in_map_iff. now exists (k, v').
    - rewrite (eqb_neq k d) by congruence. cbn. f_equal. now apply IH.
  Qed.
  Lemma NoDup_keys_filter (f : string * Q -> bool) m : NoDup (keys m) -> NoDup (keys (filter f m)).
  Proof.
    induction m as [|[k v] m IH]; cbn [keys map fst filter]; intros Hn; [constructor|].
    inversion Hn as [|? ? Hk Hm]; subst. destruct (f (k, v)); [|now apply IH]. cbn [map fst]. constructor; [|now apply IH].
    intros H. apply Hk. apply in_map_iff in H as (x & <- & Hx). apply filter_In in Hx as [Hx _]. now apply in_map.
  Qed.
  Lemma filter_filter {A} (f g : A -> bool) l : filter f (filter g l) = filter (fun x => f x && g x)%bool l.
  Proof.
    induction l as [|x l IH]; [reflexivity|]. cbn [filter]. destruct (g x); cbn [filter]; destruct (f x); cbn; now rewrite IH.
  Qed.

  Lemma drop_fold ds : forall sm, dicts sm ->
    fold_left (fun sm d => if dmem d sizes then sm else delete_layer_dim d sm) ds sm
    = map (fun om => (fst om, filter (fun du => dmem (fst du) sizes || negb (memb (fst du) ds)) (snd om)))%bool sm.
  Proof.
    induction ds as [|d ds IH]; intros sm Hd; cbn [fold_left].
    - rewrite <- (map_id sm) at 1. apply map_ext_in. intros [o m] _. cbn [fst snd]. f_equal. symmetry. apply filter_all.
      intros. cbn. now rewrite orb_true_r.
    - destruct (dmem d sizes) eqn:E.
      + rewrite IH by exact Hd. apply map_ext. intros [o m]. cbn [fst snd]. f_equal. apply filter_ext. intros [k v]. cbn [fst].
        change (memb k (d :: ds)) with (eqb k d || memb k ds)%bool.
        destruct (eqb_spec k d) as [->|]; [now rewrite E|reflexivity].
      + rewrite IH.
        * unfold delete_layer_dim. rewrite map_map. apply map_ext_in. intros [o m] Hi. cbn [fst snd]. f_equal.
          rewrite ddel_filter by (now apply (proj2 Hd o)). rewrite filter_filter. apply filter_ext. intros [k v]. cbn [fst].
          change (memb k (d :: ds)) with (eqb k d || memb k ds)%bool.
          destruct (eqb_spec k d) as [->|]; [rewrite E; cbn; now rewrite andb_false_r|]. cbn [negb orb]. now rewrite andb_true_r.
        * destruct Hd as [Hk Hi]. unfold delete_layer_dim. split.
          -- unfold keys. now rewrite map_map.
          -- intros o m H. apply in_map_iff in H as ([o' m'] & [= <- <-] & H). apply NoDup_ddel. now apply (Hi o').
  Qed.

  Lemma phase1 sm : dicts sm -> drop_unknown order1 sizes sm = known sm.
  Proof.
    intros Hd. unfold drop_unknown, known. rewrite drop_fold by exact Hd. apply map_ext_in. intros [o m] Hi. cbn [fst snd]. f_equal.
    apply filter_ext_in. intros [k v] Hk. cbn [fst].
    replace (memb k (order1 (contained_dims sm))) with true; [now rewrite orb_false_r|].
    symmetry. apply memb_In. apply (Permutation_in _ (Ho1 _)). apply contained_unrolled; [exact Hd|]. exists o, v, m.
    destruct Hd as [H1 H2]. split; apply In_dget; try assumption. now apply (H2 o).
  Qed.

  Lemma known_dicts sm : dicts sm -> dicts (known sm).
  Proof.
    intros [Hk Hi]. unfold known. split; [unfold keys; now rewrite map_map|].
    intros o m H. apply in_map_iff in H as ([o' m'] & [= <- <-] & H). apply NoDup_keys_filter. now apply (Hi o').
  Qed.
  Lemma known_In sm o m : In (o, m) (known sm) -> exists m0, In (o, m0) sm /\ m = filter (fun du => dmem (fst du) sizes) m0.
  Proof. intros H. apply in_map_iff in H as ([o' m'] & [= <- <-] & H). now exists m'. Qed.

  (** Phase 2. *)
  Definition cap (o : string) (du : string * Q) : string * Q :=
    (fst du, match dget o maxu with
             | Some lim => match dget (fst du) lim with
                           | Some x => if qgt (snd du) x then x else snd du
                           | None => snd du end
             | None => snd du end).
  Definition cap_map (sm : dict string (dict string Q)) : dict string (dict string Q) :=
    map (fun om => (fst om, map (cap (fst om)) (snd om))) sm.

  Lemma limit_dims_ok o m : (forall d u, In (d, u) m -> exists lim x, dget o maxu = Some lim /\ dget d lim = Some x) ->
    limit_dims maxu o m = Ok (map (cap o) m).
  Proof.
    induction m as [|[d u] m IH]; intros H; cbn [limit_dims map]; [reflexivity|].
    destruct (H d u (or_introl eq_refl)) as (lim & x & El & Ex). unfold dgetr, cap at 1. cbn [fst snd]. rewrite El. cbn [of_option rbind].
    rewrite Ex. cbn [of_option rbind]. rewrite IH by (intros; apply (H d0 u0); now right). reflexivity.
  Qed.

  Lemma ddel_length d (m : dict string Q) : In d (keys m) -> S (length (ddel d m)) = length m.
  Proof.
    induction m as [|[k v] m IH]; cbn [keys map fst ddel length]; intros H; [destruct H|].
    destruct (eqb_spec d k) as [->|Hne]; [reflexivity|]. cbn [length]. f_equal. apply IH. now destruct H as [->|].
  Qed.

  Lemma shrink_oa_ok o s : 1 <= s -> forall n m, length m = n ->
    exists m', shrink_oa pick_dim n o s m = Ok m' /\ odrops m m' /\ utilization m' <= s /\ (utilization m <= s -> m' = m).
  Proof.
    intros Hs. induction n as [|n IH]; intros m Hl.
    - destruct m; [|discriminate Hl]. cbn [shrink_oa]. destruct (qgt_spec (utilization []) s) as [H|H].
      + exfalso. unfold utilization in H. cbn in H. lra.
      + exists []. split; [reflexivity|]. split; [constructor|]. split; [cbn; lra|auto].
    - cbn [shrink_oa]. destruct (qgt_spec (utilization m) s) as [H|H].
      + destruct m as [|x m]; [discriminate Hl|].
        assert (Hp := Hp1 o (x :: m) ltac:(discriminate)).
        destruct (IH (ddel (pick_dim o (x :: m)) (x :: m))) as (m' & E & Hd & Hu & _).
        { apply ddel_length in Hp. rewrite Hl in Hp. now injection Hp. }
        exists m'. split; [exact E|]. split; [eapply od_step; exact Hd|]. split; [exact Hu|]. intros H'. lra.
      + exists m. split; [reflexivity|]. split; [constructor|]. split; [lra|auto].
  Qed.

  Lemma phase2 sm : (forall o m, In (o, m) sm -> exists s, dget o oa = Some s /\ 1 <= s) ->
    (forall o m d u, In (o, m) sm -> In (d, u) m -> exists lim x, dget o maxu = Some lim /\ dget d lim = Some x) ->
    exists sm', limit_oas pick_dim oa maxu sm = Ok sm' /\ drops (cap_map sm) sm' /\
      (forall o m, In (o, m) sm' -> exists s, dget o oa = Some s /\ utilization m <= s) /\
      Forall2 (fun om om' => forall s, dget (fst om) oa = Some s -> utilization (snd om) <= s -> om' = om) (cap_map sm) sm'.
  Proof.
    induction sm as [|[o m] sm IH]; intros H1 H2.
    - exists []. split; [reflexivity|]. split; [constructor|]. split; [intros ? ? []|constructor].
    - cbn [limit_oas]. rewrite limit_dims_ok by (intros d u Hi; apply (H2 o m d u); [now left|exact Hi]). cbn [rbind].
      destruct (H1 o m (or_introl eq_refl)) as (s & Es & Hs). unfold dgetr. rewrite Es. cbn [of_option rbind].
      destruct (shrink_oa_ok o s Hs (length (map (cap o) m)) _ eq_refl) as (m' & E & Hd & Hu & Hk). rewrite E. cbn [rbind].
      destruct IH as (sm' & E' & Hd' & Hu' & Hk').
      { intros; eapply H1; right; eassumption. } { intros; eapply H2; [right|]; eassumption. }
      rewrite E'. cbn [rbind]. eexists. split; [reflexivity|]. split; [constructor; [now split|exact Hd']|]. split.
      + intros o1 m1 [[= <- <-]|Hi]; [now exists s|now apply Hu'].
      + constructor; [|exact Hk']. cbn [fst snd]. intros s' E1 H'. assert (s' = s) by congruence. subst. now rewrite Hk.
  Qed.

  (** Phase 3. *)
  Definition holding (d : string) (sm : dict string (dict string Q)) : list (string * dict string Q) :=
    filter (fun om => dmem d (snd om)) sm.

  Lemma holding_nil_total d sm : holding d sm = [] -> unrolled_total sm d == 1.
  Proof.
    unfold holding. induction sm as [|[o m] sm IH]; cbn [filter snd unrolled_total]; [reflexivity|].
    unfold dmem at 1. destruct (dget d m) as [u|]; [discriminate|]. intros H. rewrite IH by exact H. lra.
  Qed.

  Lemma dset_drops o d m sm : dget o sm = Some m -> drops sm (dset o (ddel d m) sm).
  Proof.
    induction sm as [|[k v] sm IH]; cbn [dget dset]; [discriminate|]. destruct (eqb_spec o k) as [->|Hne].
    - intros [= ->]. constructor; [|apply drops_refl]. cbn. split; [reflexivity|]. eapply od_step. constructor.
    - intros H. constructor; [split; [reflexivity|constructor]|now apply IH].
  Qed.

  Lemma dset_length o (m : dict string Q) sm : In o (keys sm) -> length (dset o m sm) = length sm.
  Proof.
    induction sm as [|[k v] sm IH]; cbn [keys map fst dset]; intros H; [destruct H|].
    destruct (eqb_spec o k) as [->|Hne]; [reflexivity|]. cbn [length]. f_equal. apply IH. now destruct H as [->|].
  Qed.

  Lemma dset_holding o d m u sm : dget o sm = Some m -> dget d m = Some u -> NoDup (keys m) ->
    S (length (holding d (dset o (ddel d m) sm))) = length (holding d sm).
  Proof.
    unfold holding. intros Ho Hd Hn. induction sm as [|[k v] sm IH]; cbn [dget dset] in *; [discriminate|].
    destruct (eqb_spec o k) as [->|Hne].
    - injection Ho as ->. cbn [filter snd]. replace (dmem d (ddel d m)) with false by (unfold dmem; now rewrite dget_ddel_eq). replace (dmem d m) with true by (unfold dmem; now rewrite Hd). reflexivity.
    - cbn [filter snd]. destruct (dmem d v); cbn [length]; rewrite IH by exact Ho; reflexivity.
  Qed.

  Lemma dset_total_other o d m sm d' : dget o sm = Some m -> d' <> d ->
    unrolled_total (dset o (ddel d m) sm) d' == unrolled_total sm d'.
  Proof.
    intros Ho Hne. induction sm as [|[k v] sm IH]; cbn [dget dset] in *; [discriminate|].
    destruct (eqb_spec o k) as [->|Hk]; cbn [unrolled_total].
    - injection Ho as ->. rewrite dget_ddel_neq by exact Hne. reflexivity.
    - now rewrite IH by exact Ho.
  Qed.

  (** Only unrollings of [d] disappear. *)
  Definition only (d : string) (sm sm' : dict string (dict string Q)) : Prop :=
    forall o d' u, d' <> d -> unrolled sm o d' u -> unrolled sm' o d' u.

  Lemma shrink_dim_ok d s : 1 <= s -> forall n sm, dicts sm -> (length (holding d sm) <= n)%nat ->
    exists sm', shrink_dim pick_oa n d s sm = Ok sm' /\ drops sm sm' /\ unrolled_total sm' d <= s /\
      (forall d', d' <> d -> unrolled_total sm' d' == unrolled_total sm d') /\
      (unrolled_total sm d <= s -> sm' = sm) /\ only d sm sm'.
  Proof.
    intros Hs. induction n as [|n IH]; intros sm Hd Hl.
    - cbn [shrink_dim]. assert (E : holding d sm = []) by (destruct (holding d sm); [reflexivity|cbn in Hl; lia]).
      apply holding_nil_total in E. destruct (qgt_spec (total_unrolling d sm) s) as [H|H].
      + rewrite total_eq in H by exact Hd. lra.
      + exists sm. split; [reflexivity|]. split; [apply drops_refl|]. split; [lra|].
        split; [reflexivity|]. split; [auto|]. intros ? ? ? _ H'. exact H'.
    - cbn [shrink_dim]. destruct (qgt_spec (total_unrolling d sm) s) as [H|H]; rewrite total_eq in H by exact Hd.
      + destruct (filter (fun om => dmem d (snd om)) sm) as [|[o0 m0] fl] eqn:Ef.
        { apply holding_nil_total in Ef. lra. }
        assert (Hi : In (o0, m0) (filter (fun om => dmem d (snd om)) sm)) by (rewrite Ef; now left).
        apply filter_In in Hi as [Hi1 Hi2]. cbn in Hi2. apply dmem_keys in Hi2. apply key_dget in Hi2 as (u0 & Eu).
        destruct (Hp2 d sm Hd) as (u & m & Em & Eu').
        { exists o0, u0, m0. split; [apply In_dget; [apply Hd|exact Hi1]|exact Eu]. }
        unfold dgetr. rewrite Em. cbn [of_option rbind].
        assert (Hdr := dset_drops (pick_oa d sm) d m sm Em).
        assert (Hnd : NoDup (keys m)) by (apply dget_In in Em; now apply (proj2 Hd (pick_oa d sm))).
        assert (Hlen := dset_holding (pick_oa d sm) d m u sm Em Eu' Hnd).
        destruct (IH (dset (pick_oa d sm) (ddel d m) sm)) as (sm' & E & D1 & D2 & D3 & D4 & D5).
        { eapply drops_dicts; eassumption. } { lia. }
        exists sm'. split; [exact E|]. split; [eapply drops_trans; eassumption|]. split; [exact D2|].
        split; [|split].
        * intros d' Hne. rewrite D3 by exact Hne. now apply dset_total_other.
        * intros H'. lra.
        * intros o d' u' Hne (mm & H1 & H2). apply D5; [exact Hne|].
          destruct (string_dec o (pick_oa d sm)) as [->|Hno].
          -- exists (ddel d m). rewrite dget_dset_eq. split; [reflexivity|]. rewrite dget_ddel_neq by exact Hne. congruence.
          -- exists mm. rewrite dget_dset_neq by exact Hno. now split.
      + exists sm. split; [reflexivity|]. split; [apply drops_refl|]. split; [lra|].
        split; [reflexivity|]. split; [auto|]. intros ? ? ? _ H'. exact H'.
  Qed.

  Lemma drops_length sm sm' : drops sm sm' -> length sm' = length sm.
  Proof. induction 1; cbn; congruence. Qed.
  Lemma holding_length d sm : (length (holding d sm) <= length sm)%nat.
  Proof. unfold holding. induction sm as [|x sm IH]; cbn; [lia|]. destruct (dmem d (snd x)); cbn; lia. Qed.

  Lemma phase3_fold ds : NoDup ds -> (forall d, In d ds -> exists s, dget d sizes = Some s /\ 1 <= s) ->
    forall sm, dicts sm ->
    exists sm', rfold (fun sm d => s <- dgetr d sizes ;; shrink_dim pick_oa (length sm) d s sm) sm ds = Ok sm' /\
      drops sm sm' /\ (forall d s, In d ds -> dget d sizes = Some s -> unrolled_total sm' d <= s) /\
      (forall d, ~ In d ds -> unrolled_total sm' d == unrolled_total sm d) /\
      ((forall d s, In d ds -> dget d sizes = Some s -> unrolled_total sm d <= s) -> sm' = sm) /\
      (forall o d u, unrolled sm o d u -> (~ In d ds \/ forall s, dget d sizes = Some s -> unrolled_total sm d <= s) ->
         unrolled sm' o d u).
  Proof.
    induction ds as [|d ds IH]; intros Hnd Hs sm Hd.
    - exists sm. split; [reflexivity|]. split; [apply drops_refl|]. split; [intros ? ? []|]. split; [reflexivity|]. split; [auto|]. auto.
    - inversion Hnd as [|? ? Hn Hnd']; subst. cbn [rfold].
      destruct (Hs d (or_introl eq_refl)) as (s & Es & H1). unfold dgetr at 1. rewrite Es. cbn [of_option rbind].
      destruct (shrink_dim_ok d s H1 (length sm) sm Hd (holding_length d sm)) as (sm1 & E & D1 & D2 & D3 & D4 & D5).
      rewrite E. destruct (IH Hnd' (fun d' Hd' => Hs d' (or_intror Hd')) sm1 (drops_dicts _ _ D1 Hd)) as (sm' & E' & F1 & F2 & F3 & F4 & F5).
      rewrite E'. exists sm'. split; [reflexivity|]. split; [eapply drops_trans; eassumption|].
      split; [|split; [|split]].
      + intros d' s' [<-|Hi] Es'; [|now apply F2]. assert (s' = s) by congruence. subst. rewrite F3 by exact Hn. exact D2.
      + intros d' Hni. rewrite F3 by (intros H; apply Hni; now right). apply D3. intros ->. apply Hni. now left.
      + intros H. assert (sm1 = sm) by (apply D4, (H d); [now left|exact Es]). subst sm1. apply F4. intros; apply H; [now right|assumption].
      + intros o d' u Hu Hc. destruct (string_dec d' d) as [->|Hne].
        * destruct Hc as [Hc|Hc]; [exfalso; apply Hc; now left|]. specialize (Hc s Es). assert (sm1 = sm) by now apply D4. subst sm1.
          apply F5; [exact Hu|]. now left.
        * apply F5; [now apply D5|]. destruct Hc as [Hc|Hc]; [left; intros Hi; apply Hc; now right|right].
          intros s' Es'. rewrite D3 by exact Hne. now apply Hc.
  Qed.

  (** The maximum cap of the known dimensions. *)
  Lemma cap_map_dicts sm : dicts sm -> dicts (cap_map sm).
  Proof.
    intros [Hk Hi]. unfold cap_map. split; [unfold keys; now rewrite map_map|].
    intros o m H. apply in_map_iff in H as ([o' m'] & [= <- <-] & H). unfold keys. rewrite map_map. cbn [cap fst].
    exact (Hi o' m' H).
  Qed.

  Lemma In_unrolled sm o d u : dicts sm -> unrolled sm o d u <-> exists m, In (o, m) sm /\ In (d, u) m.
  Proof.
    intros [Hk Hi]. split.
    - intros (m & H1 & H2). exists m. split; now apply dget_In.
    - intros (m & H1 & H2). exists m. split; [now apply In_dget|]. apply In_dget; [now apply (Hi o)|exact H2].
  Qed.

  Lemma capped_iff sm o d x : reduce_inputs oa maxu sizes sm ->
    unrolled (cap_map (known sm)) o d x <-> capped maxu sizes sm o d x.
  Proof.
    intros Hin. assert (Hd := ri_dicts _ _ _ _ Hin). assert (Hkd := known_dicts sm Hd).
    rewrite In_unrolled by now apply cap_map_dicts. split.
    - intros (m & H1 & H2). apply in_map_iff in H1 as ([o' m'] & [= <- <-] & H1). cbn [fst snd] in H2.
      apply in_map_iff in H2 as ([d' u] & [= <- <-] & H2). apply known_In in H1 as (m0 & H0 & ->).
      apply filter_In in H2 as [H2 H3]. cbn [fst] in H3. apply dmem_keys in H3. cbn [fst snd].
      assert (Hu : unrolled sm o' d' u) by (apply In_unrolled; [exact Hd|]; now exists m0).
      destruct (ri_max _ _ _ _ Hin o' d' u Hu H3) as (lim & y & El & Ey & _).
      exists u, lim, y. rewrite El, Ey. split; [exact Hu|]. split; [exact H3|]. split; [reflexivity|]. split; [reflexivity|].
      destruct (qgt_spec u y); [left|right]; split; try reflexivity; lra.
    - intros (u & lim & y & Hu & Hk & El & Ey & Hx). apply In_unrolled in Hu as (m & H1 & H2); [|exact Hd].
      exists (map (cap o) (filter (fun du => dmem (fst du) sizes) m)). split.
      + apply in_map_iff. eexists (o, _). split; [reflexivity|]. apply in_map_iff. exists (o, m). now split.
      + apply in_map_iff. exists (d, u). split.
        * unfold cap. cbn [fst snd]. rewrite El, Ey. f_equal. destruct (qgt_spec u y); destruct Hx as [[? ->]|[? ->]]; try reflexivity; lra.
        * apply filter_In. split; [exact H2|]. cbn. now apply dmem_keys.
  Qed.

  Theorem reduce_ok sm : reduce_inputs oa maxu sizes sm ->
    exists sm', check_and_reduce order1 order2 pick_dim pick_oa oa maxu sizes sm = Ok sm' /\
      keys sm' = keys sm /\ dicts sm' /\ mapping_fits oa maxu sizes sm' /\
      ((forall o, In o (keys oa) -> In o (keys sm)) -> is_valid (Some oa) maxu sizes sm' = Ok true) /\
      (forall o d x, unrolled sm' o d x -> capped maxu sizes sm o d x) /\
      (forall o d x s z, capped maxu sizes sm o d x -> dget o oa = Some s -> dget d sizes = Some z ->
         (forall m, NoDup (keys m) -> (forall d' x', dget d' m = Some x' <-> capped maxu sizes sm o d' x') -> qprod (values m) <= s) ->
         (forall lim, dicts lim -> keys lim = keys sm -> (forall o' d' x', unrolled lim o' d' x' <-> capped maxu sizes sm o' d' x') ->
            unrolled_total lim d <= z) ->
         unrolled sm' o d x).
  Proof.
    intros Hin. assert (Hd := ri_dicts _ _ _ _ Hin). unfold check_and_reduce. rewrite phase1 by exact Hd.
    assert (Hkd := known_dicts sm Hd). assert (Hcd := cap_map_dicts _ Hkd).
    assert (Hkeys : keys (cap_map (known sm)) = keys sm) by (unfold cap_map, known, keys; now rewrite !map_map).
    destruct (phase2 (known sm)) as (sm1 & E1 & D1 & U1 & K1).
    { intros o m H. apply known_In in H as (m0 & H & _). apply (in_map fst) in H. cbn in H.
      apply (ri_oas _ _ _ _ Hin) in H. apply key_dget in H as (s & Es). exists s. split; [exact Es|].
      now apply (ri_oa_one _ _ _ _ Hin o). }
    { intros o m d u H Hi. apply known_In in H as (m0 & H & ->). apply filter_In in Hi as [Hi Hk]. cbn in Hk. apply dmem_keys in Hk.
      destruct (ri_max _ _ _ _ Hin o d u) as (lim & x & El & Ex & _); [|exact Hk|now exists lim, x].
      apply In_unrolled; [exact Hd|]. now exists m0. }
    rewrite E1. cbn [rbind]. unfold limit_layer_dims.
    assert (Hd1 := drops_dicts _ _ D1 Hcd).
    assert (Hknown : forall o d u, unrolled sm1 o d u -> capped maxu sizes sm o d u).
    { intros o d u H. apply capped_iff; [exact Hin|]. eapply drops_unrolled; eassumption. }
    assert (Hones : all_ones (cap_map (known sm))).
    { apply all_ones_unrolled; [exact Hcd|]. intros o d u H. apply capped_iff in H; [|exact Hin].
      destruct H as (v & lim & y & Hv & Hk & El & Ey & [[_ ->]|[_ ->]]).
      - destruct (ri_max _ _ _ _ Hin o d v Hv Hk) as (lim' & y' & El' & Ey' & Hy). congruence.
      - now apply (ri_one _ _ _ _ Hin o d). }
    assert (Hones1 : all_ones sm1) by (eapply drops_ones; eassumption).
    destruct (phase3_fold (order2 (contained_dims sm1))) with (sm := sm1) as (sm2 & E2 & D2 & T2 & _ & _ & K2).
    { apply (Permutation_NoDup (Ho2 _)). apply NoDup_nodup. }
    { intros d H. apply (Permutation_in _ (Permutation_sym (Ho2 _))) in H. apply contained_unrolled in H as (o & u & H); [|exact Hd1].
      apply Hknown in H as (v & lim & y & Hv & Hk & _). apply key_dget in Hk as (s & Es). exists s. split; [exact Es|].
      now apply (ri_size_one _ _ _ _ Hin d). }
    { exact Hd1. }
    assert (Hd2 := drops_dicts _ _ D2 Hd1).
    assert (Hk2 : keys sm2 = keys sm) by (now rewrite (drops_keys _ _ D2), (drops_keys _ _ D1)).
    assert (Hfit : mapping_fits oa maxu sizes sm2).
    { apply (drops_fits oa maxu sizes sm1 sm2 D2 Hd1 Hones1).
      - intros o d u H. apply Hknown in H as (v & lim & y & Hv & Hk & El & Ey & Hx). exists lim, y.
        split; [exact El|]. split; [exact Ey|]. destruct Hx as [[? ->]|[? ->]]; lra.
      - intros o m H. apply dget_In in H. now apply U1.
      - intros o d u H. apply Hknown in H as (v & lim & y & Hv & Hk & _). now apply key_dget.
      - intros d s Es. destruct (in_dec string_dec d (order2 (contained_dims sm1))) as [Hi|Hn]; [now apply T2|].
        assert (Hz : unrolled_total sm1 d == 1).
        { apply holding_nil_total. unfold holding. destruct (filter (fun om => dmem d (snd om)) sm1) as [|[o m] fl] eqn:Ef; [reflexivity|].
          exfalso. apply Hn. apply (Permutation_in _ (Ho2 _)).
          assert (Hi : In (o, m) (filter (fun om => dmem d (snd om)) sm1)) by (rewrite Ef; now left).
          apply filter_In in Hi as [Hi1 Hi2]. cbn in Hi2. apply dmem_keys, key_dget in Hi2 as (u & Eu).
          apply contained_unrolled; [exact Hd1|]. exists o, u, m. split; [apply In_dget; [apply Hd1|exact Hi1]|exact Eu]. }
        destruct (drops_total sm1 sm2 d D2 Hd1 Hones1) as [_ Ht]. assert (1 <= s) by now apply (ri_size_one _ _ _ _ Hin d). lra. }
    exists sm2. split; [exact E2|]. split; [exact Hk2|]. split; [exact Hd2|].
    split; [exact Hfit|].
    split; [intros Hall; apply is_valid_iff; [exact Hd2|apply Hin|rewrite Hk2; intros o; split; [apply Hin|apply Hall]|exact Hfit]|]. split.
    - intros o d x H. apply Hknown. eapply drops_unrolled; eassumption.
    - intros o d x s z Hc Eo Ez Hou Hto. apply K2.
      + apply capped_iff in Hc; [|exact Hin]. destruct Hc as (m & Em & Ed). exists m. split; [|exact Ed].
        assert (Hsame : In (o, m) sm1).
        { assert (Hu : utilization m <= s).
          { apply Hou.
            - apply dget_In in Em. now apply (proj2 Hcd o).
            - intros d' x'. rewrite <- capped_iff by exact Hin. split; [intros; now exists m|].
              intros (m' & Em' & H'). congruence. }
          apply dget_In in Em. clear - K1 Em Hu Eo. induction K1 as [|om om' a b H F IH]; [destruct Em|].
          destruct Em as [->|Em]; [left; now apply (H s)|right; now apply IH]. }
        apply In_dget; [apply Hd1|exact Hsame].
      + right. intros s' Es'. assert (s' = z) by congruence. subst s'.
        destruct (drops_total _ _ d D1 Hcd Hones) as [_ Ht].
        assert (unrolled_total (cap_map (known sm)) d <= z); [|lra]. apply Hto; [exact Hcd|exact Hkeys|].
        intros. now apply capped_iff.
  Qed.

  Theorem reduce_valid_unchanged sm : dicts sm -> NoDup (keys sizes) ->
    (forall o, In o (keys sm) <-> In o (keys oa)) ->
    is_valid (Some oa) maxu sizes sm = Ok true ->
    check_and_reduce order1 order2 pick_dim pick_oa oa maxu sizes sm = Ok sm.
  Proof.
    intros Hd Hs Ho Hv. apply is_valid_iff in Hv; [|assumption..]. destruct Hv as [F1 F2 F3 F4].
    unfold check_and_reduce. rewrite phase1 by exact Hd.
    assert (Hk : known sm = sm).
    { unfold known. rewrite <- (map_id sm) at 2. apply map_ext_in. intros [o m] Hi. cbn [fst snd]. apply (f_equal (pair o)). apply filter_all.
      intros [d u] Hdu. cbn. apply dmem_keys. destruct (F3 o d u) as (s & Es); [|now apply dget_Some_key in Es].
      apply In_unrolled; [exact Hd|]. now exists m. }
    rewrite Hk.
    assert (E : limit_oas pick_dim oa maxu sm = Ok sm).
    { assert (Hm : forall o m, In (o, m) sm -> (forall d u, In (d, u) m -> exists lim x, dget o maxu = Some lim /\ dget d lim = Some x /\ u <= x) /\
        exists s, dget o oa = Some s /\ utilization m <= s).
      { intros o m Hi. split; [|apply F2, In_dget; [apply Hd|exact Hi]]. intros d u Hu. apply F1. apply In_unrolled; [exact Hd|]. now exists m. }
      clear - Hm. induction sm as [|[o m] sm IH]; [reflexivity|]. cbn [limit_oas].
      destruct (Hm o m (or_introl eq_refl)) as (H1 & s & Es & Hu).
      rewrite limit_dims_ok by (intros d u Hi; destruct (H1 d u Hi) as (l & x & ? & ? & _); now exists l, x). cbn [rbind].
      unfold dgetr. rewrite Es. cbn [of_option rbind].
      replace (map (cap o) m) with m.
      - destruct (length m); cbn [shrink_oa]; (destruct (qgt_spec (utilization m) s); [lra|]); cbn [rbind];
          rewrite IH by (intros; eapply Hm; right; eassumption); reflexivity.
      - symmetry. rewrite <- (map_id m) at 2. apply map_ext_in. intros [d u] Hi. unfold cap. cbn [fst snd].
        destruct (H1 d u Hi) as (l & x & El & Ex & Hx). rewrite El, Ex. destruct (qgt_spec u x); [lra|reflexivity]. }
    rewrite E. cbn [rbind]. unfold limit_layer_dims.
    assert (Hall : forall d, In d (order2 (contained_dims sm)) -> exists s, dget d sizes = Some s /\ unrolled_total sm d <= s).
    { intros d Hi. apply (Permutation_in _ (Permutation_sym (Ho2 _))) in Hi. apply contained_unrolled in Hi as (o & u & Hu); [|exact Hd].
      destruct (F3 o d u Hu) as (s & Es). exists s. split; [exact Es|now apply F4]. }
    revert Hall. generalize (order2 (contained_dims sm)). intros ds. induction ds as [|d ds IH]; intros Hall; [reflexivity|]. cbn [rfold].
    destruct (Hall d (or_introl eq_refl)) as (s & Es & Hle). unfold dgetr at 1. rewrite Es. cbn [of_option rbind].
    replace (shrink_dim pick_oa (length sm) d s sm) with (Ok sm); [apply IH; intros; apply Hall; now right|].
    destruct (length sm); cbn [shrink_dim]; (destruct (qgt_spec (total_unrolling d sm) s) as [H|H]; [rewrite total_eq in H by exact Hd; lra|reflexivity]).
  Qed.
End Phases.

(** * The performance indicator *)
Lemma qprod_filter_le (f : string * Q -> bool) l : (forall x, In x l -> 1 <= snd x) ->
  1 <= qprod (map snd (filter f l)) <= qprod (map snd l).
Proof.
  induction l as [|x l IH]; intros H; cbn [filter map]; [cbn; lra|].
  destruct IH as [I1 I2]; [intros; apply H; now right|]. assert (1 <= snd x) by (apply H; now left).
  destruct (f x); cbn [map]; rewrite ?qprod_cons; split; nra.
Qed.

Lemma flat_prod sm : qprod (map (fun om => utilization (snd om)) sm) == qprod (map snd (flatten_unrollings sm)).
Proof.
  unfold flatten_unrollings. induction sm as [|[o m] sm IH]; [reflexivity|]. cbn [map snd values concat].
  rewrite qprod_cons, map_app, qprod_app, IH. reflexivity.
Qed.

Lemma quot_whole q n : q == inject_Z n -> Z.quot (Qnum q) (Zpos (Qden q)) = n.
Proof.
  destruct q as [a b]. unfold Qeq, inject_Z. cbn [Qnum Qden]. intros H.
  replace a with (n * Zpos b)%Z by lia. apply Z.quot_mul. lia.
Qed.

Lemma qprod_whole l : (forall x, In x l -> exists n, x == inject_Z n) -> exists n, qprod l == inject_Z n.
Proof.
  induction l as [|x l IH]; intros H; [exists 1%Z; reflexivity|].
  destruct IH as (n & Hn); [intros; apply H; now right|]. destruct (H x (or_introl eq_refl)) as (k & Hk).
  exists (k * n)%Z. rewrite qprod_cons, Hn, Hk, inject_Z_mult. reflexivity.
Qed.

Lemma qmax_list_spec l m : qmax_list l = Some m -> In m l /\ forall x, In x l -> x <= m.
Proof.
  revert m. induction l as [|x l IH]; intros m; cbn [qmax_list]; [discriminate|].
  destruct (qmax_list l) as [y|] eqn:E.
  - destruct (IH y eq_refl) as [H1 H2]. destruct (qgt_spec y x) as [H|H]; intros [= <-].
    + split; [now right|]. intros z [<-|Hz]; [lra|now apply H2].
    + split; [now left|]. intros z [<-|Hz]; [lra|]. apply H2 in Hz. lra.
  - intros [= <-]. destruct l as [|z l]; [|cbn in E; destruct (qmax_list l); discriminate].
    split; [now left|]. intros z [<-|[]]. lra.
Qed.

Theorem indicator_ok sm n : dicts sm -> sm_whole sm -> (exists o m, In (o, m) sm /\ m <> []) ->
  qprod (map snd (concat (map snd sm))) == inject_Z n ->
  exists mx v, performance_indicator sm = Ok v /\ (exists d, In d (map fst (concat (map snd sm))) /\ mx == unrolled_total sm d) /\
    (forall d, In d (map fst (concat (map snd sm))) -> unrolled_total sm d <= mx) /\
    v == inject_Z n + (inject_Z n / mx - 1) /\ inject_Z n <= v < 2 * inject_Z n.
Proof.
  intros Hdi Hw (o0 & m0 & Hi0 & Hne) Hn. unfold performance_indicator.
  assert (Hones : forall x, In x (flatten_unrollings sm) -> 1 <= snd x).
  { intros [d u] Hx. apply in_concat in Hx as (m & Hm & Hx). apply in_map_iff in Hm as ([o m'] & <- & Ho).
    destruct (Hw o m' d u Ho Hx) as (k & Hk & Ek). cbn [snd]. rewrite Ek. change 1 with (inject_Z 1). now apply inject_Z_le_iff. }
  assert (Hhw : hw_utilization sm = n).
  { unfold hw_utilization. apply quot_whole. rewrite flat_prod. exact Hn. }
  rewrite Hhw.
  assert (Hin : forall d, In d (contained_dims sm) <-> In d (map fst (concat (map snd sm)))).
  { intros d. unfold contained_dims. now rewrite nodup_In. }
  destruct (qmax_list (map (fun d => total_unrolling d sm) (contained_dims sm))) as [mx|] eqn:E.
  2:{ exfalso. destruct m0 as [|[d u] m0]; [easy|].
      assert (Hd : In d (contained_dims sm)).
      { apply Hin. apply in_map_iff. exists (d, u). split; [reflexivity|]. apply in_concat. exists ((d, u) :: m0).
        split; [apply in_map_iff; now exists (o0, (d, u) :: m0)|now left]. }
      destruct (contained_dims sm) as [|x l]; [destruct Hd|]. cbn [map qmax_list] in E. destruct (qmax_list _); discriminate. }
  apply qmax_list_spec in E as [E1 E2]. apply in_map_iff in E1 as (d & <- & Hd). cbn [of_option rbind].
  destruct (qprod_filter_le (fun kv => eqb (fst kv) d) (flatten_unrollings sm) Hones) as [T1 T2].
  fold (total_unrolling d sm) in T1, T2.
  assert (Hn' : qprod (map snd (flatten_unrollings sm)) == inject_Z n) by exact Hn. rewrite Hn' in T2.
  remember (total_unrolling d sm) as mx eqn:Emx.
  destruct (Qeq_bool mx 0) eqn:E0; [apply Qeq_bool_iff in E0; lra|].
  assert (Hdiv : inject_Z n == inject_Z n / mx * mx) by (field; lra).
  assert (Hq : 1 <= inject_Z n / mx <= inject_Z n).
  { set (q := inject_Z n / mx) in *. clearbody q. split; nra. }
  destruct (qgt_spec (inject_Z n) (inject_Z n / mx - 1)) as [H|H]; [|lra].
  exists mx, (inject_Z n + (inject_Z n / mx - 1)). split; [reflexivity|]. split; [exists d; split; [now apply Hin|]|].
  - rewrite Emx. now apply total_eq.
  - split; [|split; [reflexivity|lra]].
    intros d' H'. rewrite <- total_eq by exact Hdi. apply E2, in_map_iff. exists d'. split; [reflexivity|now apply Hin].
Qed.
