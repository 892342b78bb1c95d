(** Proofs about breakdown charts. *)
From Coq Require Import QArith Ascii.
From Verif Require Import Base Model_Decouple Model_DataMove Model_Links Model_Cost Model_Latency Model_MapFile Model_Hierarchy Model_Evaluate
  Model_Cme Model_Chart Spec_Chart Spec_DataMove Spec_Cost Proof_AllocSearch Proof_Energy Proof_Text Proof_MapFile Proof_Bandwidth.
Local Open Scope string_scope.
Local Open Scope list_scope.
Local Open Scope Q_scope.

(** * Sums *)
Lemma qsum_zero {A} (f : A -> Q) l : (forall x, In x l -> f x == 0) -> qsum (map f l) == 0.
Proof.
  induction l as [|x l IH]; intros H; [reflexivity|]. cbn [map]. rewrite qsum_cons, (H x (or_introl eq_refl)), IH; [ring|].
  intros y Hy. apply H. now right.
Qed.
Lemma qsum_plus {A} (f g : A -> Q) l : qsum (map (fun x => f x + g x) l) == qsum (map f l) + qsum (map g l).
Proof. induction l as [|x l IH]; cbn [map]; [reflexivity|]. rewrite !qsum_cons, IH. ring. Qed.
Lemma qsum_ext {A} (f g : A -> Q) l : (forall x, In x l -> f x == g x) -> qsum (map f l) == qsum (map g l).
Proof.
  induction l as [|x l IH]; intros H; [reflexivity|]. cbn [map]. rewrite !qsum_cons, (H x (or_introl eq_refl)), IH; [reflexivity|].
  intros y Hy. apply H. now right.
Qed.
Lemma qsum_swap {A B} (F : A -> B -> Q) la lb :
  qsum (map (fun a => qsum (map (F a) lb)) la) == qsum (map (fun b => qsum (map (fun a => F a b) la)) lb).
Proof.
  induction la as [|a la IH]; cbn [map].
  - symmetry. apply qsum_zero. intros; reflexivity.
  - rewrite qsum_cons, IH, <- qsum_plus. apply qsum_ext. intros b _. now rewrite qsum_cons.
Qed.
Lemma qsum_concat (ls : list (list Q)) : qsum (concat ls) == qsum (map qsum ls).
Proof. induction ls as [|l ls IH]; cbn [concat map]; [reflexivity|]. rewrite qsum_app, qsum_cons, IH. reflexivity. Qed.
(** one term of a sum *)
Lemma qsum_one {A} (key : A -> string) k X l : NoDup (map key l) -> In k (map key l) ->
  qsum (map (fun x => if eqb k (key x) then X else 0) l) == X.
Proof.
  induction l as [|x l IH]; cbn [map]; intros Nd Hin; [destruct Hin|]. rewrite qsum_cons.
  apply NoDup_cons_iff in Nd. destruct Nd as (Nx & Nd). destruct (eqb_spec k (key x)) as [->|Ne].
  - rewrite qsum_zero; [ring|]. intros y Hy. destruct (eqb_spec (key x) (key y)) as [Q|]; [|reflexivity].
    destruct Nx. rewrite Q. now apply List.in_map.
  - destruct Hin as [Q|Hin]; [now symmetry in Q|]. rewrite (IH Nd Hin). ring.
Qed.

Definition whole (f : dict direction Q) : Prop := forall k, exists x, dget k f = Some x.
Lemma in_dir f k x : dget k f = Some x -> in_direction f k = x.
Proof. unfold in_direction. now intros ->. Qed.
Lemma zero_ok : four_way 0 None = Ok (map (fun k => (k, 0)) directions). Proof. reflexivity. Qed.
Lemma zero_whole : whole (map (fun k => (k, 0)) directions). Proof. intros []; eexists; reflexivity. Qed.
Lemma zero_dir k : in_direction (map (fun k => (k, 0)) directions) k = 0. Proof. now destruct k. Qed.
Lemma added f g : whole f -> whole g -> exists s, four_add 0 Qplus f g = Ok s /\ whole s /\
  forall k, in_direction s k = in_direction f k + in_direction g k.
Proof.
  intros F G.
  destruct (F RdLow) as (f1 & F1), (F WrLow) as (f2 & F2), (F RdHigh) as (f3 & F3), (F WrHigh) as (f4 & F4).
  destruct (G RdLow) as (g1 & G1), (G WrLow) as (g2 & G2), (G RdHigh) as (g3 & G3), (G WrHigh) as (g4 & G4).
  unfold four_add. cbn [rmap directions]. unfold dgetr. rewrite F1, F2, F3, F4, G1, G2, G3, G4. cbn [rbind of_option].
  eexists. split; [reflexivity|]. split; [intros []; eexists; reflexivity|].
  intros []; unfold in_direction at 2 3; rewrite ?F1, ?F2, ?F3, ?F4, ?G1, ?G2, ?G3, ?G4; reflexivity.
Qed.

Section Chart.
  Variable label : level -> string.
  Definition shown (acc : accesses) (op : string) (l : level) (k : direction) : Q :=
    match dget (op, label l) acc with Some f => in_direction f k | None => 0 end.
  Definition wholes (acc : accesses) : Prop := forall key f, dget key acc = Some f -> whole f.

  Lemma charge_ok op l f acc : wholes acc -> whole f -> exists acc', charge label op l f acc = Ok acc' /\ wholes acc' /\
    forall op' l' k, shown acc' op' l' k == shown acc op' l' k + (if eqb op op' then if eqb (label l) (label l') then in_direction f k else 0 else 0).
  Proof.
    intros W F. unfold charge.
    assert (X : exists old, match dget (op, label l) acc with Some g => Ok g | None => four_way 0 None end = Ok old /\ whole old /\
                forall k, shown acc op l k = in_direction old k).
    { unfold shown. destruct (dget (op, label l) acc) as [g|] eqn:D.
      - exists g. split; [reflexivity|]. split; [exact (W _ _ D)|]. intros k. reflexivity.
      - exists (map (fun k => (k, 0)) directions). split; [exact zero_ok|]. split; [exact zero_whole|]. intros k. now rewrite zero_dir. }
    destruct X as (old & -> & Wo & So). cbn [rbind]. destruct (added old f Wo F) as (s & -> & Ws & Ss). cbn [rbind].
    eexists. split; [reflexivity|]. split.
    - intros key g. destruct (eqb_spec key (op, label l)) as [->|Ne].
      + rewrite dget_dset_eq. intros Q. now injection Q as <-.
      + rewrite dget_dset_neq by exact Ne. apply W.
    - intros op' l' k. destruct (eqb_spec op op') as [<-|No].
      + destruct (eqb_spec (label l) (label l')) as [El|Nl].
        * unfold shown at 1. rewrite <- El, dget_dset_eq, Ss, <- So. unfold shown. rewrite <- El. reflexivity.
        * unfold shown at 1. rewrite dget_dset_neq by congruence. unfold shown. ring.
      + unfold shown at 1. rewrite dget_dset_neq by congruence. unfold shown. ring.
  Qed.

  Definition by_label (ls : list level) (fs : list (dict direction Q)) (l' : level) (k : direction) : Q :=
    qsum (map (fun lf => if eqb (label (fst lf)) (label l') then in_direction (snd lf) k else 0) (combine ls fs)).

  Lemma levels_charged op (ls : list level) : forall fs n acc, (n + length fs <= length ls)%nat -> wholes acc -> (forall f, In f fs -> whole f) ->
    exists acc', rfold (fun acc nf => rbind (of_option IndexError (nth_error ls (fst nf))) (fun l => charge label op l (snd nf) acc))
                   acc (combine (seq n (length fs)) fs) = Ok acc' /\ wholes acc' /\
      forall op' l' k, shown acc' op' l' k == shown acc op' l' k + (if eqb op op' then by_label (skipn n ls) fs l' k else 0).
  Proof.
    induction fs as [|f fs IH]; intros n acc Hn W F; cbn [length seq combine rfold].
    - exists acc. split; [reflexivity|]. split; [exact W|]. intros op' l' k. unfold by_label.
      rewrite combine_nil. cbn [map qsum fold_right]. destruct (eqb op op'); ring.
    - cbn [length] in Hn. cbn [fst snd]. destruct (nth_error ls n) as [l|] eqn:El; [|apply nth_error_None in El; lia].
      cbn [of_option rbind]. destruct (charge_ok op l f acc W (F f (or_introl eq_refl))) as (acc1 & -> & W1 & S1). cbn [rbind].
      destruct (IH (S n) acc1 ltac:(lia) W1 (fun g Hg => F g (or_intror Hg))) as (acc' & -> & W' & S').
      exists acc'. split; [reflexivity|]. split; [exact W'|]. intros op' l' k. rewrite S', S1.
      assert (Sk : skipn n ls = l :: skipn (S n) ls).
      { clear -El. revert n El. induction ls as [|y ys IH]; intros [|n] El; cbn in El; try discriminate.
        - injection El as ->. reflexivity.
        - cbn [skipn]. rewrite (IH n El). destruct ys; reflexivity. }
      rewrite Sk. unfold by_label. cbn [combine map fst snd]. rewrite qsum_cons. destruct (eqb op op'); ring.
  Qed.

  (** the accesses of several operands *)
  Definition of_operand (h : hierarchy) (c : plotted) (kv : string * list (dict direction Q)) (op : string) (l : level) (k : direction) : Q :=
    if eqb (fst kv) op then
      match dget (fst kv) (lk_data (pd_links c)) with
      | Some m => match get_memory_levels h m with Ok ls => by_label ls (snd kv) l k | Err _ => 0 end
      | None => 0
      end
    else 0.
  Definition fit (h : hierarchy) (c : plotted) (kv : string * list (dict direction Q)) : Prop :=
    (exists mem_op ls, dget (fst kv) (lk_data (pd_links c)) = Some mem_op /\ get_memory_levels h mem_op = Ok ls /\ (length (snd kv) <= length ls)%nat) /\
    forall f, In f (snd kv) -> whole f.

  Lemma operands_charged h c : forall d acc, wholes acc -> (forall kv, In kv d -> fit h c kv) ->
    exists acc', rfold (charge_operand label h c) acc d = Ok acc' /\ wholes acc' /\
      forall op l k, shown acc' op l k == shown acc op l k + qsum (map (fun kv => of_operand h c kv op l k) d).
  Proof.
    induction d as [|kv d IH]; intros acc W F; cbn [rfold].
    - exists acc. split; [reflexivity|]. split; [exact W|]. intros op l k. cbn [map qsum fold_right]. ring.
    - destruct (F kv (or_introl eq_refl)) as ((m & ls & Em & El & Hl) & Wf). unfold charge_operand at 1.
      unfold layer_to_mem_op, dgetr. rewrite Em. cbn [of_option rbind]. rewrite El. cbn [rbind].
      destruct (levels_charged (fst kv) ls (snd kv) 0%nat acc ltac:(lia) W Wf) as (acc1 & E1 & W1 & S1).
      rewrite E1. cbn [rbind].
      destruct (IH acc1 W1 (fun x Hx => F x (or_intror Hx))) as (acc' & E' & W' & S').
      exists acc'. split; [exact E'|]. split; [exact W'|]. intros op l k. rewrite S', S1. cbn [map]. rewrite qsum_cons.
      unfold of_operand at 2. rewrite Em, El. cbn [skipn]. ring.
  Qed.
End Chart.

Lemma rmap_pure {A B} (f : A -> result B) (g : A -> B) l : (forall x, f x = Ok (g x)) -> rmap f l = Ok (map g l).
Proof. intros H. induction l as [|x l IH]; [reflexivity|]. cbn [rmap map]. rewrite H. cbn [rbind]. rewrite IH. reflexivity. Qed.
Lemma sum_bars {A B C} (F : A -> B -> C -> Q) la lb lc :
  qsum (concat (concat (map (fun a => map (fun b => map (F a b) lc) lb) la))) == qsum (map (fun a => qsum (map (fun b => qsum (map (F a b) lc)) lb)) la).
Proof.
  induction la as [|a la IH]; [reflexivity|]. cbn [map concat]. rewrite concat_app, qsum_app, qsum_cons, IH.
  apply Qplus_comp; [|reflexivity]. rewrite qsum_concat, map_map. reflexivity.
Qed.

Section Bars.
  Variable label : level -> string.
  (** * One evaluation *)
  Section One.
    Variable h : hierarchy.
    Hypothesis LN : NoDup (map label (h_list h)).
    Hypothesis IN : NoDup (map lv_id (h_list h)).

    Lemma nodup_map_inj {A B} (f : A -> B) l x y : NoDup (map f l) -> In x l -> In y l -> f x = f y -> x = y.
    Proof.
      induction l as [|a l IH]; cbn [map]; intros Nd Hx Hy E; [destruct Hx|]. apply NoDup_cons_iff in Nd. destruct Nd as (Na & Nd).
      destruct Hx as [->|Hx], Hy as [->|Hy]; [reflexivity| | |now apply IH].
      - destruct Na. rewrite E. now apply List.in_map.
      - destruct Na. rewrite <- E. now apply List.in_map.
    Qed.

    Lemma levels_in m ls l : get_memory_levels h m = Ok ls -> In l ls -> In l (h_list h).
    Proof.
      unfold get_memory_levels. intros G Hl. apply rbind_Ok in G. destruct G as (order & _ & G).
      assert (Q : ls = filter (holds m) (pick (h_list h) order)) by congruence. subst ls.
      apply filter_In in Hl. destruct Hl as (Hl & _). unfold pick in Hl. apply in_flat_map in Hl. destruct Hl as (i & _ & Hi).
      destruct (nth_error (h_list h) i) as [y|] eqn:E; [|destruct Hi]. destruct Hi as [->|[]]. exact (nth_error_In _ _ E).
    Qed.

    Lemma by_label_at m ls fs l k : get_memory_levels h m = Ok ls -> In l (h_list h) -> by_label label ls fs l k == at_memory ls fs l k.
    Proof.
      intros G Hl. unfold by_label, at_memory. apply qsum_ext. intros (l', f) Hin. cbn [fst snd].
      assert (Hl' := levels_in m ls l' G (in_combine_l _ _ _ _ Hin)).
      destruct (eqb_spec (label l') (label l)) as [El|Nl], (Nat.eqb_spec (lv_id l') (lv_id l)) as [Ei|Ni]; try reflexivity; exfalso.
      - apply Ni. now rewrite (nodup_map_inj label (h_list h) l' l LN Hl' Hl El).
      - apply Nl. now rewrite (nodup_map_inj lv_id (h_list h) l' l IN Hl' Hl Ei).
    Qed.

    Variable c : plotted.
    Hypothesis Dr : drawable h c.

    Lemma drawable_fit kv : In kv (ev_further (pd_eval c)) -> fit h c kv.
    Proof.
      destruct kv as (op, fs). intros Hin. destruct (dr_ops _ _ Dr op fs Hin) as (_ & X & W). split; [exact X|].
      intros f Hf k. exact (W f k Hf).
    Qed.

    Lemma gathered : exists acc, access_energy label h c = Ok acc /\ wholes acc /\
      forall op l k, shown label acc op l k == qsum (map (fun kv => of_operand label h c kv op l k) (ev_further (pd_eval c))).
    Proof.
      destruct (operands_charged label h c (ev_further (pd_eval c)) []) as (acc & E & W & S').
      - intros key f D. discriminate D.
      - exact drawable_fit.
      - exists acc. split; [exact E|]. split; [exact W|]. intros op l k. rewrite S'. unfold shown. cbn [dget]. ring.
    Qed.

    Lemma cell_ok acc op l k : wholes acc -> cell label acc op l k = Ok (shown label acc op l k).
    Proof.
      intros W. unfold cell, shown. destruct (dget (op, label l) acc) as [f|] eqn:D.
      - destruct (W _ _ D k) as (x & Ex). unfold four_get, dgetr, in_direction. rewrite Ex. reflexivity.
      - rewrite zero_ok. cbn [rbind]. now destruct k.
    Qed.

    Lemma operand_once op l k : In l (h_list h) -> forall d, NoDup (keys d) -> (forall kv, In kv d -> fit h c kv) ->
      match dget op d with
      | None => qsum (map (fun kv => of_operand label h c kv op l k) d) == 0
      | Some fs => exists mem_op ls, dget op (lk_data (pd_links c)) = Some mem_op /\ get_memory_levels h mem_op = Ok ls /\
          qsum (map (fun kv => of_operand label h c kv op l k) d) == at_memory ls fs l k
      end.
    Proof.
      intros Hl. induction d as [|(o, fs) d IH]; intros Nd F; [reflexivity|].
      cbn [keys map fst] in Nd. apply NoDup_cons_iff in Nd. destruct Nd as (No & Nd).
      specialize (IH Nd (fun kv Hkv => F kv (or_intror Hkv))). cbn [map]. cbn [dget]. destruct (eqb_spec op o) as [->|Ne].
      - destruct (F (o, fs) (or_introl eq_refl)) as ((m & ls & Em & El & _) & _). cbn [fst snd] in *.
        exists m, ls. split; [exact Em|]. split; [exact El|]. rewrite qsum_cons. unfold of_operand at 1. cbn [fst snd].
        destruct (eqb_spec o o) as [_|X]; [|congruence]. rewrite Em, El, (by_label_at m ls fs l k El Hl).
        rewrite qsum_zero; [ring|]. intros kv Hkv. unfold of_operand. destruct (eqb_spec (fst kv) o) as [Q|]; [|reflexivity].
        destruct No. rewrite <- Q. now apply List.in_map.
      - assert (Z0' : of_operand label h c (o, fs) op l k == 0).
        { unfold of_operand. cbn [fst]. destruct (eqb_spec o op) as [Q|]; [congruence|reflexivity]. }
        destruct (dget op d) as [gs|].
        + destruct IH as (m & ls & Em & El & S'). exists m, ls. split; [exact Em|]. split; [exact El|]. rewrite qsum_cons, Z0', S'. ring.
        + rewrite qsum_cons, Z0', IH. ring.
    Qed.

    Variables (ops : list string) (mems : list level).
    Hypothesis On : NoDup ops.
    Hypothesis Oin : forall op, In op (pd_ops c) -> In op ops.
    Hypothesis One' : ops <> [].
    Hypothesis Mp : Permutation mems (h_list h).
    Hypothesis Mne : h_list h <> [].

    Lemma mac_ok : exists m, mac_bar ops (ev_mac (pd_eval c)) = Ok m /\ qsum (concat m) == ev_mac (pd_eval c).
    Proof.
      destruct ops as [|o os]; [now destruct One'|]. eexists. split; [reflexivity|]. cbn [concat]. rewrite qsum_app.
      assert (X : qsum (concat (map (fun _ : string => repeat 0 4) os)) == 0).
      { clear. induction os as [|o os IH]; [reflexivity|]. cbn [map concat]. rewrite qsum_app, IH. reflexivity. }
      rewrite X. cbn [repeat]. rewrite !qsum_cons. unfold qsum. cbn [fold_right]. ring.
    Qed.

    (** a sum over memories and operands has one term for every entry of the breakdown *)
    Lemma summed acc : (forall op l k, shown label acc op l k == qsum (map (fun kv => of_operand label h c kv op l k) (ev_further (pd_eval c)))) ->
      qsum (map (fun l => qsum (map (fun op => qsum (map (shown label acc op l) directions)) ops)) mems) ==
      qsum (map (fun kv => qsum (map all_directions (snd kv))) (ev_further (pd_eval c))).
    Proof.
      intros S'.
      assert (E1 : qsum (map (fun l => qsum (map (fun op => qsum (map (shown label acc op l) directions)) ops)) mems) ==
        qsum (map (fun l => qsum (map (fun kv => qsum (map (fun op => qsum (map (of_operand label h c kv op l) directions)) ops)) (ev_further (pd_eval c)))) mems)).
      { apply qsum_ext. intros l _.
        rewrite <- (qsum_swap (fun op kv => qsum (map (of_operand label h c kv op l) directions)) ops (ev_further (pd_eval c))).
        apply qsum_ext. intros op _. rewrite <- (qsum_swap (fun k kv => of_operand label h c kv op l k) directions (ev_further (pd_eval c))).
        apply qsum_ext. intros k _. apply S'. }
      rewrite E1, qsum_swap. apply qsum_ext. intros (op, fs) Hin. cbn [snd].
      destruct (dr_ops _ _ Dr op fs Hin) as (Ho & (m & ls & Em & El & Hlen) & _). apply Oin in Ho.
      assert (E2 : qsum (map (fun l => qsum (map (fun op' => qsum (map (of_operand label h c (op, fs) op' l) directions)) ops)) mems) ==
                   qsum (map (fun l => qsum (map (by_label label ls fs l) directions)) mems)).
      { apply qsum_ext. intros l _.
        rewrite <- (qsum_one (fun x : string => x) op (qsum (map (by_label label ls fs l) directions)) ops) by now rewrite map_id.
        apply qsum_ext. intros o _. unfold of_operand. cbn [fst snd]. rewrite Em, El. destruct (eqb op o); [reflexivity|].
        apply qsum_zero. reflexivity. }
      rewrite E2. unfold by_label.
      assert (E3 : qsum (map (fun l => qsum (map (fun k => qsum (map (fun lf => if eqb (label (fst lf)) (label l) then in_direction (snd lf) k else 0) (combine ls fs))) directions)) mems) ==
                   qsum (map (fun lf => qsum (map (fun l => if eqb (label (fst lf)) (label l) then all_directions (snd lf) else 0) mems)) (combine ls fs))).
      { rewrite (qsum_swap (fun lf l => if eqb (label (fst lf)) (label l) then all_directions (snd lf) else 0)).
        apply qsum_ext. intros l _. rewrite (qsum_swap (fun k lf => if eqb (label (fst lf)) (label l) then in_direction (snd lf) k else 0)).
        apply qsum_ext. intros lf _. destruct (eqb (label (fst lf)) (label l)).
        - unfold all_directions, directions. cbn [map]. rewrite !qsum_cons. unfold qsum. cbn [fold_right]. ring.
        - apply qsum_zero. reflexivity. }
      rewrite E3.
      assert (E4 : qsum (map (fun lf => qsum (map (fun l => if eqb (label (fst lf)) (label l) then all_directions (snd lf) else 0) mems)) (combine ls fs)) ==
                   qsum (map (fun lf => all_directions (snd lf)) (combine ls fs))).
      { apply qsum_ext. intros (l, f) Hlf. cbn [fst snd]. apply qsum_one.
        - apply (Permutation_NoDup (l := map label (h_list h))); [|exact LN]. symmetry. now apply Permutation_map.
        - apply List.in_map. apply (Permutation_in _ (Permutation_sym Mp)). exact (levels_in m ls l El (in_combine_l _ _ _ _ Hlf)). }
      rewrite E4. rewrite <- (map_map snd all_directions).
      assert (E5 : map snd (combine ls fs) = fs).
      { clear -Hlen. revert ls Hlen. induction fs as [|f fs IH]; intros [|l ls] Hlen; cbn in *; try reflexivity; try lia. f_equal. apply IH. lia. }
      rewrite E5. reflexivity.
    Qed.

    Lemma row_ok : exists row, energy_row label h ops mems c = Ok row /\ right_bars h ops mems c row /\
      qsum (concat (concat row)) == reported_energy (pd_eval c).
    Proof.
      unfold energy_row. destruct gathered as (acc & -> & W & S'). cbn [rbind].
      assert (B : rmap (fun l => rmap (fun op => rmap (cell label acc op l) directions) ops) mems =
                  Ok (map (fun l => map (fun op => map (shown label acc op l) directions) ops) mems)).
      { apply rmap_pure. intros l. apply rmap_pure. intros op. apply rmap_pure. intros k. now apply cell_ok. }
      rewrite B. cbn [rbind]. destruct mac_ok as (m & -> & Hm). cbn [rbind].
      assert (E0 : forall T (x : T), match mems with [] => Err ValueError | _ :: _ => Ok x end = Ok x).
      { intros T x. destruct mems; [apply Permutation_nil in Mp; now destruct Mne|reflexivity]. }
      rewrite E0. clear B E0.
      eexists. split; [reflexivity|]. split.
      - exists m. eexists. split; [reflexivity|]. split; [exact Hm|].
        assert (Hin : forall l, In l mems -> In l (h_list h)) by (intros l; apply (Permutation_in _ Mp)).
        clear Mp. induction mems as [|l ls IH]; [constructor|]. cbn [map]. constructor; [|apply IH; intros l' Hl'; apply Hin; now right].
        assert (Hl := Hin l (or_introl eq_refl)). clear IH Hin. clear On Oin One'. induction ops as [|op os IH]; [constructor|]. cbn [map]. constructor; [|exact IH].
        assert (R : forall k, energy_at h c op l k (shown label acc op l k)).
        { intros k. unfold energy_at. assert (X := operand_once op l k Hl _ (dr_once _ _ Dr) drawable_fit).
          destruct (dget op (ev_further (pd_eval c))) as [fs|].
          - destruct X as (mo & ls' & Emo & Els & Q). exists mo, ls'. split; [exact Emo|]. split; [exact Els|]. now rewrite S'.
          - now rewrite S'. }
        repeat (constructor; [apply R|]). constructor.
      - cbn [concat]. rewrite concat_app, qsum_app, Hm. unfold reported_energy. apply Qplus_comp; [reflexivity|].
        rewrite <- (summed acc S'). rewrite (sum_bars (fun l op k => shown label acc op l k)). reflexivity.
    Qed.
  End One.
End Bars.

(** * Names *)
Lemma slashes_app a b : slashes (a ++ b) = (slashes a + slashes b)%nat.
Proof. induction a as [|x a IH]; [reflexivity|]. cbn [append slashes]. rewrite IH. lia. Qed.
Lemma split_parts s : forall cur, slashes cur = 0%nat ->
  String.concat "/" (split_from "/"%char cur s) = (cur ++ s)%string /\ split_from "/"%char cur s <> [] /\
  (forall p, In p (split_from "/"%char cur s) -> slashes p = 0%nat).
Proof.
  induction s as [|x s IH]; intros cur Hc; cbn [split_from].
  - cbn [String.concat]. split; [now rewrite str_app_nil|]. split; [discriminate|]. intros p [<-|[]]. exact Hc.
  - destruct (Ascii.eqb_spec x "/"%char) as [->|N].
    + destruct (IH ""%string eq_refl) as (C & Ne & P). split; [|split; [discriminate|intros p [<-|Hp]; [exact Hc|now apply P]]].
      destruct (split_from "/" "" s) as [|q qs]; [now destruct Ne|]. cbn [append] in C. change (String.concat "/" (cur :: q :: qs)) with (cur ++ "/" ++ String.concat "/" (q :: qs))%string.
      rewrite C. reflexivity.
    + destruct (IH (cur ++ String x "")%string) as (C & Ne & P).
      { rewrite slashes_app, Hc. cbn [slashes]. apply Ascii.eqb_neq in N. now rewrite N. }
      split; [|now split]. rewrite C, str_app_assoc. reflexivity.
Qed.
Lemma concat_front front a b : front <> [] ->
  String.concat "/" (front ++ [a; b]) = (String.concat "/" front ++ "/" ++ String.concat "/" [a; b])%string.
Proof.
  induction front as [|x [|y front] IH]; intros Ne; [now destruct Ne|reflexivity|].
  change (String.concat "/" ((x :: y :: front) ++ [a; b])) with (x ++ "/" ++ String.concat "/" ((y :: front) ++ [a; b]))%string.
  rewrite IH by discriminate. change (String.concat "/" (x :: y :: front)) with (x ++ "/" ++ String.concat "/" (y :: front))%string.
  rewrite !str_app_assoc. reflexivity.
Qed.
Lemma shortened_ok name : shortened name (shorten_onnx_layer_name name).
Proof.
  unfold shorten_onnx_layer_name, split. destruct (split_parts name ""%string eq_refl) as (C & Ne & P). cbn [append] in C.
  set (parts := split_from "/" "" name) in *. cbv zeta.
  destruct (Nat.le_gt_cases (length parts) 2) as [L|L].
  - replace (length parts - 2)%nat with 0%nat by lia. cbn [skipn]. left. split; [exact C|]. rewrite <- C.
    destruct parts as [|p [|q [|r rs]]]; [now destruct Ne| | |cbn in L; lia].
    + cbn [String.concat]. rewrite (P p) by now left. lia.
    + cbn [String.concat]. rewrite !slashes_app, (P p), (P q) by (cbn; tauto). cbn. lia.
  - right. assert (Sp := firstn_skipn (length parts - 2) parts).
    assert (Ls : length (skipn (length parts - 2) parts) = 2%nat) by (rewrite skipn_length; lia).
    assert (Lf : length (firstn (length parts - 2) parts) = (length parts - 2)%nat) by (rewrite firstn_length; lia).
    destruct (skipn (length parts - 2) parts) as [|a [|b [|? ?]]]; try discriminate Ls.
    assert (Pa : slashes a = 0%nat) by (apply P; rewrite <- Sp; apply in_or_app; right; now left).
    assert (Pb : slashes b = 0%nat) by (apply P; rewrite <- Sp; apply in_or_app; right; right; now left).
    split.
    + cbn [String.concat]. rewrite !slashes_app, Pa, Pb. reflexivity.
    + exists (String.concat "/" (firstn (length parts - 2) parts)). rewrite <- C, <- Sp at 1. apply concat_front.
      intros Q. rewrite Q in Lf. cbn in Lf. lia.
Qed.

(** * The chart *)
Lemma insert_perm x l : Permutation (insert_size x l) (x :: l).
Proof.
  induction l as [|y l IH]; cbn [insert_size]; [reflexivity|]. destruct (Z.leb _ _); [reflexivity|].
  rewrite IH. apply perm_swap.
Qed.
Lemma sort_perm l : Permutation (sort_size l) l.
Proof. induction l as [|x l IH]; [reflexivity|]. cbn [sort_size fold_right]. fold (sort_size l). rewrite insert_perm. now constructor. Qed.
Definition sizes (l : list level) := map (fun l => ml_size (lv_mem l)) l.
Lemma insert_increasing x l : increasing (sizes l) -> increasing (sizes (insert_size x l)).
Proof.
  induction l as [|y l IH]; intros H; [exact I|]. cbn [insert_size]. destruct (Z.leb_spec (ml_size (lv_mem x)) (ml_size (lv_mem y))) as [L|L].
  - split; [exact L|exact H].
  - assert (Hl : increasing (sizes l)) by (destruct l; [exact I|exact (proj2 H)]). specialize (IH Hl).
    destruct l as [|z l]; [split; [lia|exact I]|]. cbn [insert_size] in *.
    destruct (Z.leb (ml_size (lv_mem x)) (ml_size (lv_mem z))); (split; [|exact IH]); [lia|exact (proj1 H)].
Qed.
Lemma sort_increasing l : increasing (sizes (sort_size l)).
Proof. induction l as [|x l IH]; [exact I|]. cbn [sort_size fold_right]. now apply insert_increasing. Qed.

Lemma filter_all {A} (f : A -> bool) l : (forall x, In x l -> f x = true) -> filter f l = l.
Proof.
  induction l as [|x l IH]; intros H; [reflexivity|]. cbn [filter]. rewrite (H x (or_introl eq_refl)). f_equal. apply IH.
  intros y Hy. apply H. now right.
Qed.
Lemma rmap_each {A B} (f : A -> result B) (P : A -> B -> Prop) l : (forall x, In x l -> exists y, f x = Ok y /\ P x y) ->
  exists ys, rmap f l = Ok ys /\ Forall2 P l ys.
Proof.
  induction l as [|x l IH]; intros H; [exists []; split; [reflexivity|constructor]|].
  destruct (H x (or_introl eq_refl)) as (y & Ey & Py). destruct (IH (fun z Hz => H z (or_intror Hz))) as (ys & Eys & Pys).
  exists (y :: ys). split; [|now constructor]. cbn [rmap]. rewrite Ey. cbn [rbind]. rewrite Eys. reflexivity.
Qed.
Lemma F2_map {A B C} (R : A -> C -> Prop) (f : B -> C) l l' : Forall2 (fun a b => R a (f b)) l l' -> Forall2 R l (map f l').
Proof. induction 1; cbn [map]; constructor; assumption. Qed.
Lemma F2_self {A C} (R : A -> C -> Prop) (f : A -> C) l : (forall a, R a (f a)) -> Forall2 R l (map f l).
Proof. intros H. induction l; cbn [map]; constructor; auto. Qed.

Lemma stack_ok e : right_stack e [ev_ideal e; ev_temporal e - ev_ideal e; ev_l0 e - ev_temporal e; ev_l1 e - ev_l0 e; ev_l2 e - ev_l1 e].
Proof. split; [reflexivity|]. cbn [firstn]. rewrite !qsum_cons. unfold qsum. cbn [fold_right]. repeat split; ring. Qed.

Lemma drawn label set_order number c0 cs :
  let h := pd_hierarchy c0 in
  (forall l, Permutation (set_order l) l) -> h_list h <> [] ->
  NoDup (map lv_id (h_list h)) -> NoDup (map label (h_list h)) ->
  (forall c, In c (c0 :: cs) -> single c /\ drawable h c) -> (exists c, In c (c0 :: cs) /\ pd_ops c <> []) ->
  exists ch, bar_plot label set_order number (c0 :: cs) = Ok ch /\ right_chart h (c0 :: cs) ch.
Proof.
  intros h So Hne In_ Ln Dc Hop. unfold bar_plot.
  rewrite filter_all.
  2:{ intros c Hc. destruct (Dc c Hc) as ((i & Ei) & _). unfold is_single. now rewrite Ei. }
  cbv zeta. set (ops := set_order (nodup string_dec (flat_map pd_ops (c0 :: cs)))). fold h.
  set (mems := sort_size (h_list h)).
  assert (Oi : forall op, In op ops <-> exists c, In c (c0 :: cs) /\ In op (pd_ops c)).
  { intros op. unfold ops. split.
    - intros Ho. apply (Permutation_in _ (So _)), nodup_In, in_flat_map in Ho. exact Ho.
    - intros Ho. apply (Permutation_in _ (Permutation_sym (So _))), nodup_In, in_flat_map. exact Ho. }
  assert (On : NoDup ops) by (unfold ops; apply (Permutation_NoDup (Permutation_sym (So _))), NoDup_nodup).
  assert (One : ops <> []).
  { destruct Hop as (c & Hc & Pc). destruct (pd_ops c) as [|o os] eqn:E; [now destruct Pc|].
    assert (X : In o ops) by (apply Oi; exists c; rewrite E; split; [exact Hc|now left]). intros Q. rewrite Q in X. destruct X. }
  assert (Rows : exists rows, rmap (energy_row label h ops mems) (c0 :: cs) = Ok rows /\
    Forall2 (fun c row => right_bars h ops mems c row /\ qsum (concat (concat row)) == reported_energy (pd_eval c)) (c0 :: cs) rows).
  { apply rmap_each. intros c Hc. apply row_ok; try assumption.
    - exact (proj2 (Dc c Hc)).
    - intros op Ho. apply Oi. exists c. now split.
    - apply sort_perm. }
  destruct Rows as (rows & Er & Hr). unfold get_energy_array. fold h. rewrite Er. cbn [rbind].
  eexists. split; [reflexivity|]. constructor; cbn [ch_mems ch_ops ch_energy ch_totals ch_latency ch_latencies].
  - split; [apply sort_perm|apply sort_increasing].
  - split; [exact On|exact Oi].
  - revert Hr. apply Proof_Bandwidth.F2_impl. tauto.
  - apply F2_map. revert Hr. apply Proof_Bandwidth.F2_impl. tauto.
  - apply F2_self. intros c. apply stack_ok.
  - apply F2_map, F2_self. intros c. exact (proj2 (proj2 (proj2 (proj2 (proj2 (stack_ok (pd_eval c))))))).
Qed.

(** Sums of layers are left out. *)
Lemma sums_left_out label set_order number cs c cs' : ~ single c ->
  bar_plot label set_order number (cs ++ c :: cs') = bar_plot label set_order number (cs ++ cs').
Proof.
  intros N. unfold bar_plot. rewrite !filter_app. cbn [filter]. replace (is_single c) with false; [reflexivity|].
  unfold is_single. destruct (ev_layers (pd_eval c)) as [i|] eqn:E; [|reflexivity]. exfalso. apply N. now exists i.
Qed.
