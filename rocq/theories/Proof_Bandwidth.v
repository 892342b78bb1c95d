(** Proofs for C20. *)
From Coq Require Import QArith.
From Verif Require Import Base Model_SpatialMap Spec_SpatialMap Proof_AllocSearch Model_Generation Spec_Generation.
Local Open Scope Z_scope.
Local Open Scope result_scope.

Lemma Forall2_in_l {A B} (R : A -> B -> Prop) l1 l2 x : Forall2 R l1 l2 -> In x l1 -> exists y, In y l2 /\ R x y.
Proof. induction 1 as [|a b l1 l2 H F IH]; intros Hi; [easy|]. destruct Hi as [->|Hi]; [exists b; split; [now left|easy]|]. destruct (IH Hi) as (y & ? & ?). exists y. split; [now right|easy]. Qed.
Lemma Forall2_in_r {A B} (R : A -> B -> Prop) l1 l2 y : Forall2 R l1 l2 -> In y l2 -> exists x, In x l1 /\ R x y.
Proof. induction 1 as [|a b l1 l2 H F IH]; intros Hi; [easy|]. destruct Hi as [->|Hi]; [exists a; split; [now left|easy]|]. destruct (IH Hi) as (x & ? & ?). exists x. split; [now right|easy]. Qed.

Lemma F2_impl {A B} (R R' : A -> B -> Prop) l1 l2 : (forall a b, R a b -> R' a b) -> Forall2 R l1 l2 -> Forall2 R' l1 l2.
Proof. intros H F. induction F; constructor; auto. Qed.

(** * Folding over the uses of memories *)
Definition uses (mems : list inner_mem) : list (inner_mem * string) :=
  flat_map (fun mem => map (pair mem) (im_operands mem)) mems.

Lemma rfold_uses {A} (f : inner_mem -> A -> string -> result A) mems (a : A) :
  rfold (fun a mem => rfold (f mem) a (im_operands mem)) a mems = rfold (fun a mo => f (fst mo) a (snd mo)) a (uses mems).
Proof.
  revert a. induction mems as [|mem mems IH]; intros a; [reflexivity|]. unfold uses. cbn [flat_map]. rewrite rfold_app.
  assert (E : forall ops a, rfold (fun a mo => f (fst mo) a (snd mo)) a (map (pair mem) ops) = rfold (f mem) a ops).
  { clear. induction ops as [|op ops IH]; intros a; [reflexivity|]. cbn [map rfold fst snd].
    destruct (f mem a op); cbn [rbind]; [apply IH|reflexivity]. }
  rewrite E. cbn [rfold]. destruct (rfold (f mem) a (im_operands mem)); cbn [rbind]; [apply IH|reflexivity].
Qed.

Lemma in_uses mems mem mop : In (mem, mop) (uses mems) <-> In mem mems /\ In mop (im_operands mem).
Proof.
  unfold uses. rewrite in_flat_map. split.
  - intros (m & Hm & H). apply in_map_iff in H as (o & [= <- <-] & H). easy.
  - intros [H1 H2]. exists mem. split; [easy|]. now apply in_map.
Qed.

(** * Lowering to a bound *)
(** [u'] is [u] cut down to the bounds in [S] *)
Lemma cut_ext S S' u u' : (forall p b, S p b <-> S' p b) -> cut S u u' -> cut S' u u'.
Proof.
  intros H (H1 & H2 & H3). split; [easy|]. split; [intros p b Hs; apply H2; now apply H|].
  destruct H3 as [H3|(p & b & H3 & H4)]; [now left|]. right. exists p, b. split; [now apply H|easy].
Qed.
Lemma cut_trans (S1 S2 : Z -> Z -> Prop) u u1 u2 : (forall p b, S1 p b -> 0 < p) ->
  cut S1 u u1 -> cut S2 u1 u2 -> cut (fun p b => S1 p b \/ S2 p b) u u2.
Proof.
  intros Hp (A1 & A2 & A3) (B1 & B2 & B3). split; [lia|]. split.
  - intros p b [H|H]; [|now apply B2]. assert (H' := A2 _ _ H). apply Hp in H. nia.
  - destruct B3 as [->|(p & b & H & Hb)]; [|right; exists p, b; split; [now right|easy]].
    destruct A3 as [->|(p & b & H & Hb)]; [now left|]. right. exists p, b. split; [now left|easy].
Qed.
Lemma cut_refl (S : Z -> Z -> Prop) u : (forall p b, ~ S p b) -> cut S u u.
Proof. intros H. split; [lia|]. split; [|now left]. intros p b Hs. now apply H in Hs. Qed.

Lemma cuts_ext S S' m m' : (forall o d p b, S o d p b <-> S' o d p b) -> cuts S m m' -> cuts S' m m'.
Proof.
  intros H. apply F2_impl. intros om om' [H1 H2]. split; [easy|]. revert H2. apply F2_impl.
  intros du du' [H3 H4]. split; [easy|]. revert H4. apply cut_ext. intros. apply H.
Qed.
Lemma Forall2_trans_gen {A} (R1 R2 R3 : A -> A -> Prop) l1 l2 l3 :
  (forall a b c, R1 a b -> R2 b c -> R3 a c) -> Forall2 R1 l1 l2 -> Forall2 R2 l2 l3 -> Forall2 R3 l1 l3.
Proof.
  intros H F. revert l3. induction F as [|a b l1 l2 Hab F IH]; intros l3 G; inversion G; subst; constructor; eauto.
Qed.
Lemma cuts_trans (S1 S2 : string -> string -> Z -> Z -> Prop) m m1 m2 : (forall o d p b, S1 o d p b -> 0 < p) ->
  cuts S1 m m1 -> cuts S2 m1 m2 -> cuts (fun o d p b => S1 o d p b \/ S2 o d p b) m m2.
Proof.
  intros Hp. apply Forall2_trans_gen. intros a b c [A1 A2] [B1 B2]. split; [congruence|]. rewrite A1 in B2. revert A2 B2.
  apply Forall2_trans_gen. intros x y z [X1 X2] [Y1 Y2]. split; [congruence|]. rewrite X1 in Y2.
  eapply cut_trans; [|eassumption..]. intros p q. apply Hp.
Qed.
Lemma Forall2_refl_in {A} (R : A -> A -> Prop) l : (forall x, In x l -> R x x) -> Forall2 R l l.
Proof. induction l as [|x l IH]; intros H; constructor; [apply H; now left|apply IH; intros; apply H; now right]. Qed.
Lemma cuts_refl (S : string -> string -> Z -> Z -> Prop) m : (forall o d p b, ~ S o d p b) -> cuts S m m.
Proof.
  intros H. apply Forall2_refl_in. intros om _. split; [easy|]. apply Forall2_refl_in. intros du _. split; [easy|].
  apply cut_refl. intros. apply H.
Qed.
Lemma cuts_keys S m m' : cuts S m m' -> keys m' = keys m.
Proof. induction 1 as [|[o x] [o' x'] m m' [H _] F IH]; [reflexivity|]. unfold keys in *. cbn [map fst] in *. now rewrite H, IH. Qed.

Lemma rfold_cuts {B} (f : dict string (dict string Z) -> B -> result (dict string (dict string Z)))
    (S : B -> string -> string -> Z -> Z -> Prop) (l : list B) :
  (forall x o d p b, S x o d p b -> 0 < p) ->
  (forall x m m', In x l -> NoDup (keys m) -> f m x = Ok m' -> cuts (S x) m m') ->
  forall m m', NoDup (keys m) -> rfold f m l = Ok m' -> cuts (fun o d p b => exists x, In x l /\ S x o d p b) m m'.
Proof.
  intros Hp. induction l as [|x l IH]; intros Hf m m' Hnd E.
  - injection E as <-. apply cuts_refl. intros o d p b (x & [] & _).
  - cbn [rfold] in E. destruct (f m x) as [m1|e] eqn:E1; cbn [rbind] in E; [|discriminate].
    assert (H1 := Hf x m m1 (or_introl eq_refl) Hnd E1).
    apply IH in E; [|intros; apply Hf; [now right|easy|easy]|now rewrite (cuts_keys _ _ _ H1)].
    eapply cuts_ext; [|eapply cuts_trans; [apply Hp|exact H1|exact E]].
    intros o d p b. split.
    + intros [H|(y & Hy & H)]; [exists x; split; [now left|easy]|exists y; split; [now right|easy]].
    + intros (y & [->|Hy] & H); [now left|right; now exists y].
Qed.

(** * One array dimension *)
Lemma limit_dim_cut bw prec ir du du' : limit_dim_bw bw prec ir du = Ok du' ->
  fst du' = fst du /\ cut (fun p b => p = prec /\ bw = Some b /\ ~ In (fst du) ir /\ 0 < p) (snd du) (snd du').
Proof.
  unfold limit_dim_bw. destruct (memb (fst du) ir) eqn:Em.
  - intros [= <-]. split; [easy|]. apply cut_refl. intros p b (_ & _ & H & _). apply memb_In in Em. now apply H.
  - apply memb_not_In in Em. destruct (Z.ltb_spec 0 prec) as [Hp|Hp].
    + destruct bw as [b|]; cbn [of_option rbind]; [|discriminate]. intros [= <-].
      assert (Hb := Z.div_mod b prec ltac:(lia)). assert (Hm := Z.mod_pos_bound b prec Hp).
      destruct (Z.ltb_spec (b / prec) (snd du)) as [Hl|Hl]; cbn [fst snd]; (split; [easy|]).
      * split; [lia|]. split; [intros p c (-> & [= ->] & _ & _); nia|].
        right. exists prec, b. split; [easy|]. nia.
      * split; [lia|]. split; [intros p c (-> & [= ->] & _ & _); nia|]. now left.
    + cbn [rbind]. rewrite Z.ltb_irrefl. intros [= <-]. split; [easy|]. apply cut_refl. intros p b (-> & _ & _ & H). lia.
Qed.

Lemma rmap_Forall2' {A B} (f : A -> result B) (R : A -> B -> Prop) l l' :
  (forall x y, In x l -> f x = Ok y -> R x y) -> rmap f l = Ok l' -> Forall2 R l l'.
Proof.
  revert l'. induction l as [|x l IH]; intros l' H E; cbn [rmap] in E; [injection E as <-; constructor|].
  destruct (f x) as [y|] eqn:Ex; cbn [rbind] in E; [|discriminate].
  destruct (rmap f l) as [ys|] eqn:Er; cbn [rbind] in E; [|discriminate]. injection E as <-.
  constructor; [apply H; [now left|easy]|]. apply IH; [|easy]. intros. apply H; [now right|easy].
Qed.

Lemma dset_Forall2 {V} (R : string * V -> string * V -> Prop) o (v v' : V) (m : dict string V) :
  NoDup (keys m) -> dget o m = Some v -> (forall o' x, In (o', x) m -> o' <> o -> R (o', x) (o', x)) -> R (o, v) (o, v') ->
  Forall2 R m (dset o v' m).
Proof.
  induction m as [|[k x] m IH]; intros Hnd Hg Hr Ho; [discriminate|]. inversion Hnd as [|? ? Hk Hm]; subst. cbn [dget dset] in *.
  destruct (eqb_spec o k) as [->|Hne].
  - injection Hg as ->. constructor; [exact Ho|]. apply Forall2_refl_in. intros [k' x'] Hi. apply Hr; [now right|].
    intros ->. apply Hk. now apply (in_map fst) in Hi.
  - constructor; [apply Hr; [now left|congruence]|]. apply IH; try assumption. intros. apply Hr; [now right|assumption].
Qed.

Lemma limit_oa_cut bw prec ir m o m' : NoDup (keys m) -> limit_oa_bw bw prec ir m o = Ok m' ->
  cuts (fun o' d p b => o' = o /\ p = prec /\ bw = Some b /\ ~ In d ir /\ 0 < p) m m'.
Proof.
  intros Hnd E. unfold limit_oa_bw in E. apply rbind_Ok in E as (x & Ex & E). apply dgetr_Ok in Ex.
  apply rbind_Ok in E as (x' & Ex' & E). injection E as <-.
  apply (dset_Forall2 _ o x x'); [exact Hnd|exact Ex| |].
  - intros o' y _ Hne. split; [easy|]. apply Forall2_refl_in. intros du _. split; [easy|]. apply cut_refl. intros p b (H & _). cbn in H. congruence.
  - split; [easy|]. cbn [fst snd]. eapply rmap_Forall2'; [|exact Ex'].
    intros du du' _ H. apply limit_dim_cut in H as [H1 H2]. split; [easy|]. revert H2. apply cut_ext. tauto.
Qed.

Section Bw.
  Variable layer : gen_layer.

  Definition op_bounds (mo : inner_mem * string) (o d : string) (p b : Z) : Prop :=
    let (mem, mop) := mo in
    exists lop ir, dget mop (gl_layer_op layer) = Some lop /\ dget lop (gl_prec layer) = Some p /\
      dget lop (gl_ir layer) = Some ir /\ array_bandwidth mem mop lop b /\ In o (im_served mem) /\ ~ In d ir /\ 0 < p.

  Lemma is_output_iff lop : reflect (lop = "O"%string) (is_output_op lop).
  Proof. unfold is_output_op. destruct (eqb_spec lop "O"%string); now constructor. Qed.

  Lemma limit_op_cuts mem mop m m' : NoDup (keys m) -> limit_op_bw layer mem m mop = Ok m' -> cuts (op_bounds (mem, mop)) m m'.
  Proof.
    intros Hnd E. unfold limit_op_bw in E.
    apply rbind_Ok in E as (lop & El & E). apply dgetr_Ok in El.
    apply rbind_Ok in E as (bw & Eb & E). apply dgetr_Ok in Eb.
    apply rbind_Ok in E as (prec & Ep & E). apply dgetr_Ok in Ep.
    apply rbind_Ok in E as (ir & Ei & E). apply dgetr_Ok in Ei.
    apply (rfold_cuts _ (fun o o' d p b => o' = o /\ p = prec /\ bw = Some b /\ ~ In d ir /\ 0 < p)) in E; [|..|exact Hnd].
    - revert E. apply cuts_ext. intros o d p b. unfold op_bounds. split.
      + intros (o' & Ho & -> & -> & -> & Hd & Hp). exists lop, ir. repeat (split; [assumption|]). split; [|easy].
        unfold array_bandwidth. destruct (is_output_iff lop); [left|right]; easy.
      + intros (lop' & ir' & H1 & H2 & H3 & H4 & H5 & H6 & H7). rewrite El in H1. injection H1 as <-.
        rewrite Ep in H2. injection H2 as <-. rewrite Ei in H3. injection H3 as <-.
        exists o. split; [easy|]. split; [easy|]. split; [easy|]. split; [|easy].
        destruct (is_output_iff lop); destruct H4 as [[? H4]|[? H4]]; congruence.
    - now intros x o d p b (_ & _ & _ & _ & ?).
    - intros o m0 m1 _ Hn H. now apply limit_oa_cut.
  Qed.

  Lemma limit_bandwidth_cuts mems m m' : NoDup (keys m) -> limit_bandwidth layer mems m = Ok m' ->
    cuts (fed layer mems) m m'.
  Proof.
    intros Hnd E. unfold limit_bandwidth in E. rewrite rfold_uses in E.
    apply (rfold_cuts _ op_bounds) in E; [|..|exact Hnd].
    - revert E. apply cuts_ext. intros o d p b. unfold fed. split.
      + intros ([mem mop] & Hu & lop & ir & H1 & H2 & H3 & H4 & H5 & H6 & H7). apply in_uses in Hu as [Hu1 Hu2].
        exists mem, mop, lop, ir. split; [easy|]. split; [now constructor|]. now split.
      + intros (mem & mop & lop & ir & H1 & [H2 H3 H4 H5] & H6 & H7 & H8 & H9).
        exists (mem, mop). split; [now apply in_uses|]. exists lop, ir. now repeat (split; [assumption|]).
    - intros [mem mop] o d p b (lop & ir & _ & _ & _ & _ & _ & _ & ?). easy.
    - intros [mem mop] m0 m1 _ Hn H. now apply limit_op_cuts.
  Qed.

  (** * It succeeds on complete inputs *)
  Lemma rfold_ok {A B} (f : A -> B -> result A) (P : A -> Prop) l :
    (forall a x, In x l -> P a -> exists a', f a x = Ok a' /\ P a') ->
    forall a, P a -> exists a', rfold f a l = Ok a' /\ P a'.
  Proof.
    induction l as [|x l IH]; intros H a Ha; [now exists a|]. cbn [rfold].
    destruct (H a x (or_introl eq_refl) Ha) as (a1 & -> & H1). cbn [rbind]. apply IH; [|exact H1].
    intros b y Hy. apply H. now right.
  Qed.
  Lemma rmap_ok' {A B} (f : A -> result B) l : (forall x, In x l -> exists y, f x = Ok y) -> exists l', rmap f l = Ok l'.
  Proof.
    induction l as [|x l IH]; intros H; [now exists []|]. cbn [rmap]. destruct (H x (or_introl eq_refl)) as (y & ->).
    cbn [rbind]. destruct IH as (l' & ->); [intros; apply H; now right|]. cbn [rbind]. eauto.
  Qed.

  Lemma limit_bandwidth_ok mems m : NoDup (keys m) -> mems_complete layer mems (keys m) ->
    exists m', limit_bandwidth layer mems m = Ok m'.
  Proof.
    intros Hnd Hc. unfold limit_bandwidth. rewrite rfold_uses.
    destruct (rfold_ok (fun a mo => limit_op_bw layer (fst mo) a (snd mo)) (fun a => keys a = keys m) (uses mems)) with (a := m)
      as (m' & E & _); [|reflexivity|now exists m'].
    intros a [mem mop] Hu Ha. apply in_uses in Hu as [Hu1 Hu2]. cbn [fst snd].
    destruct (Hc mem Hu1) as (Hs & Hin & Ho). destruct (Ho mop Hu2) as (lop & prec & ir & bw & [U1 U2 U3 U4] & Hb).
    unfold limit_op_bw, dgetr. rewrite U2. cbn [of_option rbind].
    replace (dget mop (if is_output_op lop then im_wr_low mem else im_rd_low mem)) with (Some (Some bw)).
    2: { destruct (is_output_iff lop); destruct Hb as [[? Hb]|[? Hb]]; congruence. }
    cbn [of_option rbind]. rewrite U3, U4. cbn [of_option rbind].
    apply rfold_ok; [|exact Ha]. intros b o Hi Hb'. unfold limit_oa_bw, dgetr.
    destruct (key_dget o b) as (x & Ex); [rewrite Hb'; now apply Hin|]. rewrite Ex. cbn [of_option rbind].
    destruct (rmap_ok' (limit_dim_bw (Some bw) prec ir) x) as (x' & Ex').
    { intros du _. unfold limit_dim_bw. destruct (memb (fst du) ir); [eauto|]. cbn [of_option rbind].
      destruct (0 <? prec); cbn [rbind]; eauto. }
    rewrite Ex'. cbn [rbind]. eexists. split; [reflexivity|]. rewrite keys_dset_in; [easy|]. now apply dget_Some_key in Ex.
  Qed.

  (** * The maximal unrollings *)
  Lemma max_unrolling_ok mems oa : NoDup (keys oa) -> mems_complete layer mems (keys oa) ->
    exists mx, get_max_unrolling layer mems oa = Ok mx /\ keys mx = keys oa /\
      Forall2 (fun os om => fst om = fst os /\
        Forall2 (fun ds du => fst du = fst ds /\ cut (fed layer mems (fst os) (fst ds)) (Z.min (snd ds) (snd os)) (snd du))
          (gl_sizes layer) (snd om)) oa mx.
  Proof.
    intros Hnd Hc. unfold get_max_unrolling.
    remember (map (fun os => (fst os, map (fun ds => (fst ds, Z.min (snd ds) (snd os))) (gl_sizes layer))) oa) as m0 eqn:Hm0.
    assert (Hk : keys m0 = keys oa) by (subst m0; unfold keys; now rewrite map_map).
    destruct (limit_bandwidth_ok mems m0) as (mx & E); [exact (eq_ind_r (@NoDup _) Hnd Hk)|exact (eq_ind_r (mems_complete layer mems) Hc Hk)|].
    exists mx. split; [exact E|]. apply limit_bandwidth_cuts in E; [|exact (eq_ind_r (@NoDup _) Hnd Hk)].
    split; [exact (eq_trans (cuts_keys _ _ _ E) Hk)|]. subst m0. clear - E. revert mx E.
    induction oa as [|[o s] oa IH]; intros mx E; inversion E as [|? ? ? ? H F]; subst; constructor; [|now apply IH].
    cbn [fst snd] in *. destruct H as [H1 H2]. split; [easy|]. clear - H2. revert H2. generalize (snd y).
    induction (gl_sizes layer) as [|[d z] l IH]; intros l' H; inversion H as [|? ? ? ? Hd Hf]; subst; constructor; [exact Hd|now apply IH].
  Qed.
End Bw.
