(** The chain of stages (C67) and saved files (C48). *)
From Coq Require Import QArith Ascii Lqa.
From Verif Require Import Base Model_Text Model_Graph Model_Workload Model_Cme Model_Pipeline Spec_Cme Spec_Graph Spec_Workload Spec_Pipeline
  Proof_AllocSearch Proof_Bandwidth Proof_Text Proof_Graph Proof_Workload Proof_CmeMore Proof_Reduce Proof_CostExample.
Open Scope string_scope.
Open Scope list_scope.

Lemma in_F2_l {X Y} (P : X -> Y -> Prop) l l' x : Forall2 P l l' -> In x l -> exists y, In y l' /\ P x y.
Proof. intros F. induction F as [|a b l l' Hab F IH]; [intros []|]. intros [<-|I]; [exists b; split; [now left|exact Hab]|]. destruct (IH I) as (y & Iy & Py). exists y. split; [now right|exact Py]. Qed.
Lemma in_F2_r {X Y} (P : X -> Y -> Prop) l l' y : Forall2 P l l' -> In y l' -> exists x, In x l /\ P x y.
Proof. intros F. induction F as [|a b l l' Hab F IH]; [intros []|]. intros [<-|I]; [exists a; split; [now left|exact Hab]|]. destruct (IH I) as (x & Ix & Px). exists x. split; [now right|exact Px]. Qed.

Section Chain.
  Context {A S C T : Type} `{EqB A}.
  Variables (dummy skipped : A -> bool) (workload : graph A).
  Variable spatials : A -> result (list S).
  Variable convert : A -> S -> result C.
  Variable temporals : A -> C -> list T * option exn.
  Variable evaluate : A -> C -> T -> result eval.
  Variable order : list string -> list string.
  Variables (less : eval -> eval -> bool) (le : eval -> eval -> Prop) (keep : bool).
  Hypothesis single : forall l s c t e, convert l s = Ok c -> evaluate l c t = Ok e -> exists i, ev_layers e = inl i.
  Hypothesis min_ok : forall X k (l : list (eval * X)), l <> [] -> (forall e x, In (e, x) l -> exists i, ev_layers e = inl i) ->
    exists b, minimal_stage less k l = Ok (b, if k then l else []) /\ first_best le (map fst l) b.
  Hypothesis min_nil : forall X k, minimal_stage less k (@nil (eval * X)) = Err AssertionError.
  Hypothesis le_trans : forall a b c, le a b -> le b c -> le a c.

  Notation candidate' := (candidate spatials convert temporals evaluate).
  Notation explored' := (explored spatials convert temporals evaluate).

  Lemma temporal_spec l c es : temporal_run temporals evaluate l c = Ok es ->
    snd (temporals l c) = None /\ Forall2 (fun t et => evaluate l c t = Ok (fst et) /\ snd et = t) (fst (temporals l c)) es.
  Proof.
    unfold temporal_run. intros E. apply rbind_Ok in E. destruct E as (es' & E & F).
    destruct (snd (temporals l c)); [discriminate|]. injection F as <-. split; [reflexivity|].
    apply rmap_Forall2 in E. revert E. apply F2_impl. intros t et Q. apply rbind_Ok in Q. destruct Q as (e & Q & R). injection R as <-. now split.
  Qed.

  Lemma temporal_ok l c : snd (temporals l c) = None -> (forall t, In t (fst (temporals l c)) -> exists e, evaluate l c t = Ok e) ->
    exists es, temporal_run temporals evaluate l c = Ok es.
  Proof.
    intros E F. unfold temporal_run. rewrite E.
    assert (G : exists es, rmap (fun t => rbind (evaluate l c t) (fun e => Ok (e, t))) (fst (temporals l c)) = Ok es).
    { revert F. induction (fst (temporals l c)) as [|t ts IH]; intros F; [now exists []|]. cbn [rmap].
      destruct (F t (or_introl eq_refl)) as (e & ->). cbn [rbind]. destruct IH as (es & ->); [intros; apply F; now right|]. cbn [rbind]. eauto. }
    destruct G as (es & ->). cbn [rbind]. eauto.
  Qed.

  (** One spatial mapping *)
  Lemma conversion_spec l s b others : conversion_run convert temporals evaluate less keep l s = Ok (b, others) ->
    exists c, convert l s = Ok c /\ fst (temporals l c) <> [] /\ snd (temporals l c) = None /\
      (forall t, In t (fst (temporals l c)) -> exists e, evaluate l c t = Ok e /\ le b e) /\
      (exists t, In t (fst (temporals l c)) /\ evaluate l c t = Ok b).
  Proof.
    unfold conversion_run. intros E. apply rbind_Ok in E. destruct E as (c & Ec & E). apply rbind_Ok in E. destruct E as (es & Ee & E).
    destruct (temporal_spec l c es Ee) as (N & F). exists c. split; [exact Ec|].
    assert (NE : es <> []) by (intros ->; rewrite min_nil in E; discriminate).
    assert (Si : forall e x, In (e, x) es -> exists i, ev_layers e = inl i).
    { intros e x I. destruct (in_F2_r _ _ _ _ F I) as (t & _ & Q & _). exact (single _ _ _ _ _ Ec Q). }
    destruct (min_ok T keep es NE Si) as (b' & Eb & (l1 & l2 & El & Best & _)). rewrite E in Eb. injection Eb as <- ->.
    split; [intros Q; rewrite Q in F; inversion F; congruence|]. split; [exact N|]. split.
    - intros t It. destruct (in_F2_l _ _ _ _ F It) as ([e x] & I & Q & _). exists e. split; [exact Q|]. apply Best. apply in_map_iff. now exists (e, x).
    - assert (Ib : In b (map fst es)) by (rewrite El; apply in_elt). apply in_map_iff in Ib. destruct Ib as ([e x] & <- & I).
      destruct (in_F2_r _ _ _ _ F I) as (t & It & Q & _). now exists t.
  Qed.

  Lemma conversion_ok l s c : convert l s = Ok c -> fst (temporals l c) <> [] -> snd (temporals l c) = None ->
    (forall t, In t (fst (temporals l c)) -> exists e, evaluate l c t = Ok e) ->
    exists b others, conversion_run convert temporals evaluate less keep l s = Ok (b, others).
  Proof.
    intros Ec NE N F. destruct (temporal_ok l c N F) as (es & Ee). unfold conversion_run. rewrite Ec. cbn [rbind]. rewrite Ee. cbn [rbind].
    destruct (temporal_spec l c es Ee) as (_ & G).
    destruct (min_ok T keep es) as (b & Eb & _).
    - intros ->. inversion G. congruence.
    - intros e x I. destruct (in_F2_r _ _ _ _ G I) as (t & _ & Q & _). exact (single _ _ _ _ _ Ec Q).
    - eauto.
  Qed.

  (** One layer *)
  Lemma layer_spec l b others : layer_run spatials convert temporals evaluate less keep l = Ok (b, others) ->
    explored' l /\ candidate' l b /\ forall e, candidate' l e -> le b e.
  Proof.
    unfold layer_run, spatial_run. intros E. apply rbind_Ok in E. destruct E as (es & Ee & E). apply rbind_Ok in Ee. destruct Ee as (ss & Es & Ee).
    assert (NE : ss <> []) by (intros ->; discriminate).
    assert (F : Forall2 (fun s er => exists r, conversion_run convert temporals evaluate less keep l s = Ok r /\ er = (fst r, (s, snd r))) ss es).
    { destruct ss as [|s0 ss0]; [congruence|]. apply rmap_Forall2 in Ee. revert Ee. apply F2_impl. intros s er Q. apply rbind_Ok in Q. destruct Q as (r & Q & R).
      injection R as <-. now exists r. }
    assert (Si : forall e x, In (e, x) es -> exists i, ev_layers e = inl i).
    { intros e x I. destruct (in_F2_r _ _ _ _ F I) as (s & _ & [b' o'] & Q & R). injection R as -> _.
      destruct (conversion_spec l s b' o' Q) as (c & Ec & _ & _ & _ & t & _ & Et). exact (single _ _ _ _ _ Ec Et). }
    assert (NE' : es <> []) by (intros ->; inversion F; congruence).
    destruct (min_ok _ keep es NE' Si) as (b' & Eb & (l1 & l2 & El & Best & _)). rewrite E in Eb. injection Eb as <- ->.
    split; [|split].
    - exists ss. split; [exact Es|]. split; [exact NE|]. intros s Is. destruct (in_F2_l _ _ _ _ F Is) as (er & _ & [b' o'] & Q & _).
      destruct (conversion_spec l s b' o' Q) as (c & Ec & N1 & N2 & A1 & _). exists c. split; [exact Ec|]. split; [exact N1|]. split; [exact N2|].
      intros t It. destruct (A1 t It) as (e & Ee' & _). now exists e.
    - assert (Ib : In b (map fst es)) by (rewrite El; apply in_elt). apply in_map_iff in Ib. destruct Ib as ([e x] & <- & I).
      destruct (in_F2_r _ _ _ _ F I) as (s & Is & [b' o'] & Q & R). injection R as -> _.
      destruct (conversion_spec l s b' o' Q) as (c & Ec & _ & _ & _ & t & It & Et). exists ss, s, c, t. cbn [fst]. auto.
    - intros e (ss' & s & c & t & Es' & Is & Ec & It & Et). rewrite Es in Es'. injection Es' as <-.
      destruct (in_F2_l _ _ _ _ F Is) as ([e1 x1] & I & [b' o'] & Q & R). injection R as -> ->.
      destruct (conversion_spec l s b' o' Q) as (c' & Ec' & _ & _ & A1 & _). rewrite Ec in Ec'. injection Ec' as <-.
      destruct (A1 t It) as (e' & Ee' & L). rewrite Et in Ee'. injection Ee' as <-.
      apply (le_trans b b' e); [|exact L]. apply Best. apply in_map_iff. exists (b', (s, o')). now split.
  Qed.

  Lemma layer_ok l : explored' l -> exists r, layer_run spatials convert temporals evaluate less keep l = Ok r.
  Proof.
    intros (ss & Es & NE & Hs). unfold layer_run, spatial_run. rewrite Es. cbn [rbind].
    assert (G : exists es, rmap (fun s => rbind (conversion_run convert temporals evaluate less keep l s) (fun r => Ok (fst r, (s, snd r)))) ss = Ok es /\
                 (forall e x, In (e, x) es -> exists i, ev_layers e = inl i) /\ length es = length ss).
    { clear Es NE. revert Hs. induction ss as [|s ss IH]; intros Hs; [exists []; repeat split; intros ? ? []|]. cbn [rmap].
      destruct (Hs s (or_introl eq_refl)) as (c & Ec & N1 & N2 & F). destruct (conversion_ok l s c Ec N1 N2 F) as (b & o & Eb). rewrite Eb. cbn [rbind fst snd].
      destruct IH as (es & -> & Si & L); [intros; apply Hs; now right|]. cbn [rbind]. eexists. split; [reflexivity|]. split; [|cbn; now rewrite L].
      intros e x [Q|I]; [injection Q as <- <-|eauto]. destruct (conversion_spec l s b o Eb) as (c' & Ec' & _ & _ & _ & t & _ & Et). exact (single _ _ _ _ _ Ec' Et). }
    destruct G as (es & Ee & Si & L). destruct ss as [|s ss]; [congruence|]. rewrite Ee. cbn [rbind].
    destruct (min_ok _ keep es) as (b & Eb & _); [destruct es; [discriminate L|discriminate]|exact Si|]. eauto.
  Qed.

  (** All layers *)
  Lemma layers_spec rs : graph_ok workload -> layers_run dummy skipped workload spatials convert temporals evaluate less keep = Ok rs ->
    let evaluated := map (fun r => fst (snd r)) rs in
    NoDup evaluated /\
    (forall x, In x evaluated <-> In x (g_nodes workload) /\ dummy x = false /\ skipped x = false) /\
    (forall u v, In u evaluated -> In v evaluated -> path workload u v -> before evaluated u v) /\
    forall r, In r rs -> layer_run spatials convert temporals evaluate less keep (fst (snd r)) = Ok (fst r, snd (snd r)).
  Proof.
    intros G. unfold layers_run. intros E. apply rbind_Ok in E. destruct E as (rs' & E & F). injection F as <-. cbn zeta.
    destruct (stage_once dummy skipped _ workload rs' G E) as (ev & vals & Nd & M & B & F & R).
    assert (Ev : map (fun r => fst (snd r)) (map (fun x : (eval * list (eval * (S * list (eval * T)))) * A => (fst (fst x), (snd x, snd (fst x)))) rs') = ev /\
      forall r, In r rs' -> layer_run spatials convert temporals evaluate less keep (snd r) = Ok (fst r)).
    { rewrite R. clear -F. induction F as [|x v ev vals Hx F IH]; [split; [reflexivity|intros r []]|].
      apply rbind_Ok in Hx. destruct Hx as (r0 & Hr & Q). injection Q as <-. cbn [combine flat_map snd map app fst].
      destruct IH as (I1 & I2). split; [f_equal; exact I1|]. intros r [<-|I]; [exact Hr|now apply I2]. }
    destruct Ev as (Ev & Each). rewrite Ev. split; [exact Nd|]. split; [exact M|]. split; [exact B|].
    intros r I. apply in_map_iff in I. destruct I as ([[b o] x] & <- & I). exact (Each _ I).
  Qed.

  Lemma layers_ok : graph_ok workload -> ranked workload ->
    (forall x, In x (g_nodes workload) -> dummy x = false -> skipped x = false -> explored' x) ->
    exists rs, layers_run dummy skipped workload spatials convert temporals evaluate less keep = Ok rs.
  Proof.
    intros G R Ex. unfold layers_run.
    destruct (stage_total dummy skipped (fun l => rbind (layer_run spatials convert temporals evaluate less keep l) (fun r => Ok [r])) workload G R) as (rs & ->).
    - intros x I D K. destruct (layer_ok x (Ex x I D K)) as (r & ->). cbn [rbind]. eauto.
    - cbn [rbind]. eauto.
  Qed.
End Chain.

Lemma criterion_ok opt le : criterion opt le -> exists less, opt_stage opt = Ok less /\
  (forall X k (l : list (eval * X)), l <> [] -> (forall e x, In (e, x) l -> exists i, ev_layers e = inl i) ->
    exists b, minimal_stage less k l = Ok (b, if k then l else []) /\ first_best le (map fst l) b) /\
  (forall X k, minimal_stage less k (@nil (eval * X)) = Err AssertionError) /\
  (forall a b c, le a b -> le b c -> le a c).
Proof.
  intros [[-> ->]|[[-> ->]|[-> ->]]]; eexists; (split; [reflexivity|]).
  - split; [exact @minimal_energy|]. split; [intros; apply (minimal_all_empty k)|]. unfold energy_le. intros a b c. lra.
  - split; [exact @minimal_latency|]. split; [intros; apply (minimal_all_empty k)|]. unfold latency_le. intros a b c. lra.
  - split; [exact @minimal_edp|]. split; [intros; apply (minimal_all_empty k)|]. unfold edp_le. intros a b c. lra.
Qed.

Lemma opt_only opt less : opt_stage opt = Ok less -> opt = "energy" \/ opt = "latency" \/ opt = "EDP".
Proof.
  unfold opt_stage. destruct (eqb_spec opt "energy"); [tauto|]. destruct (eqb_spec opt "latency"); [tauto|]. destruct (eqb_spec opt "EDP"); [tauto|]. discriminate.
Qed.

Section Api.
  Context {A S C T : Type} `{EqB A}.
  Variables (dummy skipped : A -> bool) (workload : graph A).
  Variable spatials : A -> result (list S).
  Variable convert : A -> S -> result C.
  Variable temporals : A -> C -> list T * option exn.
  Variable evaluate : A -> C -> T -> result eval.
  Variable order : list string -> list string.
  Variables (opt : string) (le : eval -> eval -> Prop).
  Hypothesis order_perm : forall l, Permutation (order l) l.
  Hypothesis chosen : criterion opt le.
  Hypothesis acyclic : graph_ok workload.
  Hypothesis evaluations : forall l s c t e, convert l s = Ok c -> evaluate l c t = Ok e -> well_formed e /\ exists i, ev_layers e = inl i.

  Lemma api_spec energy latency cmes : api dummy skipped workload spatials convert temporals evaluate order opt = Ok (energy, latency, cmes) ->
    exists total rs, cmes = [(total, rs)] /\ energy = ev_energy total /\ latency = ev_l2 total /\ summed (map fst rs) total /\
      let layers := map (fun r => fst (snd r)) rs in
      NoDup layers /\
      (forall x, In x layers <-> In x (g_nodes workload) /\ dummy x = false /\ skipped x = false) /\
      (forall u v, In u layers -> In v layers -> path workload u v -> before layers u v) /\
      forall b l others, In (b, (l, others)) rs ->
        explored spatials convert temporals evaluate l /\ candidate spatials convert temporals evaluate l b /\
        forall e, candidate spatials convert temporals evaluate l e -> le b e.
  Proof.
    destruct (criterion_ok opt le chosen) as (less & Eo & M1 & M2 & Tr). unfold api. rewrite Eo. cbn [rbind]. unfold chain_run. intros E.
    apply rbind_Ok in E. destruct E as ([total rs] & E & F). injection F as <- <- <-. apply rbind_Ok in E. destruct E as (rs' & El & Es).
    exists total, rs. split; [reflexivity|]. split; [reflexivity|]. split; [reflexivity|].
    assert (Si : forall l s c t e, convert l s = Ok c -> evaluate l c t = Ok e -> exists i, ev_layers e = inl i) by (intros l s c t e Ec Q; exact (proj2 (evaluations l s c t e Ec Q))).
    destruct (layers_spec dummy skipped workload spatials convert temporals evaluate less false rs' acyclic El) as (Nd & M & B & Each).
    assert (L : forall b l others, In (b, (l, others)) rs' -> explored spatials convert temporals evaluate l /\ candidate spatials convert temporals evaluate l b /\
        forall e, candidate spatials convert temporals evaluate l e -> le b e).
    { intros b l others I. exact (layer_spec spatials convert temporals evaluate less le false Si M1 M2 Tr l b others (Each _ I)). }
    destruct (sum_stage_spec order order_perm rs') with (t := total) (all := rs) as (-> & _ & Su & _); [|exact Es|].
    { intros e [l o] I. destruct (L e l o I) as (_ & (ss & s & c & t & _ & _ & Ec & _ & Et) & _). exact (proj1 (evaluations _ _ _ _ _ Ec Et)). }
    split; [exact Su|]. cbn zeta. split; [exact Nd|]. split; [exact M|]. split; [exact B|exact L].
  Qed.

  Lemma api_ok name : ranked workload ->
    (forall l e, candidate spatials convert temporals evaluate l e -> positive e /\ ev_acc e = Some name) ->
    (forall x, In x (g_nodes workload) -> dummy x = false -> skipped x = false -> explored spatials convert temporals evaluate x) ->
    exists r, api dummy skipped workload spatials convert temporals evaluate order opt = Ok r.
  Proof.
    intros R P Ex. destruct (criterion_ok opt le chosen) as (less & Eo & M1 & M2 & Tr). unfold api. rewrite Eo. cbn [rbind]. unfold chain_run.
    assert (Si : forall l s c t e, convert l s = Ok c -> evaluate l c t = Ok e -> exists i, ev_layers e = inl i) by (intros l s c t e Ec Q; exact (proj2 (evaluations l s c t e Ec Q))).
    destruct (layers_ok dummy skipped workload spatials convert temporals evaluate less le false Si M1 M2 acyclic R Ex) as (rs & El).
    rewrite El. cbn [rbind].
    destruct (layers_spec dummy skipped workload spatials convert temporals evaluate less false rs acyclic El) as (_ & _ & _ & Each).
    destruct (sum_stage_total order order_perm rs name) as (t & Et & _).
    - intros e [l o] I. destruct (layer_spec spatials convert temporals evaluate less le false Si M1 M2 Tr l e o (Each _ I)) as (_ & Ca & _).
      destruct (P _ _ Ca) as (Po & Ac). destruct Ca as (ss & s & c & t & _ & _ & Ec & _ & Et). destruct (evaluations _ _ _ _ _ Ec Et) as (W & Ii). auto.
    - rewrite Et. cbn [rbind]. eauto.
  Qed.
End Api.

(** * Files *)

Definition underscored (s : string) : string := smap (fun x => if Ascii.eqb "/" x then "_" else String x "") s.

Lemma underscored_alike a b : underscored a = underscored b <-> alike a b.
Proof.
  revert b. induction a as [|c a IH]; intros [|d b]; cbn [underscored smap alike].
  - tauto.
  - split; [destruct (Ascii.eqb "/" d); discriminate|intros []].
  - split; [destruct (Ascii.eqb "/" c); discriminate|intros []].
  - rewrite <- IH. unfold underscored.
    destruct (Ascii.eqb_spec "/" c) as [E|N], (Ascii.eqb_spec "/" d) as [E'|N']; subst; cbn [append]; split.
    + intros Q. injection Q as Q. split; [now left|exact Q].
    + intros [_ Q]. now rewrite Q.
    + intros Q. injection Q as <- Q. split; [right; auto|exact Q].
    + intros [[Q|[_ [Q|Q]]] R]; [congruence|congruence|subst; now rewrite R].
    + intros Q. injection Q as -> Q. split; [right; auto|exact Q].
    + intros [[Q|[[Q|Q] _]] R]; [congruence|congruence|subst; now rewrite R].
    + intros Q. injection Q as -> Q. split; [now left|exact Q].
    + intros [[Q|[[Q|Q] [Q'|Q']]] R]; try congruence; subst; now rewrite R.
Qed.

Lemma app_inv_l (p a b : string) : (p ++ a)%string = (p ++ b)%string -> a = b.
Proof. induction p; cbn; [trivial|]. intros Q. injection Q as Q. auto. Qed.
Lemma str_length_app (a b : string) : String.length (a ++ b) = (String.length a + String.length b)%nat.
Proof. induction a; cbn; [reflexivity|]. now rewrite IHa. Qed.
Lemma app_inv_r (p a b : string) : (a ++ p)%string = (b ++ p)%string -> a = b.
Proof.
  revert b. induction a as [|c a IH]; intros [|d b] Q; cbn in Q.
  - reflexivity.
  - apply (f_equal String.length) in Q. cbn in Q. rewrite str_length_app in Q. lia.
  - apply (f_equal String.length) in Q. cbn in Q. rewrite str_length_app in Q. lia.
  - injection Q as -> Q. now rewrite (IH b Q).
Qed.

Lemma file_label folder kind name e : file_name folder kind name e = (folder ++ "/" ++ underscored (label name e) ++ "_" ++ kind ++ ".json")%string.
Proof. unfold file_name, label. destruct (ev_layers e) as [i|is]; [now rewrite replace_char|]. reflexivity. Qed.

Lemma file_alike folder kind name e e' : file_name folder kind name e = file_name folder kind name e' <-> alike (label name e) (label name e').
Proof.
  rewrite !file_label, <- underscored_alike. split.
  - intros Q. apply app_inv_l in Q. apply (app_inv_l "/") in Q. now apply app_inv_r in Q.
  - now intros ->.
Qed.

Fixpoint srev (s : string) : string := match s with EmptyString => "" | String c s => (srev s ++ String c "")%string end.
Lemma srev_app a b : srev (a ++ b) = (srev b ++ srev a)%string.
Proof. induction a as [|c a IH]; cbn; [now rewrite str_app_nil|]. now rewrite IH, str_app_assoc. Qed.

(** Complete and simple files never have the same name. *)
Lemma kinds_apart folder name name' e e' : file_name folder "complete" name e <> file_name folder "simple" name' e'.
Proof.
  rewrite !file_label. intros Q. apply app_inv_l in Q. apply (app_inv_l "/") in Q. apply (f_equal srev) in Q. rewrite !srev_app in Q.
  vm_compute (srev "complete") in Q. vm_compute (srev "simple") in Q. vm_compute (srev ".json") in Q. cbn in Q. discriminate.
Qed.

Lemma saved_last folder kind name es files : forall f, 
  dget f (save_all folder kind name es files) =
  match find (fun e => eqb f (file_name folder kind name e)) (rev es) with Some e => Some e | None => dget f files end.
Proof.
  unfold save_all. induction es as [|e es IH] using rev_ind; intros f; [reflexivity|].
  rewrite fold_left_app, rev_app_distr. cbn [fold_left rev app find]. destruct (eqb_spec f (file_name folder kind name e)) as [E|N].
  - subst. now rewrite dget_dset_eq.
  - rewrite dget_dset_neq by assumption. apply IH.
Qed.

Lemma saved_own folder kind name es files e : pairwise_unlike (map (label name) es) -> In e es ->
  dget (file_name folder kind name e) (save_all folder kind name es files) = Some e.
Proof.
  unfold save_all, pairwise_unlike. revert files. induction es as [|e' es IH]; intros files P I; [destruct I|].
  cbn [fold_left]. cbn [map] in P. inversion P as [|x l Fx Pl]; subst. destruct I as [->|I]; [|now apply IH].
  clear IH Pl P. assert (G : forall files, dget (file_name folder kind name e) files = Some e ->
     dget (file_name folder kind name e) (fold_left (fun fs e0 => dset (file_name folder kind name e0) e0 fs) es files) = Some e).
  { induction es as [|e0 es IH]; intros fs D; [exact D|]. cbn [fold_left]. cbn [map] in Fx. inversion Fx as [|x l N Fl]; subst. apply IH; [exact Fl|].
    rewrite dget_dset_neq; [exact D|]. intros Q. apply N. now apply file_alike in Q. }
  apply G. now rewrite dget_dset_eq.
Qed.

Lemma overwritten folder kind name l1 e l2 e' files : alike (label name e) (label name e') ->
  dget (file_name folder kind name e) (save_all folder kind name (l1 ++ e :: l2 ++ [e']) files) = Some e'.
Proof.
  intros Al. rewrite saved_last. replace (l1 ++ e :: l2 ++ [e']) with ((l1 ++ e :: l2) ++ [e']) by now rewrite <- app_assoc.
  rewrite rev_app_distr. cbn [rev app find]. apply file_alike with (folder := folder) (kind := kind) in Al. now rewrite Al, eqb_refl.
Qed.

Lemma other_kind folder name e es files : dget (file_name folder "complete" name e) (save_all folder "simple" name es files) = dget (file_name folder "complete" name e) files.
Proof.
  unfold save_all. revert files. induction es as [|e' es IH]; intros files; [reflexivity|]. cbn [fold_left]. rewrite IH. apply dget_dset_neq. apply kinds_apart.
Qed.

Lemma rev_case {X} (l : list X) : l = [] \/ exists l0 x, l = l0 ++ [x].
Proof. induction l as [|x l0 _] using rev_ind; [now left|right; now exists l0, x]. Qed.
Lemma add_cumulative order a b r : cme_add order a b = Ok r -> exists is, ev_layers r = inr is.
Proof.
  unfold cme_add. intros Q. do 8 (apply rbind_Ok in Q; destruct Q as (? & _ & Q)). cbv zeta in Q. do 3 (apply rbind_Ok in Q; destruct Q as (? & _ & Q)).
  injection Q as <-. cbn [ev_layers]. eauto.
Qed.
Lemma sum_cumulative {X} order (l : list (eval * X)) t all : sum_stage order l = Ok (t, all) -> exists is, ev_layers t = inr is.
Proof.
  rewrite sum_stage_fold. intros Q. destruct (rev_case l) as [->|(l0 & x & ->)]; [injection Q as <- _; now exists []|].
  rewrite rfold_app in Q. apply rbind_Ok in Q. destruct Q as (st & _ & Q). cbn [rbind rfold] in Q. apply rbind_Ok in Q. destruct Q as (st' & Q & R). injection R as ->.
  unfold sum_step in Q. destruct (ev_layers (fst x)); [|discriminate]. apply rbind_Ok in Q. destruct Q as (t' & Q & R). injection R as <- _. exact (add_cumulative _ _ _ _ Q).
Qed.
Lemma api_cumulative {A S C T} `{EqB A} dummy skipped (workload : graph A) (spatials : A -> result (list S)) (convert : A -> S -> result C)
    (temporals : A -> C -> list T * option exn) (evaluate : A -> C -> T -> result eval) order opt energy latency total rs :
  api dummy skipped workload spatials convert temporals evaluate order opt = Ok (energy, latency, [(total, rs)]) -> exists is, ev_layers total = inr is.
Proof.
  unfold api, chain_run. intros E. apply rbind_Ok in E. destruct E as (less & _ & E). apply rbind_Ok in E. destruct E as ([t rs'] & E & F). injection F as _ _ -> ->.
  apply rbind_Ok in E. destruct E as (l & _ & E). exact (sum_cumulative _ _ _ _ E).
Qed.

Section Saved.
  Context {A S C T : Type} `{EqB A}.
  Variables (dummy skipped : A -> bool) (workload : graph A).
  Variable spatials : A -> result (list S).
  Variable convert : A -> S -> result C.
  Variable temporals : A -> C -> list T * option exn.
  Variable evaluate : A -> C -> T -> result eval.
  Variable order : list string -> list string.
  Variables (opt : string) (le : eval -> eval -> Prop).
  Hypothesis order_perm : forall l, Permutation (order l) l.
  Hypothesis chosen : criterion opt le.
  Hypothesis acyclic : graph_ok workload.
  Variables (ident : A -> nat) (name : nat -> string).
  Hypothesis evaluations : forall l c t e, evaluate l c t = Ok e -> well_formed e /\ ev_layers e = inl (ident l).

  Lemma api_saved folder files energy latency cmes : 
    api dummy skipped workload spatials convert temporals evaluate order opt = Ok (energy, latency, cmes) ->
    (forall x y, In x (g_nodes workload) -> In y (g_nodes workload) -> dummy x = false -> skipped x = false -> dummy y = false -> skipped y = false ->
       x <> y -> ~ alike (name (ident x)) (name (ident y))) ->
    forall x, In x (g_nodes workload) -> dummy x = false -> skipped x = false ->
    exists b others total rs, cmes = [(total, rs)] /\ In (b, (x, others)) rs /\
      dget (folder ++ "/" ++ replace "/" "_" (name (ident x)) ++ "_complete.json")%string (saved folder name cmes files) = Some b /\
      dget (folder ++ "/overall_simple.json")%string (saved folder name cmes files) = Some total /\
      pickled cmes = Some (map fst rs).
  Proof.
    intros E U x Ix D K.
    assert (Ev : forall l (s : S) c t e, convert l s = Ok c -> evaluate l c t = Ok e -> well_formed e /\ exists i, ev_layers e = inl i) by (intros l s c t e _ Q; destruct (evaluations l c t e Q); eauto).
    destruct (api_spec dummy skipped workload spatials convert temporals evaluate order opt le order_perm chosen acyclic Ev energy latency cmes E)
      as (total & rs & -> & _ & _ & Su & Nd & M & _ & L). cbn zeta in *.
    assert (Il : In x (map (fun r => fst (snd r)) rs)) by (apply M; auto).
    apply in_map_iff in Il. destruct Il as ([b [x' others]] & Q & Ib). cbn [fst snd] in Q. subst x'.
    pose proof (api_cumulative _ _ _ _ _ _ _ _ _ _ _ _ _ E) as Cu.
    exists b, others, total, rs. split; [reflexivity|]. split; [exact Ib|].
    assert (Id : forall r, In r rs -> ev_layers (fst r) = inl (ident (fst (snd r)))).
    { intros [b' [l o]] I. destruct (L b' l o I) as (_ & (ss & s & c & t & _ & _ & _ & _ & Et) & _). exact (proj2 (evaluations _ _ _ _ Et)). }
    unfold saved. cbn [fold_left fst snd]. split; [|split].
    - assert (Fn : (folder ++ "/" ++ replace "/" "_" (name (ident x)) ++ "_complete.json")%string = file_name folder "complete" name b).
      { unfold file_name. pose proof (Id _ Ib) as Q. cbn [fst snd] in Q. rewrite Q. reflexivity. }
      rewrite Fn, other_kind. apply saved_own; [|apply in_map_iff; now exists (b, (x, others))].
      clear Ib Fn E L Su Cu. assert (Mem : forall r, In r rs -> In (fst (snd r)) (g_nodes workload) /\ dummy (fst (snd r)) = false /\ skipped (fst (snd r)) = false).
      { intros r I. apply M. apply in_map_iff. now exists r. }
      clear M. unfold pairwise_unlike. induction rs as [|r rs IH]; [constructor|]. cbn [map] in *. inversion Nd as [|? ? Ni Nd']; subst. constructor.
      + apply Forall_forall. intros s Is. apply in_map_iff in Is. destruct Is as (e' & <- & Is). apply in_map_iff in Is. destruct Is as (r' & <- & Ir).
        unfold label. rewrite (Id r (or_introl eq_refl)), (Id r' (or_intror Ir)).
        destruct (Mem r (or_introl eq_refl)) as (m1 & m2 & m3), (Mem r' (or_intror Ir)) as (n1 & n2 & n3).
        apply U; try assumption. intros Q. apply Ni. rewrite Q. apply in_map_iff. now exists r'.
      + apply IH; [exact Nd'|intros; apply Id; now right|intros; apply Mem; now right].
    - assert (Fn : file_name folder "simple" name total = (folder ++ "/overall_simple.json")%string).
      { unfold file_name. destruct Cu as (is & ->). reflexivity. }
      rewrite <- Fn. unfold save_all at 1. cbn [fold_left]. now rewrite dget_dset_eq.
    - reflexivity.
  Qed.
End Saved.

(** * The cost model behind the chain *)
Section CostModel.
  Context {A S C T : Type} `{EqB A}.
  Variables (dummy skipped : A -> bool) (workload : graph A).
  Variable spatials : A -> result (list S).
  Variable convert : A -> S -> result C.
  Variable temporals : A -> C -> list T * option exn.
  Variable prepare : A -> C -> T -> result Model_Cost.inputs.
  Variables (ident : A -> nat) (accelerator : string).
  Variable order : list string -> list string.
  Variables (opt : string) (le : eval -> eval -> Prop).
  Definition cost (l : A) (c : C) (t : T) : result eval := rbind (prepare l c t) (fun ci => cme_of ci (ident l) accelerator).
  Hypothesis operands : forall l c t ci, prepare l c t = Ok ci -> NoDup (Model_Cost.in_ops ci).
  Lemma cost_ok l c t e : cost l c t = Ok e -> well_formed e /\ ev_layers e = inl (ident l).
  Proof.
    unfold cost. intros Q. apply rbind_Ok in Q. destruct Q as (ci & E & Q). destruct (Proof_CmeMore.cme_of_ok ci _ _ e (operands _ _ _ _ E) Q) as (W & _ & _ & I & _).
    now split.
  Qed.
  Hypothesis order_perm : forall l, Permutation (order l) l.
  Hypothesis chosen : criterion opt le.
  Hypothesis acyclic : graph_ok workload.
  Lemma api_cost energy latency cmes : api dummy skipped workload spatials convert temporals cost order opt = Ok (energy, latency, cmes) ->
    exists total rs, cmes = [(total, rs)] /\ energy = ev_energy total /\ latency = ev_l2 total /\ summed (map fst rs) total /\
      let layers := map (fun r => fst (snd r)) rs in
      NoDup layers /\
      (forall x, In x layers <-> In x (g_nodes workload) /\ dummy x = false /\ skipped x = false) /\
      (forall u v, In u layers -> In v layers -> path workload u v -> before layers u v) /\
      forall b l others, In (b, (l, others)) rs ->
        explored spatials convert temporals cost l /\ candidate spatials convert temporals cost l b /\
        forall e, candidate spatials convert temporals cost l e -> le b e.
  Proof.
    apply api_spec; try assumption. intros l s c t e _ Q. destruct (cost_ok l c t e Q). eauto.
  Qed.
End CostModel.

(** An example: three layers, the second a dummy, two spatial mappings, three temporal ones. *)
Definition ex_workload : graph nat := mkGraph [0; 1; 2]%nat [(0, 1); (1, 2)]%nat.
Definition ex_prepare (l c t : nat) : result Model_Cost.inputs :=
  Ok (if (Nat.eqb t 1 && Nat.eqb c 1)%bool then Proof_CostExample.separate_ci else Proof_CostExample.shared_ci).
Definition ex_api (opt : string) :=
  api (fun l => Nat.eqb l 1) (fun _ => false) ex_workload (fun _ => Ok [0; 1]%nat) (fun _ s => Ok s) (fun _ _ => ([0; 1; 2]%nat, None))
    (cost ex_prepare (fun l => l) "acc") (fun l => l) opt.

Lemma api_criterion {A S C T} `{EqB A} dummy skipped (workload : graph A) (spatials : A -> result (list S)) (convert : A -> S -> result C)
    (temporals : A -> C -> list T * option exn) (evaluate : A -> C -> T -> result eval) order opt :
  ~ In opt ["energy"; "latency"; "EDP"] ->
  api dummy skipped workload spatials convert temporals evaluate order opt = Err NotImplementedError.
Proof.
  intros N. unfold api, opt_stage. rewrite !eqb_neq by (intros ->; apply N; cbn; tauto). reflexivity.
Qed.

Lemma ex_api_met :
  graph_ok ex_workload /\ criterion "latency" latency_le /\
  (forall l c t ci, ex_prepare l c t = Ok ci -> NoDup (Model_Cost.in_ops ci)) /\
  exists e t rs, ex_api "latency" = Ok (e, 134%Q, [(t, rs)]) /\ map (fun r => fst (snd r)) rs = [0; 2]%nat /\
    map (fun r => ev_l2 (fst r)) rs = [67%Q; 67%Q] /\
    (exists a, cost ex_prepare (fun l => l) "acc" 0%nat 0%nat 0%nat = Ok a /\ (67 < ev_l2 a)%Q).
Proof.
  split; [|split; [right; left; split; reflexivity|split]].
  - split; cbn; [repeat constructor; cbn; intuition congruence|]. split; [repeat constructor; cbn; intuition congruence|].
    intros u v [Q|[Q|[]]]; injection Q as <- <-; cbn; auto.
  - intros l c t ci Q. injection Q as <-. destruct (Nat.eqb t 1 && Nat.eqb c 1)%bool; vm_compute; repeat constructor; cbn; intuition congruence.
  - do 3 eexists. split; [vm_compute; reflexivity|]. split; [reflexivity|]. split; [reflexivity|]. eexists. split; vm_compute; reflexivity.
Qed.

Lemma collision :
  exists name e e', name 0%nat <> name 1%nat /\ ev_layers e = inl 0%nat /\ ev_layers e' = inl 1%nat /\
    file_name "outputs" "complete" name e = file_name "outputs" "complete" name e' /\
    ~ exists f, dget f (save_all "outputs" "complete" name [e; e'] []) = Some e.
Proof.
  exists (fun i => if Nat.eqb i 0 then "a/b" else "a_b"), (mkEval [] [] [] 0 0 0 0 0 0 0 0 0 0 None (inl 0%nat) None), (mkEval [] [] [] 0 0 0 0 0 0 0 0 0 0 None (inl 1%nat) None).
  split; [discriminate|]. split; [reflexivity|]. split; [reflexivity|]. split; [reflexivity|].
  intros (f & D). cbn [save_all fold_left] in D. unfold file_name in D. vm_compute (replace _ _ _) in D. cbn [dset] in D. rewrite eqb_refl in D. cbn [dget] in D.
  destruct (eqb f _); discriminate.
Qed.

Lemma alike_dec a b : {alike a b} + {~ alike a b}.
Proof. destruct (string_dec (underscored a) (underscored b)) as [E|N]; [left|right]; now rewrite <- underscored_alike. Qed.
Lemma names_met : pairwise_unlike ["conv1/a"; "conv1_b"; "fc"; "overall"] /\ alike "conv1/a" "conv1_a" /\
  file_name "outputs" "simple" (fun _ => "conv1/a") (mkEval [] [] [] 0 0 0 0 0 0 0 0 0 0 None (inl 3%nat) None) = "outputs/conv1_a_simple.json".
Proof.
  split; [|split; [|reflexivity]].
  - unfold pairwise_unlike. repeat (constructor; [repeat constructor; rewrite <- underscored_alike; discriminate|]). constructor.
  - rewrite <- underscored_alike. reflexivity.
Qed.
