(** C84: generated spatial mappings, converted, suit the search. *)
From Coq Require Import QArith Lqa.
From Verif Require Import Base Model_SpatialMap Model_Convert Model_Generation Spec_Decouple Spec_SpatialInt Spec_SpatialMap Spec_Convert Spec_Generation Proof_Capacity Proof_Convert Proof_Limited Proof_Generation.
Local Open Scope string_scope.
Local Open Scope list_scope.

(** * Limited mappings are dictionaries *)
Lemma fold_dset_nodup {V} (l : list (string * V)) : forall d, NoDup (keys d) -> NoDup (keys (fold_left (fun m x => dset (fst x) (snd x) m) l d)).
Proof. induction l as [|x l IH]; intros d N; cbn [fold_left]; [exact N|]. apply IH. now apply NoDup_dset. Qed.

Lemma in_dset {V} (k : string) (v : V) d x : In x (dset k v d) -> x = (k, v) \/ In x d.
Proof.
  induction d as [|[k' v'] d IH]; cbn [dset]; [intros [<-|[]]; now left|]. destruct (eqb_spec k k') as [<-|].
  - intros [<-|I]; [now left|]. right. now right.
  - intros [<-|I]; [right; now left|]. destruct (IH I) as [->|J]; [now left|right; now right].
Qed.

Lemma limit_dicts sizes oas user lim lim_int : limit_mapping sizes oas user = Ok (lim, lim_int) -> dicts lim /\ dicts lim_int.
Proof.
  unfold limit_mapping. assert (G : forall l acc res, rfold (convert_oa sizes oas user) acc l = Ok res -> dicts (fst acc) /\ dicts (snd acc) -> dicts (fst res) /\ dicts (snd res)).
  { induction l as [|om l IH]; intros acc res H D; cbn [rfold] in H; [injection H as <-; exact D|].
    destruct (convert_oa sizes oas user acc om) as [acc'|] eqn:E; [|discriminate]. cbn [rbind] in H. apply (IH acc' res H). clear - E D.
    destruct acc as (a, b). unfold convert_oa in E. destruct (rmap _ (snd om)) as [rows|]; [|discriminate]. cbn [rbind] in E. cbn [fst snd] in D. destruct D as ((A1 & A2) & (B1 & B2)).
    destruct (concat rows) as [|x rs]; apply (f_equal (fun r => match r with Ok v => v | Err _ => (a, b) end)) in E; cbv beta iota in E; subst acc'; [now split|].
    generalize (map fst (x :: rs)) (map snd (x :: rs)). intros l1 l2. cbn [fst snd].
    split; (split; [apply NoDup_dset; assumption|]); intros o m I; apply in_dset in I; destruct I as [I|I].
    - assert (Em : m = fold_left (fun (m : dict string Q) (x : string * Q) => dset (fst x) (snd x) m) l1 []) by congruence. rewrite Em. apply fold_dset_nodup. constructor.
    - now apply (A2 o).
    - assert (Em : m = fold_left (fun (m : dict string Q) (x : string * Q) => dset (fst x) (snd x) m) l2 []) by congruence. rewrite Em. apply fold_dset_nodup. constructor.
    - now apply (B2 o). }
  intros H. apply G in H; [exact H|]. cbn [fst snd]. split; (split; [constructor|intros o m []]).
Qed.

(** What holds of all unrollings *)
Definition tame (sizes : dict string Z) (sm : dict string (dict string Q)) : Prop :=
  dicts sm /\ forall o d u, unrolled sm o d u -> (1 <= u)%Q /\ In d (keys sizes) /\ (dget d sizes = Some 1%Z -> (u == 1)%Q).

Lemma total_factor sm d o u : dicts sm -> (forall o d u, unrolled sm o d u -> (1 <= u)%Q) -> unrolled sm o d u -> (u <= unrolled_total sm d)%Q.
Proof.
  intros D G (m & Em & Ed).
  assert (X : forall sm, NoDup (keys sm) -> (forall o m u, In (o, m) sm -> dget d m = Some u -> (1 <= u)%Q) -> (1 <= unrolled_total sm d)%Q /\
    forall o m u, In (o, m) sm -> dget d m = Some u -> (u <= unrolled_total sm d)%Q).
  { clear. induction sm as [|[o m] sm IH]; intros N G; cbn [unrolled_total]; [split; [lra|intros o m u []]|].
    cbn [keys map fst] in N. inversion N as [|? ? N1 N2]; subst. destruct (IH N2) as (I1 & I2); [intros o' m' u' I; apply (G o' m' u'); now right|].
    assert (Gm : forall u, dget d m = Some u -> (1 <= u)%Q) by (intros u E; apply (G o m u); [now left|exact E]). split.
    - destruct (dget d m) as [u|]; [specialize (Gm u eq_refl); nra|lra].
    - intros o' m' u' [E|I] Ed.
      + injection E as <- <-. rewrite Ed. specialize (Gm u' Ed). nra.
      + assert (L := I2 o' m' u' I Ed). destruct (dget d m) as [u|]; [specialize (Gm u eq_refl); assert (L' := G o' m' u' (or_intror I) Ed); nra|lra]. }
  destruct (X sm (proj1 D)) as (_ & H); [|apply (H o m u); [now apply dget_In|exact Ed]].
  intros o' m' u' I E. apply (G o' d). exists m'. split; [|exact E]. apply In_dget; [exact (proj1 D)|exact I].
Qed.

Lemma limited_tame sizes oas user : valid_user sizes oas user -> NoDup (keys sizes) ->
  exists lim lim_int, limit_mapping sizes oas user = Ok (lim, lim_int) /\ tame sizes lim /\ tame sizes lim_int.
Proof.
  intros V Ns. destruct (limit_mapping_ok sizes oas user V) as (lim & lim_int & E & _ & _ & H1 & H2 & H3). exists lim, lim_int. split; [exact E|].
  destruct (limit_dicts _ _ _ _ _ E) as (D1 & D2).
  assert (One : forall o d u, unrolled user o d u -> (1 <= u)%Q).
  { intros o d u (m & Em & Ed). apply dget_In in Em, Ed. destruct (vu_whole _ _ _ V o m d u Em Ed) as (k & L & Ek). rewrite Ek. change 1%Q with (inject_Z 1). now rewrite <- Zle_Qle. }
  assert (Unique : forall sm o d x y, unrolled sm o d x -> unrolled sm o d y -> x = y).
  { intros sm o d x y (m & E1 & E2) (m' & E1' & E2'). congruence. }
  assert (B : forall o d u, unrolled user o d u -> exists x y, unrolled lim o d x /\ unrolled lim_int o d y /\ In d (keys sizes) /\
     (1 <= x)%Q /\ (1 <= y)%Q /\ (dget d sizes = Some 1%Z -> (x == 1)%Q /\ (y == 1)%Q)).
  { intros o d u U. destruct (H1 o d u U) as (x & y & Ux & Uy & L & R). exists x, y. split; [exact Ux|]. split; [exact Uy|].
    destruct (vu_known _ _ _ V o d u U) as (s & Es & Ls). split; [now apply dget_Some_key in Es|].
    assert (U1 : dget d sizes = Some 1%Z -> (u == 1)%Q).
    { intros E1. assert (T := vu_layer _ _ _ V d 1 E1). assert (F := total_factor user d o u (vu_dicts _ _ _ V) One U). specialize (One o d u U). change (inject_Z 1) with 1%Q in T. lra. }
    specialize (One o d u U).
    destruct R as [(N & ->)|(F & k & Ek & Lk & Bk)].
    - destruct L as [(_ & ->)|(F & _)]; [|contradiction]. repeat split; auto; intros; auto.
    - destruct L as [(N & _)|(_ & Bx & l & t & El & Lt & Et & _)]; [contradiction|].
      assert (K1 : (1 <= inject_Z k)%Q) by (change 1%Q with (inject_Z 1); now rewrite <- Zle_Qle).
      split; [lra|]. split; [rewrite Ek; lra|]. intros E1. specialize (U1 E1). assert (X1 : (x == 1)%Q) by lra. split; [exact X1|]. rewrite Ek. lra. }
  split; (split; [assumption|]).
  - intros o d x U. destruct (H2 o d x U) as (u & Uu). destruct (B o d u Uu) as (x' & y' & Ux & _ & K & L & _ & O). rewrite <- (Unique _ _ _ _ _ Ux U). repeat split; auto. intros E1. now apply O.
  - intros o d y U. destruct (H3 o d y U) as (u & Uu). destruct (B o d u Uu) as (x' & y' & _ & Uy & K & _ & L & O). rewrite <- (Unique _ _ _ _ _ Uy U). repeat split; auto. intros E1. now apply O.
Qed.

(** * Levels *)
Lemma total_tame sm d : (forall o m u, In (o, m) sm -> dget d m = Some u -> (1 <= u)%Q) -> (1 <= unrolled_total sm d)%Q.
Proof.
  induction sm as [|[o m] sm IH]; intros G; cbn [unrolled_total]; [lra|]. assert (I1 : (1 <= unrolled_total sm d)%Q) by (apply IH; intros o' m' u' I; apply (G o' m' u'); now right).
  destruct (dget d m) as [u|] eqn:E; [|lra]. assert (1 <= u)%Q by (apply (G o m u); [now left|exact E]). nra.
Qed.
Lemma total_ones sm d : (forall o m u, In (o, m) sm -> dget d m = Some u -> (u == 1)%Q) -> (unrolled_total sm d == 1)%Q.
Proof.
  induction sm as [|[o m] sm IH]; intros G; cbn [unrolled_total]; [reflexivity|]. rewrite IH by (intros o' m' u' I; apply (G o' m' u'); now right).
  destruct (dget d m) as [u|] eqn:E; [|lra]. rewrite (G o m u (or_introl eq_refl) E). lra.
Qed.

(** The product of all is the product over the names. *)
Definition of_name (d : string) (l : list (string * Q)) : Q := qprod (map snd (filter (fun x => if string_dec (fst x) d then true else false) l)).
Lemma qprod_names D l : NoDup D -> (forall x, In x l -> In (fst x) D) -> (qprod (map snd l) == qprod (map (fun d => of_name d l) D))%Q.
Proof.
  intros N. induction l as [|[d q] l IH]; intros H.
  - cbn [map]. symmetry. apply qprod_all_one. intros x I. apply in_map_iff in I. destruct I as (d & <- & _). reflexivity.
  - cbn [map snd]. rewrite qprod_cons, IH by (intros x I; apply H; now right). assert (I := H (d, q) (or_introl eq_refl)). cbn [fst] in I. clear IH H.
    revert N I. induction D as [|d' D IH]; intros N I; [destruct I|]. cbn [map]. rewrite !qprod_cons. inversion N as [|? ? N1 N2]; subst.
    unfold of_name at 3. cbn [filter fst]. destruct (string_dec d d') as [->|Hne].
    + cbn [map snd]. rewrite qprod_cons. fold (of_name d' l). assert (E : qprod (map (fun d => of_name d ((d', q) :: l)) D) = qprod (map (fun d => of_name d l) D)).
      { f_equal. apply map_ext_in. intros x Ix. unfold of_name. cbn [filter fst]. destruct (string_dec d' x) as [->|]; [contradiction|reflexivity]. }
      rewrite E. ring.
    + fold (of_name d' l). destruct I as [<-|I]; [contradiction|]. rewrite <- (IH N2 I). ring.
Qed.
Lemma same_units ls ls' : (forall d, over_levels ls d == over_levels ls' d)%Q -> (unrolled_from 0 ls == unrolled_from 0 ls')%Q.
Proof.
  intros H. unfold unrolled_from, iterations_of. cbn [skipn]. set (D := nodup string_dec (map fst (concat ls) ++ map fst (concat ls'))).
  assert (N : NoDup D) by apply NoDup_nodup.
  rewrite (qprod_names D (concat ls) N), (qprod_names D (concat ls') N).
  - apply qprod_map_eq. intros d _. apply H.
  - intros x I. apply nodup_In, in_or_app. right. now apply in_map.
  - intros x I. apply nodup_In, in_or_app. left. now apply in_map.
Qed.

(** The levels of all operands *)
Lemma levels_tame sizes served sm : tame sizes sm ->
  Forall2 (fun ol ol' => fst ol' = fst ol /\ length (snd ol') = S (length (snd ol)) /\
    (forall x, In x (concat (snd ol')) -> (1 <= snd x)%Q /\ In (fst x) (keys sizes) /\ (dget (fst x) sizes = Some 1%Z -> (snd x == 1)%Q)) /\
    forall d, (over_levels (snd ol') d == unrolled_total sm d)%Q) served (mapping_per_mem_lvl served sm).
Proof.
  intros (D & T). assert (F := mapping_per_mem_lvl_ok served sm D). eapply Proof_Bandwidth.F2_impl; [|exact F]. cbn beta.
  intros ol ol' (E & L & H & O). split; [exact E|]. split; [exact L|]. split; [|exact O].
  intros [d q] I. apply in_concat in I. destruct I as (loops & I & J). apply In_nth_error in I. destruct I as (i & I). destruct (H i loops I) as (_ & K & P). cbn [fst snd].
  assert (Sub : forall o m u, In (o, m) (at_home (snd ol) i sm) -> dget d m = Some u -> unrolled sm o d u).
  { intros o m u Io Eu. unfold at_home in Io. apply filter_In in Io. destruct Io as (Io & _). exists m. split; [apply In_dget; [exact (proj1 D)|exact Io]|exact Eu]. }
  split; [|split].
  - rewrite (P d q J). apply total_tame. intros o m u Io Eu. exact (proj1 (T o d u (Sub o m u Io Eu))).
  - destruct (proj1 (K d)) as (o & u & m & Em & Eu); [change d with (fst (d, q)); now apply in_map|]. apply dget_In in Em. exact (proj1 (proj2 (T o d u (Sub o m u Em Eu)))).
  - intros E1. rewrite (P d q J). apply total_ones. intros o m u Io Eu. exact (proj2 (proj2 (T o d u (Sub o m u Io Eu))) E1).
Qed.

(** * Generated mappings are valid *)
Lemma generated_valid sizes oas maxu sm : (forall d n, dget d sizes = Some n -> (1 <= n)%Z) -> dicts sm -> sm_whole sm ->
  mapping_fits (Model_Generation.qsizes oas) maxu (Model_Generation.qsizes sizes) sm -> valid_user sizes oas sm.
Proof.
  intros P D W F. constructor; try assumption.
  - intros o d u (m & Em & Ed). destruct (fit_oa _ _ _ _ F o m Em) as (s & Es & L). rewrite Proof_Generation.dget_qsizes in Es. destruct (dget o oas) as [z|]; [|discriminate]. cbn in Es. injection Es as <-.
    exists z. split; [reflexivity|]. eapply Qle_trans; [|exact L].
    assert (G : forall v, In v (values m) -> (1 <= v)%Q).
    { intros v I. apply in_map_iff in I. destruct I as ((d' & v') & <- & I). apply dget_In in Em. destruct (W o m d' v' Em I) as (k & Lk & Ek). cbn [snd]. rewrite Ek. change 1%Q with (inject_Z 1). now rewrite <- Zle_Qle. }
    apply dget_In in Ed. assert (I : In u (values m)) by (change u with (snd (d, u)); now apply in_map). clear - G I.
    induction (values m) as [|v l IH]; [destruct I|]. rewrite qprod_cons. assert (G1 := G v (or_introl eq_refl)).
    assert (G2 : (1 <= qprod l)%Q) by (apply qprod_ge_1; intros x Ix; apply G; now right).
    destruct I as [->|I]; [nra|]. assert (u <= qprod l)%Q by (apply IH; [intros x Ix; apply G; now right|exact I]). nra.
  - intros o d u U. destruct (fit_known _ _ _ _ F o d u U) as (s & Es). rewrite Proof_Generation.dget_qsizes in Es. destruct (dget d sizes) as [z|] eqn:E; [|discriminate]. exists z. split; [reflexivity|]. exact (P d z E).
  - intros d l E. apply (fit_layer _ _ _ _ F d). rewrite Proof_Generation.dget_qsizes, E. reflexivity.
Qed.

(** The unrollings on an array dimension are not more than its units. *)
Definition within_array (oas : dict string Z) (sm : dict string (dict string Q)) : Prop :=
  forall o m, dget o sm = Some m -> exists s, dget o oas = Some s /\ (qprod (values m) <= inject_Z s)%Q.
Lemma generated_within oas maxu sizes sm : mapping_fits (Model_Generation.qsizes oas) maxu sizes sm -> within_array oas sm.
Proof.
  intros F o m Em. destruct (fit_oa _ _ _ _ F o m Em) as (s & Es & L). rewrite Proof_Generation.dget_qsizes in Es. destruct (dget o oas) as [z|]; [|discriminate]. cbn in Es. injection Es as <-.
  exists z. split; [reflexivity|exact L].
Qed.
