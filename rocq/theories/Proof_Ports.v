(** Proofs about the allocation of ports to data movements. *)
From Coq Require Import QArith.
From Verif Require Import Base Model_DataMove Model_Cost Model_Graph Model_Hierarchy Spec_Graph Spec_Hierarchy.
From Verif Require Import Proof_AllocSearch Proof_Graph Proof_Latency Proof_Generation Proof_Bandwidth Proof_Hierarchy.
Local Open Scope list_scope.
Local Open Scope nat_scope.

Lemma get2_set {V} (d : dict string (dict direction V)) op k v i op' k' : dget op d = Some i ->
  get2 (dset op (dset k v i) d) op' k' = if eqb op' op && eqb k' k then Some v else get2 d op' k'.
Proof.
  intros E. unfold get2. destruct (eqb_spec op' op) as [Q|Q]; cbn [andb].
  - subst. rewrite dget_dset_eq, E. destruct (eqb_spec k' k) as [Q|Q]; [subst; apply dget_dset_eq|now apply dget_dset_neq].
  - now rewrite dget_dset_neq.
Qed.

Lemma translate_Ok s d : translate s = Ok d <-> s = direction_name d.
Proof.
  unfold translate. split.
  - intros Q. repeat match type of Q with context [eqb ?a ?b] => destruct (eqb_spec a b); [injection Q as <-; assumption|] end. discriminate.
  - intros ->. now destruct d.
Qed.
Lemma translate_total s : (exists d, s = direction_name d) -> exists d, translate s = Ok d.
Proof. intros (d & E). exists d. now apply translate_Ok. Qed.
Lemma name_inj d d' : direction_name d = direction_name d' -> d = d'.
Proof. now destruct d, d'. Qed.

Definition listedb (op : string) (k : direction) (al : list (string * string)) : bool :=
  existsb (fun a => eqb op (fst a) && eqb (direction_name k) (snd a)) al.
Lemma listedb_spec op k p : listedb op k (ps_alloc p) = true <-> listed op k p.
Proof.
  unfold listedb, listed. rewrite existsb_exists. split.
  - intros ((o, s) & I & Q). cbn [fst snd] in Q. apply andb_true_iff in Q. destruct Q as (Q1 & Q2). destruct (eqb_spec op o); [subst|discriminate]. destruct (eqb_spec (direction_name k) s); [now subst|discriminate].
  - intros I. exists (op, direction_name k). split; [exact I|]. cbn [fst snd]. now rewrite !eqb_refl.
Qed.

(** * The allocation table *)

Definition wf2 {V} (d : dict string (dict direction V)) : Prop := NoDup (keys d) /\ forall op i, dget op d = Some i -> NoDup (keys i).
Lemma wf2_set {V} (d : dict string (dict direction V)) op k v i : wf2 d -> dget op d = Some i -> wf2 (dset op (dset k v i) d).
Proof.
  intros (N & W) E. split; [now apply NoDup_dset|]. intros op' i' E'. destruct (eqb_spec op' op) as [Q|Q].
  - subst. rewrite dget_dset_eq in E'. injection E' as <-. apply NoDup_dset. now apply (W op).
  - rewrite dget_dset_neq in E' by assumption. now apply (W op').
Qed.

Lemma one_port name al : forall acc acc', wf2 acc -> rfold (allocate_one name) acc al = Ok acc' -> wf2 acc' /\ keys acc' = keys acc /\
  forall op k, get2 acc' op k = if listedb op k al then Some name else get2 acc op k.
Proof.
  induction al as [|[o s] al IH] using rev_ind; intros acc acc' W E.
  - injection E as <-. repeat split; try apply W; reflexivity.
  - rewrite rfold_app in E. apply rbind_Ok in E. destruct E as (acc1 & E1 & E). cbn [rfold] in E.
    destruct (allocate_one name acc1 (o, s)) as [acc2|] eqn:E2; [|discriminate]. injection E as <-. unfold allocate_one in E2. cbn [fst snd] in E2.
    apply rbind_Ok in E2. destruct E2 as (d & Et & E2). apply rbind_Ok in E2. destruct E2 as (i & Ei & E2). injection E2 as <-. apply dgetr_Ok in Ei. apply translate_Ok in Et.
    destruct (IH acc acc1 W E1) as (W1 & K1 & G1). split; [now apply wf2_set|]. split; [rewrite keys_dset_in; [exact K1|eapply dget_Some_key; exact Ei]|].
    intros op k. rewrite get2_set by exact Ei. unfold listedb. rewrite existsb_app. cbn [existsb fst snd]. fold (listedb op k al). rewrite orb_false_r, G1. subst s.
    assert (X : eqb (direction_name k) (direction_name d) = eqb k d).
    { destruct (eqb_spec (direction_name k) (direction_name d)) as [Q|Q], (eqb_spec k d) as [Q'|Q']; try reflexivity; exfalso; [apply Q'; now apply name_inj|apply Q; now subst]. }
    rewrite X. destruct (eqb op o && eqb k d); [now rewrite orb_true_r|]. rewrite orb_false_r. reflexivity.
Qed.

Lemma all_ports ps : forall acc acc', wf2 acc -> rfold (fun acc p => rfold (allocate_one (ps_name p)) acc (ps_alloc p)) acc ps = Ok acc' ->
  wf2 acc' /\ keys acc' = keys acc /\
  forall op k, get2 acc' op k = match find (fun p => listedb op k (ps_alloc p)) (rev ps) with Some p => Some (ps_name p) | None => get2 acc op k end.
Proof.
  induction ps as [|p ps IH] using rev_ind; intros acc acc' W E.
  - injection E as <-. repeat split; try apply W; reflexivity.
  - rewrite rfold_app in E. apply rbind_Ok in E. destruct E as (acc1 & E1 & E). cbn [rfold] in E.
    destruct (rfold (allocate_one (ps_name p)) acc1 (ps_alloc p)) as [acc2|] eqn:E2; [|discriminate]. injection E as <-.
    destruct (IH acc acc1 W E1) as (W1 & K1 & G1). destruct (one_port _ _ _ _ W1 E2) as (W2 & K2 & G2). split; [exact W2|]. split; [congruence|].
    intros op k. rewrite G2, rev_app_distr. cbn [rev app find]. destruct (listedb op k (ps_alloc p)); [reflexivity|apply G1].
Qed.

Lemma start_table ops : let start := fold_left (fun d op => dset op [] d) ops [] in
  wf2 (V := string) start /\ (forall op, In op (keys start) <-> In op ops) /\ forall op k, get2 (V := string) start op k = None.
Proof.
  cbv zeta. assert (G : forall x, dget x (fold_left (fun d op => dset op [] d) ops []) = if memb x ops then Some (@nil (direction * string)) else None).
  { intros x. exact (fold_dset_get (fun _ => []) ops [] x). }
  split; [split|split].
  - apply (fold_dset_NoDup (fun _ => [])). apply NoDup_nil.
  - intros op i E. rewrite G in E. destruct (memb op ops); [injection E as <-; apply NoDup_nil|discriminate].
  - intros op. split.
    + intros Q. apply key_dget in Q. destruct Q as (v & Q). rewrite G in Q. destruct (memb op ops) eqn:M; [now apply memb_In|discriminate].
    + intros Q. eapply dget_Some_key. rewrite G. rewrite (proj2 (memb_In _ _) Q). reflexivity.
  - intros op k. unfold get2. rewrite G. now destruct (memb op ops).
Qed.

Lemma table_spec m al : create_port_allocation m = Ok al -> wf2 al /\ (forall op, In op (keys al) <-> In op (ms_operands m)) /\
  forall op k, get2 al op k = match find (fun p => listedb op k (ps_alloc p)) (rev (ms_ports m)) with Some p => Some (ps_name p) | None => None end.
Proof.
  intros E. unfold create_port_allocation in E. cbv zeta in E. apply rbind_Ok in E. destruct E as (acc & Ea & E).
  match type of E with context [if ?b then _ else _] => destruct b end; [|discriminate]. injection E as <-. destruct (start_table (ms_operands m)) as (W & K & G). cbv zeta in *.
  destruct (all_ports _ _ _ W Ea) as (W' & K' & G'). split; [exact W'|]. split; [now rewrite K'|]. intros op k. rewrite G', G. reflexivity.
Qed.

Lemma find_last {A} (f : A -> bool) (P : A -> Prop) l x : (forall y, f y = true <-> P y) -> find f (rev l) = Some x -> last_such P l x.
Proof.
  intros FP. induction l as [|y l IH] using rev_ind; [discriminate|]. rewrite rev_app_distr. cbn [rev app find]. destruct (f y) eqn:F.
  - intros Q. injection Q as <-. exists l, []. split; [reflexivity|]. split; [now apply FP|intros z []].
  - intros Q. destruct (IH Q) as (l1 & l2 & -> & Px & N). exists l1, (l2 ++ [y]). rewrite <- app_assoc. split; [reflexivity|]. split; [exact Px|].
    intros z Iz. apply in_app_or in Iz. destruct Iz as [Iz|[<-|[]]]; [now apply N|]. rewrite <- FP. congruence.
Qed.
Lemma last_find {A} (f : A -> bool) (P : A -> Prop) l x : (forall y, f y = true <-> P y) -> last_such P l x -> find f (rev l) = Some x.
Proof.
  intros FP (l1 & l2 & -> & Px & N). rewrite rev_app_distr. cbn [rev]. rewrite <- app_assoc. cbn [app]. apply find_skip; [|now apply FP].
  intros y Iy. apply in_rev in Iy. destruct (f y) eqn:F; [|reflexivity]. exfalso. apply (N y Iy). now apply FP.
Qed.
Lemma table_port m al op k n : create_port_allocation m = Ok al -> (get2 al op k = Some n <-> exists p, moved_by m op k p /\ ps_name p = n).
Proof.
  intros E. destruct (table_spec m al E) as (_ & _ & G). rewrite G. split.
  - destruct (find _ (rev (ms_ports m))) as [p|] eqn:F; [|discriminate]. intros Q. injection Q as <-. exists p. split; [|reflexivity].
    apply (find_last (fun p => listedb op k (ps_alloc p))); [intros; apply listedb_spec|exact F].
  - intros (p & M & <-). rewrite (last_find _ (listed op k) _ p); [reflexivity|intros; apply listedb_spec|exact M].
Qed.

(** * Filling *)

Definition use := (string * nat * direction * string)%type.
Definition u_port (t : use) : string := snd t.
Definition u_fun (t : use) : string * nat * direction := fst t.
Definition u_op (t : use) : string := fst (fst (u_fun t)).
Definition u_dir (t : use) : direction := snd (u_fun t).
Definition fill1 (st : list filling * bandwidths * bandwidths) (t : use) : result (list filling * bandwidths * bandwidths) :=
  fill_one (u_op t) (snd (fst (u_fun t))) st (u_dir t, u_port t).
Definition uses (al : allocation) (levels : dict string nat) : list use :=
  flat_map (fun ol => match dget (fst ol) al with Some a => map (fun x => (fst ol, snd ol, fst x, snd x)) a | None => [] end) levels.

Lemma fill_inner op lv a : forall st, rfold (fill_one op lv) st a = rfold fill1 st (map (fun x => (op, lv, fst x, snd x)) a).
Proof. induction a as [|[d n] a IH]; intros st; [reflexivity|]. cbn [rfold map fst snd]. change (fill1 st (op, lv, d, n)) with (fill_one op lv st (d, n)). destruct (fill_one op lv st (d, n)); [apply IH|reflexivity]. Qed.
Lemma fill_uses (al : allocation) levels : (forall op, In op (keys levels) -> In op (keys al)) -> forall st,
  rfold (fun st ol => a <- dgetr (fst ol) al ;; rfold (fill_one (fst ol) (snd ol)) st a)%result st levels = rfold fill1 st (uses al levels).
Proof.
  induction levels as [|[op lv] levels IH]; intros K st; [reflexivity|]. cbn [rfold uses flat_map fst snd]. fold (uses al levels). destruct (key_dget op al (K op (or_introl eq_refl))) as (a & Ea).
  unfold dgetr. setoid_rewrite Ea. cbn [of_option rbind]. rewrite fill_inner, rfold_app. destruct (rfold fill1 st _) as [st'|]; cbn [rbind]; [|reflexivity]. apply IH. intros o Io. apply K. now right.
Qed.
Lemma In_uses al levels op lv d n : wf2 al -> (In (op, lv, d, n) (uses al levels) <-> In (op, lv) levels /\ get2 al op d = Some n).
Proof.
  intros (_ & W). unfold uses. rewrite in_flat_map. unfold get2. split.
  - intros ((o, v) & I & Q). cbn [fst snd] in Q. destruct (dget o al) as [a|] eqn:E; [|destruct Q]. apply in_map_iff in Q. destruct Q as ((d', n') & E' & Ia). injection E' as -> -> <- <-. cbn [fst snd].
    split; [exact I|]. rewrite E. apply In_dget; [now apply (W op)|exact Ia].
  - intros (I & G). exists (op, lv). split; [exact I|]. cbn [fst snd]. destruct (dget op al) as [a|]; [|discriminate]. apply dget_In in G. apply in_map_iff. now exists (d, n).
Qed.
Lemma uses_NoDup al levels : wf2 al -> NoDup (keys levels) -> NoDup (map u_fun (uses al levels)).
Proof.
  intros W. induction levels as [|[op lv] levels IH]; intros N; [apply NoDup_nil|]. cbn [keys map fst] in N. apply NoDup_cons_iff in N. destruct N as (N1 & N2).
  cbn [uses flat_map fst snd]. fold (uses al levels). rewrite map_app. apply NoDup_app_intro; [|now apply IH|].
  - destruct (dget op al) as [a|] eqn:E; [|apply NoDup_nil]. rewrite map_map. unfold u_fun. cbn [fst]. destruct W as (_ & W). specialize (W op a E). unfold keys in W.
    rewrite <- (map_map fst (fun d => (op, lv, d))). clear E. induction (map fst a) as [|x l IHl]; [apply NoDup_nil|]. apply NoDup_cons_iff in W. destruct W as (W1 & W2). cbn [map].
    apply NoDup_cons; [|now apply IHl]. intros Q. apply in_map_iff in Q. destruct Q as (y & Ey & Iy). injection Ey as ->. contradiction.
  - intros [[o v] d] Q1 Q2. destruct (dget op al) as [a|] eqn:E; [|destruct Q1]. rewrite map_map in Q1. apply in_map_iff in Q1. destruct Q1 as (x & Ex & _). unfold u_fun in Ex. cbn [fst] in Ex. injection Ex as <- <- _.
    apply in_map_iff in Q2. destruct Q2 as ([[[o' v'] d'] n'] & E' & I'). unfold u_fun in E'. cbn [fst] in E'. injection E' as -> -> ->. apply (In_uses al levels op lv d n' W) in I'. destruct I' as (I' & _).
    apply N1. apply in_map_iff. now exists (op, lv).
Qed.

Definition name_of (y : filling) : string := pt_name (fst (fst y)).
Lemma index_found {A} `{EqB A} (x : A) l : In x l -> exists i, index_of x l = Some i /\ nth_error l i = Some x.
Proof.
  induction l as [|y l IH]; intros I; [destruct I|]. cbn [index_of]. destruct (eqb_spec x y) as [E|E]; [subst; now exists 0|]. destruct I as [<-|I]; [easy|].
  destruct (IH I) as (i & -> & N). exists (S i). now split.
Qed.

Lemma set_bw op k b bw : In op (keys bw) -> exists i, dget op bw = Some i /\ set_bandwidth op k b bw = Ok (dset op (dset k (Some b) i) bw) /\
  keys (dset op (dset k (Some b) i) bw) = keys bw.
Proof.
  intros I. destruct (key_dget _ _ I) as (i & E). exists i. split; [exact E|]. unfold set_bandwidth, dgetr. rewrite E. split; [reflexivity|]. now apply keys_dset_in.
Qed.

Lemma fill_total T : forall ps bmin bmax, (forall t, In t T -> In (u_port t) (map name_of ps) /\ In (u_op t) (keys bmin) /\ In (u_op t) (keys bmax)) ->
  exists st, rfold fill1 (ps, bmin, bmax) T = Ok st.
Proof.
  induction T as [|t T IH]; intros ps bmin bmax Q; [eexists; reflexivity|]. cbn [rfold]. destruct (Q t (or_introl eq_refl)) as (Q1 & Q2 & Q3).
  destruct (index_found _ _ Q1) as (i & Ei & Ni). unfold fill1 at 1, fill_one. cbn [fst snd].
  unfold name_of in Ei. rewrite Ei. cbn [of_option rbind]. rewrite nth_error_map in Ni. destruct (nth_error ps i) as [y|] eqn:Ey; [|discriminate]. cbn [of_option rbind].
  destruct (set_bw (u_op t) (u_dir t) (snd (fst y)) bmin Q2) as (b1 & _ & -> & K1). destruct (set_bw (u_op t) (u_dir t) (pt_bw_max (fst (fst y))) bmax Q3) as (b2 & _ & -> & K2). cbn [rbind].
  apply IH. intros t' It'. destruct (Q t' (or_intror It')) as (R1 & R2 & R3). rewrite K1, K2. split; [|now split].
  apply nth_error_split in Ey. destruct Ey as (l1 & l2 & -> & <-). rewrite firstn_app, Nat.sub_diag, firstn_all. cbn [firstn]. rewrite app_nil_r.
  replace (skipn (S (length l1)) (l1 ++ y :: l2)) with l2.
  2:{ rewrite skipn_app. rewrite skipn_all2 by lia. replace (S (length l1) - length l1) with 1 by lia. reflexivity. }
  rewrite map_app in *. cbn [map] in *. assert (An : forall f, name_of (add_function f y) = name_of y) by (intros f; now destruct y as [[p b] u]). rewrite An. exact R1.
Qed.

(** the port after all uses of it *)
Definition served_by (T : list use) (n : string) : list (string * nat * direction) := map u_fun (filter (fun t => eqb (u_port t) n) T).
Definition filled (T : list use) (y : filling) : filling :=
  (mkPort (pt_id (fst (fst y))) (name_of y) (pt_bw_max (fst (fst y))) (served_by T (name_of y)), snd (fst y), negb (match served_by T (name_of y) with [] => true | _ => false end)).
Lemma served_snoc T t n : served_by (T ++ [t]) n = served_by T n ++ if eqb (u_port t) n then [u_fun t] else [].
Proof. unfold served_by. rewrite filter_app, map_app. cbn [filter]. now destruct (eqb (u_port t) n). Qed.
Lemma filled_name T y : name_of (filled T y) = name_of y.
Proof. reflexivity. Qed.

Definition hits (op : string) (k : direction) (t : use) : bool := eqb op (u_op t) && eqb k (u_dir t).

Lemma fill_spec ps0 none : NoDup (map name_of ps0) -> (forall y, In y ps0 -> pt_served (fst (fst y)) = [] /\ snd y = false) ->
  forall T, (forall t, In t T -> In (u_port t) (map name_of ps0) /\ In (u_op t) (keys none)) ->
  exists bmin bmax, rfold fill1 (ps0, none, none) T = Ok (map (filled T) ps0, bmin, bmax) /\ keys bmin = keys none /\ keys bmax = keys none /\
    forall op k, match find (hits op k) (rev T) with
      | None => get2 bmin op k = get2 none op k /\ get2 bmax op k = get2 none op k
      | Some t => exists y, In y ps0 /\ name_of y = u_port t /\ get2 bmin op k = Some (Some (snd (fst y))) /\ get2 bmax op k = Some (Some (pt_bw_max (fst (fst y)))) end.
Proof.
  intros N Z0. induction T as [|t T IH] using rev_ind; intros Q.
  - exists none, none. cbn [rfold]. split; [|repeat split; reflexivity]. do 3 f_equal. transitivity (map (fun y : filling => y) ps0); [now rewrite map_id|]. apply map_ext_in. intros [[p b] u] Iy. destruct (Z0 _ Iy) as (S0 & U0). cbn [fst snd] in *. subst u.
    unfold filled, served_by. cbn. destruct p; cbn in *. now subst.
  - destruct IH as (bmin & bmax & E & K1 & K2 & B); [intros; apply Q; apply in_or_app; now left|]. destruct (Q t) as (Q1 & Q2); [apply in_or_app; right; now left|].
    rewrite rfold_app, E. cbn [rbind rfold]. unfold fill1, fill_one. cbn [fst snd].
    assert (In1 : In (u_port t) (map name_of (map (filled T) ps0))) by (rewrite map_map; exact Q1).
    apply in_map_iff in Q1. destruct Q1 as (y & Ny & Iy). apply in_split in Iy. destruct Iy as (l1 & l2 & ->).
    assert (N1 : forall z, In z (l1 ++ l2) -> name_of z <> u_port t).
    { intros z Iz Ez. rewrite map_app in N. cbn [map] in N. apply NoDup_remove_2 in N. apply N. rewrite Ny, <- Ez, <- map_app. now apply List.in_map. }
    assert (Ix : index_of (u_port t) (map (fun y : filling => pt_name (fst (fst y))) (map (filled T) (l1 ++ y :: l2))) = Some (length l1)).
    { rewrite map_map. change (fun x => pt_name (fst (fst (filled T x)))) with name_of. rewrite map_app. cbn [map]. rewrite Ny.
      assert (G : forall l r, (forall z, In z l -> name_of z <> u_port t) -> index_of (u_port t) (map name_of l ++ u_port t :: r) = Some (length l)).
      { induction l as [|z l IHl]; intros r Nz; cbn [map app index_of length]; [now rewrite eqb_refl|]. rewrite eqb_neq by (intros X; apply (Nz z); [now left|now symmetry]). rewrite IHl; [reflexivity|]. intros; apply Nz; now right. }
      apply G. intros z Iz. apply N1. apply in_or_app. now left. }
    rewrite Ix. cbn [of_option rbind]. rewrite map_app. cbn [map]. rewrite nth_error_app2, map_length, Nat.sub_diag by (rewrite map_length; lia). cbn [nth_error of_option rbind].
    rewrite <- K1 in Q2. assert (Q2' := Q2). rewrite K1, <- K2 in Q2'.
    destruct (set_bw (u_op t) (u_dir t) (snd (fst (filled T y))) bmin Q2) as (b1 & D1 & -> & K1'). destruct (set_bw (u_op t) (u_dir t) (pt_bw_max (fst (fst (filled T y)))) bmax Q2') as (b2 & D2 & -> & K2'). cbn [rbind].
    do 2 eexists. split; [|split; [rewrite K1'; exact K1|split; [rewrite K2'; exact K2|]]].
    + do 3 f_equal. rewrite firstn_app, map_length, Nat.sub_diag. cbn [firstn]. rewrite app_nil_r. rewrite firstn_all2 by (rewrite map_length; lia).
      rewrite skipn_app. rewrite skipn_all2 by (rewrite map_length; lia). rewrite map_length. replace (S (length l1) - length l1) with 1 by lia. cbn [skipn app].
      assert (Sm : forall l, (forall z, In z l -> name_of z <> u_port t) -> map (filled T) l = map (filled (T ++ [t])) l).
      { intros l Nz. apply map_ext_in. intros z Iz. unfold filled. rewrite served_snoc. rewrite eqb_neq by (intros X; now apply (Nz z Iz)). now rewrite app_nil_r. }
      rewrite (map_app (filled (T ++ [t]))). cbn [map]. f_equal; [apply Sm; intros; apply N1; apply in_or_app; now left|]. f_equal; [|apply Sm; intros; apply N1; apply in_or_app; now right].
      unfold add_function, filled. rewrite !served_snoc, Ny, eqb_refl. cbn [fst snd pt_id pt_name pt_bw_max pt_served].
      replace (u_op t, snd (fst (u_fun t)), u_dir t) with (u_fun t) by (now destruct t as [[[a b] c] d]). destruct (served_by T (u_port t)); reflexivity.
    + intros op k. rewrite rev_app_distr. cbn [rev app find]. unfold hits at 1. rewrite (get2_set _ _ _ _ _ op k D1), (get2_set _ _ _ _ _ op k D2).
      destruct (eqb op (u_op t) && eqb k (u_dir t)); [|apply B]. exists y. split; [apply in_or_app; right; now left|]. split; [exact Ny|]. split; reflexivity.
Qed.

(** * The ports of a memory *)

Lemma NoDup_map_filter' {A B} (f : A -> B) (g : A -> bool) l : NoDup (map f l) -> NoDup (map f (filter g l)).
Proof.
  induction l as [|x l IH]; intros N; [apply NoDup_nil|]. cbn [map] in N. apply NoDup_cons_iff in N. destruct N as (N1 & N2). cbn [filter]. destruct (g x); [|now apply IH].
  cbn [map]. apply NoDup_cons; [|now apply IH]. intros Q. apply N1. apply in_map_iff in Q. destruct Q as (y & E & Q). apply filter_In in Q. apply in_map_iff. exists y. tauto.
Qed.

Lemma memory_ports_spec ps : forall next, map name_of (create_memory_ports next ps) = map ps_name ps /\
  (forall y, In y (create_memory_ports next ps) -> pt_served (fst (fst y)) = [] /\ snd y = false) /\
  map (fun y : filling => pt_id (fst (fst y))) (create_memory_ports next ps) = seq next (length ps) /\
  (forall y, In y (create_memory_ports next ps) -> exists p, In p ps /\ name_of y = ps_name p /\ snd (fst y) = ps_bw_min p /\ pt_bw_max (fst (fst y)) = ps_bw_max p) /\
  (forall p, In p ps -> exists y, In y (create_memory_ports next ps) /\ name_of y = ps_name p /\ snd (fst y) = ps_bw_min p /\ pt_bw_max (fst (fst y)) = ps_bw_max p).
Proof.
  induction ps as [|p ps IH]; intros next; cbn [create_memory_ports map length seq].
  - repeat split; cbn; intros; contradiction.
  - destruct (IH (S next)) as (A1 & A2 & A3 & A4 & A5). split; [now f_equal|]. split; [|split; [now f_equal|split]].
    + intros y [<-|I]; [now split|now apply A2].
    + intros y [<-|I]; [exists p; repeat split; now left|]. destruct (A4 y I) as (p' & I' & Q). exists p'. split; [now right|exact Q].
    + intros p' [<-|I]; [eexists; split; [now left|]; repeat split|]. destruct (A5 p' I) as (y & Iy & Q). exists y. split; [now right|exact Q].
Qed.

Lemma none_spec ops : let none := fold_left (fun d op => dset op (map (fun k => (k, None)) directions) d) ops [] in
  (forall op, In op (keys none) <-> In op ops) /\ forall op k, get2 (V := option Z) none op k = if memb op ops then Some None else None.
Proof.
  cbv zeta. assert (G := fold_dset_get (fun _ : string => map (fun k => (k, @None Z)) directions) ops []). split.
  - intros op. split.
    + intros Q. apply key_dget in Q. destruct Q as (v & Q). rewrite G in Q. destruct (memb op ops) eqn:M; [now apply memb_In|discriminate].
    + intros Q. eapply dget_Some_key. rewrite G. rewrite (proj2 (memb_In _ _) Q). reflexivity.
  - intros op k. unfold get2. rewrite G. destruct (memb op ops); [now destruct k|reflexivity].
Qed.

(** Everything about one memory *)
Lemma memory_spec m al next levels pts bmin bmax : NoDup (map ps_name (ms_ports m)) -> NoDup (keys levels) ->
  (forall op, In op (keys levels) <-> In op (ms_operands m)) ->
  create_port_allocation m = Ok al -> allocate_ports (create_memory_ports next (ms_ports m)) (ms_operands m) levels al = Ok (pts, bmin, bmax) ->
  (forall pt, In pt pts -> exists p, In p (ms_ports m) /\ pt_name pt = ps_name p /\ pt_bw_max pt = ps_bw_max p /\ pt_served pt <> [] /\ NoDup (pt_served pt) /\
     forall op lv k, In (op, lv, k) (pt_served pt) <-> dget op levels = Some lv /\ moved_by m op k p) /\
  (forall op lv k p, dget op levels = Some lv -> moved_by m op k p -> exists pt, In pt pts /\ pt_name pt = ps_name p /\ In (op, lv, k) (pt_served pt)) /\
  (forall op k p, In op (ms_operands m) -> moved_by m op k p -> get2 bmin op k = Some (Some (ps_bw_min p)) /\ get2 bmax op k = Some (Some (ps_bw_max p))) /\
  (forall op k, In op (ms_operands m) -> (forall p, ~ moved_by m op k p) -> get2 bmin op k = Some None /\ get2 bmax op k = Some None) /\
  NoDup (map pt_id pts) /\ (forall pt, In pt pts -> next <= pt_id pt < next + length (ms_ports m)) /\ NoDup (map pt_name pts).
Proof.
  intros Nn Nl Kl Ea Ep. destruct (table_spec m al Ea) as (W & Ka & _). assert (Tp := fun op k n => table_port m al op k n Ea).
  destruct (memory_ports_spec (ms_ports m) next) as (M1 & M2 & M3 & M4 & M5). set (ps0 := create_memory_ports next (ms_ports m)) in *.
  destruct (none_spec (ms_operands m)) as (Kn & Gn). cbv zeta in *. unfold allocate_ports in Ep. cbv zeta in Ep.
  set (none := fold_left (fun d op => dset op (map (fun k => (k, None)) directions) d) (ms_operands m) []) in *.
  rewrite fill_uses in Ep by (intros op Io; apply Ka; now apply Kl). set (T := uses al levels) in *.
  assert (InT : forall op lv k n, In (op, lv, k, n) T <-> dget op levels = Some lv /\ exists p, moved_by m op k p /\ ps_name p = n).
  { intros op lv k n. unfold T. rewrite (In_uses al levels op lv k n W), Tp. split; intros (Q1 & Q2); (split; [|exact Q2]); [now apply In_dget|now apply dget_In]. }
  assert (Mi : forall op k p, moved_by m op k p -> In p (ms_ports m)) by (intros op k p (l1 & l2 & -> & _); apply in_or_app; right; now left).
  assert (Inj : forall p p', In p (ms_ports m) -> In p' (ms_ports m) -> ps_name p = ps_name p' -> p = p').
  { clear -Nn. induction (ms_ports m) as [|q l IH]; intros p p' I I' E; [destruct I|]. cbn [map] in Nn. apply NoDup_cons_iff in Nn. destruct Nn as (N1 & N2).
    destruct I as [<-|I], I' as [<-|I']; [reflexivity| | |now apply IH]; exfalso; apply N1; [rewrite E|rewrite <- E]; now apply List.in_map. }
  assert (Mu : forall op k p p', moved_by m op k p -> moved_by m op k p' -> p = p').
  { intros op k p p' Q Q'. assert (X := last_find (fun p => listedb op k (ps_alloc p)) (listed op k) _ p (fun y => listedb_spec op k y) Q).
    assert (X' := last_find (fun p => listedb op k (ps_alloc p)) (listed op k) _ p' (fun y => listedb_spec op k y) Q'). congruence. }
  destruct (fill_spec ps0 none) with (T := T) as (b1 & b2 & Ef & K1 & K2 & B).
  { now rewrite M1. }
  { exact M2. }
  { intros [[[op lv] k] n] It. unfold u_port, u_op, u_fun. cbn [fst snd]. apply InT in It. destruct It as (Hl & p & Mp & <-). split.
    - rewrite M1. apply List.in_map. eapply Mi; exact Mp.
    - apply Kn, Kl. eapply dget_Some_key; exact Hl. }
  apply rbind_Ok in Ep. destruct Ep as (st & Est & Ep). assert (X := eq_trans (eq_sym Est) Ef). injection X as ->. injection Ep as <- <- <-.
  assert (Sv : forall n op lv k, In (op, lv, k) (served_by T n) <-> In (op, lv, k, n) T).
  { intros n op lv k. unfold served_by. rewrite in_map_iff. split.
    - intros ([[[o v] d] n'] & E & Q). apply filter_In in Q. unfold u_fun, u_port in *. cbn [fst snd] in *. destruct Q as (Q & En). destruct (eqb_spec n' n); [|discriminate]. subst. now injection E as -> -> ->.
    - intros Q. exists (op, lv, k, n). split; [reflexivity|]. apply filter_In. split; [exact Q|]. unfold u_port. cbn [snd]. apply eqb_refl. }
  assert (Pi : forall pt, In pt (map (fun y : filling => fst (fst y)) (filter snd (map (filled T) ps0))) <-> exists y, In y ps0 /\ pt = fst (fst (filled T y)) /\ served_by T (name_of y) <> []).
  { intros pt. rewrite in_map_iff. split.
    - intros (z & <- & Q). apply filter_In in Q. destruct Q as (Q & U). apply in_map_iff in Q. destruct Q as (y & <- & Iy). exists y. split; [exact Iy|]. split; [reflexivity|]. cbn [filled snd] in U. intros X. rewrite X in U. discriminate.
    - intros (y & Iy & -> & Ne). exists (filled T y). split; [reflexivity|]. apply filter_In. split; [now apply List.in_map|]. cbn [filled snd]. now destruct (served_by T (name_of y)). }
  split; [|split; [|split; [|split; [|split; [|split]]]]].
  - intros pt Q. apply Pi in Q. destruct Q as (y & Iy & -> & Ne). destruct (M4 y Iy) as (p & Ip & E1 & E2 & E3). exists p. split; [exact Ip|]. cbn [filled fst snd pt_name pt_bw_max pt_served].
    split; [exact E1|]. split; [exact E3|]. split; [exact Ne|]. split.
    + unfold served_by. apply NoDup_map_filter'. unfold T. now apply uses_NoDup.
    + intros op lv k. rewrite Sv, InT, E1. split.
      * intros (Q1 & p' & Q2 & Q3). split; [exact Q1|]. replace p with p'; [exact Q2|]. apply Inj; [eapply Mi; exact Q2|exact Ip|exact Q3].
      * intros (Q1 & Q2). split; [exact Q1|]. now exists p.
  - intros op lv k p Q1 Q2. destruct (M5 p (Mi _ _ _ Q2)) as (y & Iy & E1 & _). exists (fst (fst (filled T y))). 
    assert (X : In (op, lv, k) (served_by T (name_of y))) by (rewrite Sv, InT; split; [exact Q1|]; exists p; split; [exact Q2|now symmetry]).
    split; [apply Pi; exists y; split; [exact Iy|]; split; [reflexivity|]; intros Z; now rewrite Z in X|]. split; [exact E1|exact X].
  - intros op k p Io Mp. specialize (B op k). assert (Kx := proj2 (Kl op) Io). apply key_dget in Kx. destruct Kx as (lv & Hl).
    destruct (find (hits op k) (rev T)) as [[[[o v] d] n]|] eqn:F.
    + apply find_some in F. destruct F as (F & Hh). apply in_rev in F. unfold hits, u_op, u_dir, u_fun in Hh. cbn [fst snd] in Hh. apply andb_true_iff in Hh. destruct Hh as (H1 & H2).
      destruct (eqb_spec op o); [|discriminate]. destruct (eqb_spec k d); [|discriminate]. subst o d. apply InT in F. destruct F as (_ & p' & Mp' & En). assert (p' = p) by (now apply (Mu op k)). subst p'.
      destruct B as (y & Iy & Ey & B1 & B2). unfold u_port in Ey. cbn [snd] in Ey. destruct (M4 y Iy) as (p' & Ip' & E1 & E2 & E3). assert (p' = p) by (apply Inj; [exact Ip'|eapply Mi; exact Mp|congruence]). subst p'.
      now rewrite B1, B2, E2, E3.
    + exfalso. assert (X : In (op, lv, k, ps_name p) T) by (apply InT; split; [exact Hl|]; now exists p). apply in_rev in X. apply (find_none _ _ F) in X. unfold hits, u_op, u_dir, u_fun in X. cbn [fst snd] in X. rewrite !eqb_refl in X. discriminate.
  - intros op k Io Np. specialize (B op k). destruct (find (hits op k) (rev T)) as [[[[o v] d] n]|] eqn:F.
    + exfalso. apply find_some in F. destruct F as (F & Hh). apply in_rev in F. unfold hits, u_op, u_dir, u_fun in Hh. cbn [fst snd] in Hh. apply andb_true_iff in Hh. destruct Hh as (H1 & H2).
      destruct (eqb_spec op o); [|discriminate]. destruct (eqb_spec k d); [|discriminate]. subst o d. apply InT in F. destruct F as (_ & p' & Mp' & _). now apply (Np p').
    + destruct B as (-> & ->). rewrite Gn, (proj2 (memb_In _ _) Io). now split.
  - rewrite map_map. apply (NoDup_map_filter' (fun y : filling => pt_id (fst (fst y)))). rewrite map_map. cbn [filled fst pt_id]. rewrite M3. apply seq_NoDup.
  - intros pt Q. apply Pi in Q. destruct Q as (y & Iy & -> & _). cbn [filled fst pt_id]. assert (X : In (pt_id (fst (fst y))) (seq next (length (ms_ports m)))) by (rewrite <- M3; now apply (List.in_map (fun y : filling => pt_id (fst (fst y))))).
    apply in_seq in X. exact X.
  - rewrite map_map. apply (NoDup_map_filter' (fun y : filling => pt_name (fst (fst y)))). rewrite map_map. cbn [filled fst pt_name]. change (NoDup (map name_of ps0)). rewrite M1. exact Nn.
Qed.

(** * In a hierarchy *)

Lemma step_ports h m h' : add_memory h m = Ok h' -> exists al l, create_port_allocation m = Ok al /\ h_list h' = h_list h ++ [l] /\
  allocate_ports (create_memory_ports (h_port h) (ms_ports m)) (ms_operands m) (lv_dict l) al = Ok (ml_ports (lv_mem l), ml_bw_min (lv_mem l), ml_bw_max (lv_mem l)) /\
  h_port h' = h_port h + length (ms_ports m).
Proof.
  intros E. unfold add_memory in E. apply rbind_Ok in E. destruct E as (al & Ea & E). cbv zeta in E.
  apply rbind_Ok in E. destruct E as ([[ports bmin] bmax] & Ep & E). apply rbind_Ok in E. destruct E as (tops & Et & E). injection E as <-.
  exists al. eexists. split; [exact Ea|]. split; [reflexivity|]. split; [exact Ep|reflexivity].
Qed.

Definition ported (m : memspec) (l : level) : Prop :=
  exists next al, create_port_allocation m = Ok al /\
    allocate_ports (create_memory_ports next (ms_ports m)) (ms_operands m) (lv_dict l) al = Ok (ml_ports (lv_mem l), ml_bw_min (lv_mem l), ml_bw_max (lv_mem l)).


Lemma level_keys h l op : hinv h -> In l (h_list h) -> (In op (keys (lv_dict l)) <-> In op (lv_operands l)).
Proof.
  intros I Il. apply In_nth_error in Il. destruct Il as (i & Ei). assert (D := hi_dict h I i l op Ei). split.
  - intros Q. apply key_dget in Q. destruct Q as (v & Q). rewrite Q in D. destruct (memb op (lv_operands l)) eqn:M; [now apply memb_In|discriminate].
  - intros Q. eapply dget_Some_key. rewrite D. now rewrite (proj2 (memb_In _ _) Q).
Qed.

Lemma build_ported k ms : forall h, build k ms = Ok h -> Forall2 ported ms (h_list h).
Proof.
  induction ms as [|m ms IH] using rev_ind; intros h E; [injection E as <-; constructor|].
  rewrite build_snoc in E. apply rbind_Ok in E. destruct E as (h0 & E0 & E). destruct (step_ports h0 m h E) as (al & l & Ea & El & Ep & _). rewrite El.
  apply Forall2_app; [now apply IH|]. constructor; [|constructor]. exists (h_port h0), al. now split.
Qed.

Lemma build_ids k ms : names_once ms -> forall h, build k ms = Ok h ->
  NoDup (map pt_id (flat_map (fun l => ml_ports (lv_mem l)) (h_list h))) /\ forall l pt, In l (h_list h) -> In pt (ml_ports (lv_mem l)) -> pt_id pt < h_port h.
Proof.
  induction ms as [|m ms IH] using rev_ind; intros N h E; [injection E as <-; split; [apply NoDup_nil|intros l pt []]|].
  rewrite build_snoc in E. apply rbind_Ok in E. destruct E as (h0 & E0 & E). destruct (IH (fun m' I => N m' (in_or_app _ _ _ (or_introl I))) h0 E0) as (N0 & B0).
  destruct (build_inv k ms h0 E0) as (I0 & _). destruct (step_inv h0 m h I0 E) as (I & _ & l1 & El1 & D1).
  destruct (step_ports h0 m h E) as (al & l & Ea & El & Ep & Eh). rewrite El in El1. apply app_inv_head in El1. injection El1 as <-.
  assert (Il : In l (h_list h)) by (rewrite El; apply in_or_app; right; now left).
  assert (Nm : NoDup (map ps_name (ms_ports m))) by (apply N; apply in_or_app; right; now left).
  destruct (memory_spec m al (h_port h0) (lv_dict l) _ _ _ Nm (hi_keys h I l Il)
    (fun op => eq_ind _ (fun os => In op (keys (lv_dict l)) <-> In op os) (level_keys h l op I Il) _ (proj1 D1)) Ea Ep) as (_ & _ & _ & _ & Ni & Bi & _).
  rewrite El, flat_map_app, map_app. cbn [flat_map]. rewrite app_nil_r, Eh. split.
  - apply NoDup_app_intro; [exact N0|exact Ni|]. intros x Q1 Q2. apply in_map_iff in Q1, Q2. destruct Q1 as (p1 & <- & Q1), Q2 as (p2 & E2 & Q2). apply in_flat_map in Q1. destruct Q1 as (l' & Il' & Ip).
    specialize (B0 l' p1 Il' Ip). specialize (Bi p2 Q2). lia.
  - intros l' pt Q1 Q2. apply in_app_or in Q1. destruct Q1 as [Q1|[<-|[]]]; [specialize (B0 l' pt Q1 Q2); lia|]. specialize (Bi pt Q2). lia.
Qed.

Lemma level_ports k ms h i m l : names_once ms -> build k ms = Ok h -> nth_error ms i = Some m -> nth_error (h_list h) i = Some l ->
  (forall pt, In pt (ml_ports (lv_mem l)) -> exists p, In p (ms_ports m) /\ pt_name pt = ps_name p /\ pt_bw_max pt = ps_bw_max p /\ pt_served pt <> [] /\ NoDup (pt_served pt) /\
     forall op lv d, In (op, lv, d) (pt_served pt) <-> dget op (lv_dict l) = Some lv /\ moved_by m op d p) /\
  (forall op lv d p, dget op (lv_dict l) = Some lv -> moved_by m op d p -> exists pt, In pt (ml_ports (lv_mem l)) /\ pt_name pt = ps_name p /\ In (op, lv, d) (pt_served pt)) /\
  (forall op d p, stores op l -> moved_by m op d p -> get2 (ml_bw_min (lv_mem l)) op d = Some (Some (ps_bw_min p)) /\ get2 (ml_bw_max (lv_mem l)) op d = Some (Some (ps_bw_max p))) /\
  (forall op d, stores op l -> (forall p, ~ moved_by m op d p) -> get2 (ml_bw_min (lv_mem l)) op d = Some None /\ get2 (ml_bw_max (lv_mem l)) op d = Some None).
Proof.
  intros N E Em El. destruct (build_inv k ms h E) as (I & D). assert (P := build_ported k ms h E). assert (Il := nth_error_In _ _ El).
  assert (Dm : described m l) by (exact (Proof_Energy.F2_nth _ _ _ _ _ _ D Em El)). assert (Pm : ported m l) by (exact (Proof_Energy.F2_nth _ _ _ _ _ _ P Em El)).
  destruct Pm as (next & al & Ea & Ep).
  destruct (memory_spec m al next (lv_dict l) _ _ _ (N m (nth_error_In _ _ Em)) (hi_keys h I l Il)
    (fun op => eq_ind _ (fun os => In op (keys (lv_dict l)) <-> In op os) (level_keys h l op I Il) _ (proj1 Dm)) Ea Ep) as (A1 & A2 & A3 & A4 & _).
  unfold stores. rewrite (proj1 Dm). split; [exact A1|]. split; [exact A2|]. split; [exact A3|exact A4].
Qed.

Lemma level_names k ms h l : names_once ms -> build k ms = Ok h -> In l (h_list h) -> NoDup (map pt_name (ml_ports (lv_mem l))).
Proof.
  intros N E Il. destruct (build_inv k ms h E) as (I & D). assert (P := build_ported k ms h E). assert (El := Il). apply In_nth_error in El. destruct El as (i & El).
  assert (Em : exists m, nth_error ms i = Some m).
  { destruct (nth_error ms i) eqn:Q; [eauto|]. apply nth_error_None in Q. assert (Q' : i < length (h_list h)) by (apply nth_error_Some; congruence). rewrite <- (Proof_Energy.F2_len _ _ _ D) in Q'. lia. }
  destruct Em as (m & Em).
  assert (Dm : described m l) by (exact (Proof_Energy.F2_nth _ _ _ _ _ _ D Em El)). assert (Pm : ported m l) by (exact (Proof_Energy.F2_nth _ _ _ _ _ _ P Em El)).
  destruct Pm as (next & al & Ea & Ep).
  apply (memory_spec m al next (lv_dict l) _ _ _ (N m (nth_error_In _ _ Em)) (hi_keys h I l Il)
    (fun op => eq_ind _ (fun os => In op (keys (lv_dict l)) <-> In op os) (level_keys h l op I Il) _ (proj1 Dm)) Ea Ep).
Qed.

(** * Building succeeds *)

Lemma one_port_ok name al : forall acc, (forall op s, In (op, s) al -> In op (keys acc) /\ exists d, s = direction_name d) -> exists acc', rfold (allocate_one name) acc al = Ok acc' /\ keys acc' = keys acc.
Proof.
  induction al as [|[o s] al IH]; intros acc Q; [now exists acc|]. cbn [rfold]. destruct (Q o s (or_introl eq_refl)) as (Ko & d & Es). unfold allocate_one at 1. cbn [fst snd].
  rewrite (proj2 (translate_Ok s d) Es). cbn [rbind]. destruct (key_dget _ _ Ko) as (i & Ei). unfold dgetr. rewrite Ei. cbn [of_option rbind].
  destruct (IH (dset o (dset d name i) acc)) as (acc' & E & K).
  { intros op s' I. rewrite keys_dset_in by exact Ko. apply Q. now right. }
  exists acc'. split; [exact E|]. rewrite K. now apply keys_dset_in.
Qed.
Lemma all_ports_ok ps : forall acc, (forall p op s, In p ps -> In (op, s) (ps_alloc p) -> In op (keys acc) /\ exists d, s = direction_name d) ->
  exists acc', rfold (fun acc p => rfold (allocate_one (ps_name p)) acc (ps_alloc p)) acc ps = Ok acc'.
Proof.
  induction ps as [|p ps IH]; intros acc Q; [now exists acc|]. cbn [rfold]. destruct (one_port_ok (ps_name p) (ps_alloc p) acc) as (acc1 & -> & K); [intros op s; apply (Q p); now left|].
  apply IH. intros p' op s I. rewrite K. apply Q. now right.
Qed.
Lemma allocation_ok m : well_allocated m -> exists al, create_port_allocation m = Ok al.
Proof.
  intros W. unfold create_port_allocation. cbv zeta. destruct (start_table (ms_operands m)) as (W0 & K0 & G0). cbv zeta in *.
  destruct (all_ports_ok (ms_ports m) (fold_left (fun d op => dset op [] d) (ms_operands m) [])) as (acc & E).
  { intros p op s Ip Ia. destruct (W p op s Ip Ia) as (W1 & W2 & _). split; [now apply K0|exact W2]. }
  rewrite E. cbn [rbind]. destruct (all_ports _ _ _ W0 E) as (W1 & K1 & G1). match goal with |- context [if ?b then _ else _] => assert (X : b = true) end; [|rewrite X; eauto].
  apply forallb_forall. intros [op i] I. apply forallb_forall. intros [d n] I'. cbn [snd] in *. assert (G := G1 op d). rewrite G0 in G. unfold get2 in G.
  rewrite (In_dget _ _ _ (proj1 W1) I) in G. rewrite (In_dget _ _ _ (proj2 W1 op i (In_dget _ _ _ (proj1 W1) I)) I') in G.
  destruct (find _ (rev (ms_ports m))) as [p|] eqn:F; [|discriminate]. injection G as ->. apply find_some in F. destruct F as (Ip & Hl). apply in_rev in Ip. apply listedb_spec in Hl. now apply (W p op (direction_name d)).
Qed.
Lemma ports_ok m al next levels : create_port_allocation m = Ok al -> (forall op, In op (keys levels) <-> In op (ms_operands m)) ->
  exists r, allocate_ports (create_memory_ports next (ms_ports m)) (ms_operands m) levels al = Ok r.
Proof.
  intros Ea Kl. destruct (table_spec m al Ea) as (W & Ka & _). assert (Tp := fun op k n => table_port m al op k n Ea).
  destruct (none_spec (ms_operands m)) as (Kn & _). cbv zeta in *. unfold allocate_ports. cbv zeta. rewrite fill_uses by (intros op Io; apply Ka; now apply Kl).
  destruct (fill_total (uses al levels) (create_memory_ports next (ms_ports m)) (fold_left (fun d op => dset op (map (fun k => (k, None)) directions) d) (ms_operands m) [])
    (fold_left (fun d op => dset op (map (fun k => (k, None)) directions) d) (ms_operands m) [])) as (st & E).
  { intros [[[op lv] k] n] It. unfold u_port, u_op, u_fun. cbn [fst snd]. apply (In_uses al levels op lv k n W) in It. destruct It as (Il & G). apply Tp in G. destruct G as (p & (l1 & l2 & Ep & _) & <-).
    assert (Io : In op (ms_operands m)) by (apply Kl; apply in_map_iff; now exists (op, lv)). split; [|split; now apply Kn].
    destruct (memory_ports_spec (ms_ports m) next) as (-> & _). apply List.in_map. rewrite Ep. apply in_or_app. right. now left. }
  destruct st as [[ps b1] b2]. match goal with |- exists r, rbind ?x _ = _ => assert (X : x = Ok (ps, b1, b2)) by exact E; rewrite X end. eexists. reflexivity.
Qed.
Lemma build_total k ms : (forall m, In m ms -> well_allocated m) -> exists h, build k ms = Ok h.
Proof.
  induction ms as [|m ms IH] using rev_ind; intros W; [eexists; reflexivity|]. destruct IH as (h & E); [intros; apply W; apply in_or_app; now left|]. rewrite build_snoc, E. cbn [rbind].
  destruct (build_inv k ms h E) as (I & _). unfold add_memory. destruct (allocation_ok m) as (al & Ea); [apply W; apply in_or_app; right; now left|]. rewrite Ea. cbn [rbind]. cbv zeta.
  match goal with |- context [allocate_ports ?ps ?os ?ls al] => destruct (ports_ok m al (h_port h) ls Ea) as ([[pts b1] b2] & Ep) end.
  { intros op. split.
    - intros Q. apply key_dget in Q. destruct Q as (v & Q). rewrite fold_dset_get in Q. destruct (memb op (ms_operands m)) eqn:M; [now apply memb_In|discriminate].
    - intros Q. eapply dget_Some_key. rewrite fold_dset_get. now rewrite (proj2 (memb_In _ _) Q). }
  rewrite Ep. cbn [rbind]. destruct (tops_ok h (ms_operands m) I) as (tops & ->). cbn [rbind]. eauto.
Qed.

(** Validated ports only move what they may. *)
Lemma valid_moves oa m op d p : memory_valid oa m = true -> moved_by m op d p -> may_move (ps_type p) d /\ (ps_bw_min p <= ps_bw_max p)%Z.
Proof.
  intros V (l1 & l2 & E & L & _). unfold memory_valid in V. apply andb_true_iff in V. destruct V as (_ & V). rewrite forallb_forall in V.
  assert (Ip : In p (ms_ports m)) by (rewrite E; apply in_or_app; right; now left). apply V in Ip. unfold port_valid in Ip. apply andb_true_iff in Ip. destruct Ip as (V1 & V2).
  split; [|destruct (Z.ltb_spec (ps_bw_max p) (ps_bw_min p)); [discriminate|lia]]. rewrite forallb_forall in V1. specialize (V1 _ L). cbn [snd] in V1.
  destruct d, (ps_type p); cbn in V1 |- *; try exact Logic.I; discriminate.
Qed.

(** * Examples *)

Local Open Scope string_scope.
Local Open Scope list_scope.
Local Open Scope nat_scope.
(** A memory with one port that moves everything from and to above, and inputs down *)
Definition ex_memory (ops : list string) : memspec :=
  mkMemspec 8 1 1 ops [mkPortspec "rw_port_1" PReadWrite 8 16 (flat_map (fun o => [(o, "fh"); (o, "tl")]) ops)] [].
Definition ex_memories : list memspec := map ex_memory [["I1"]; ["I2"]; ["I1"; "I2"]; ["O"]; ["I1"; "I2"; "O"]].
Definition ex_unsorted : list memspec := map ex_memory [["I2"]; ["I2"]; ["I1"; "I2"]; ["I2"]; ["I2"; "O"]; ["I1"; "O"]; ["I1"]].
