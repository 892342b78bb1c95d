(** Proofs about saved files (C88). *)
From Coq Require Import QArith Lia Lqa.
From Verif Require Import Base Model_DataMove Model_Cost Model_Cme Model_Json Spec_DataMove Spec_Cme Spec_Json
  Proof_AllocSearch Proof_Cme Proof_CmeMore Proof_Reduce.
Local Open Scope string_scope.
Local Open Scope list_scope.

Lemma each_rmap {A B} (f : A -> result B) l : each f l = rmap f l.
Proof. induction l as [|x l IH]; [reflexivity|]. cbn. destruct (f x); [|reflexivity]. cbn. fold (each f). now rewrite IH. Qed.
Lemma rmap_F2 {A B} (f : A -> result B) l ys : Forall2 (fun x y => f x = Ok y) l ys -> rmap f l = Ok ys.
Proof. induction 1 as [|x y l ys E H IH]; [reflexivity|]. cbn. now rewrite E, IH. Qed.

(** * Induction over nested lists *)

Section Induction.
  Variable simple : bool.
  Variable P : bool -> value -> json -> Prop.
  Hypothesis Hplain : forall i v j, match v, j with VNone, JNull => True | VBool b, JBool b' => b = b' | VInt z, JInt z' => z = z'
    | VFloat q, JNumber q' => q = q' | VText s, JText s' => s = s' | _, _ => False end -> P i v j.
  Hypothesis Hint32 : forall i z, P i (VInt32 z) (JInt z).
  Hypothesis Hobject : forall i full short w j, (if simple then short else full) = Some w -> stands simple false w j -> P false w j -> P i (VObject full short) j.
  Hypothesis Hlist : forall i l js, Forall2 (P i) l js -> P i (VList l) (JList js).
  Hypothesis Htuple : forall i l js, Forall2 (P i) l js -> P i (VTuple l) (JList js).
  Hypothesis Hset : forall i l js, Forall2 (P true) l js -> P i (VSet l) (JList js).
  Hypothesis Hdict : forall i d js, NoDup (map fst js) -> Forall2 (fun x y => key_as simple i (fst x) (fst y) /\ P i (snd x) (snd y)) d js -> P i (VDict d) (JObject js).
  Fixpoint stands_nested i v j (H : stands simple i v j) {struct H} : P i v j :=
    let all i := fix all l js (F : Forall2 (stands simple i) l js) : Forall2 (P i) l js :=
      match F with
      | Forall2_nil _ => Forall2_nil _
      | Forall2_cons x y h t => Forall2_cons x y (stands_nested i x y h) (all _ _ t)
      end in
    match H in stands _ i v j return P i v j with
    | st_none _ i => Hplain i VNone JNull I
    | st_bool _ i b => Hplain i (VBool b) (JBool b) eq_refl
    | st_int _ i z => Hplain i (VInt z) (JInt z) eq_refl
    | st_int32 _ i z => Hint32 i z
    | st_float _ i q => Hplain i (VFloat q) (JNumber q) eq_refl
    | st_text _ i s => Hplain i (VText s) (JText s) eq_refl
    | st_object _ i full short w j e h => Hobject i full short w j e h (stands_nested false w j h)
    | st_list _ i l js F => Hlist i l js (all i l js F)
    | st_tuple _ i l js F => Htuple i l js (all i l js F)
    | st_set _ i l js F => Hset i l js (all true l js F)
    | st_dict _ i d js N F => Hdict i d js N
        ((fix alld d js (F : Forall2 (fun x y => key_as simple i (fst x) (fst y) /\ stands simple i (snd x) (snd y)) d js)
             : Forall2 (fun x y => key_as simple i (fst x) (fst y) /\ P i (snd x) (snd y)) d js :=
           match F with
           | Forall2_nil _ => Forall2_nil _
           | Forall2_cons x y h t => Forall2_cons x y (match h with conj a b => conj a (stands_nested i (snd x) (snd y) b) end) (alld _ _ t)
           end) d js F)
    end.
End Induction.

(** * Values are saved as what they stand for *)

Definition saves simple v j : Prop := exists n, forall fuel, (n <= fuel)%nat -> dump fuel simple v = Ok j.

Lemma together {A B} (f : nat -> A -> result B) l ys : Forall2 (fun x y => exists n, forall fuel, (n <= fuel)%nat -> f fuel x = Ok y) l ys ->
  exists n, forall fuel, (n <= fuel)%nat -> rmap (f fuel) l = Ok ys.
Proof.
  induction 1 as [|x y l ys (n & E) _ (m & IH)]; [exists O; reflexivity|]. exists (Nat.max n m). intros fuel L. cbn.
  rewrite E, IH by lia. reflexivity.
Qed.
Lemma saves_list simple l js : Forall2 (saves simple) l js -> saves simple (VList l) (JList js) /\ saves simple (VTuple l) (JList js).
Proof.
  intros F. apply (together (fun n => dump n simple)) in F. destruct F as (n & F).
  split; (exists (S n); intros [|fuel] L; [lia|]; cbn; rewrite F by lia; reflexivity).
Qed.
Lemma saves_dict simple d js : Forall2 (fun x y => fst x = KText (fst y) /\ saves simple (snd x) (snd y)) d js -> saves simple (VDict d) (JObject js).
Proof.
  intros F.
  destruct (together (fun n (x : key * value) => match fst x with KText s => rbind (dump n simple (snd x)) (fun j => Ok (s, j)) | KName _ => Err TypeError end) d js) as (n & E).
  { induction F as [|x y d js (K & n & S) F IH]; constructor; [|exact IH]. exists n. intros fuel L. rewrite K, S by exact L. now destruct y. }
  exists (S n). intros [|fuel] L; [lia|]. cbn. rewrite E by lia. reflexivity.
Qed.
Lemma saves_handled simple v w j : handler simple v = Ok w -> match v with VInt32 _ | VObject _ _ | VSet _ => True | _ => False end -> saves simple w j -> saves simple v j.
Proof.
  intros E K (n & S). exists (Datatypes.S n). intros [|fuel] L; [lia|].
  destruct v; try contradiction K; cbn [dump]; rewrite E; cbn [rbind]; apply S; lia.
Qed.

Lemma dset_fresh {V} (k : string) (v : V) (d : dict string V) : ~ In k (map fst d) -> dset k v d = d ++ [(k, v)].
Proof.
  induction d as [|(k', v') d IH]; cbn [map fst dset]; intros N; [reflexivity|].
  destruct (eqb_spec k k') as [E|_]; [exfalso; apply N; left; now symmetry|].
  cbn [app]. f_equal. apply IH. intros I. apply N. now right.
Qed.
Lemma last_of_distinct l : NoDup (map fst l) -> last_of_equal l = map (fun x => (KText (fst x), snd x)) l.
Proof.
  intros N. unfold last_of_equal. f_equal.
  enough (G : forall l d, NoDup (map fst (d ++ l)) -> fold_left (fun d (x : string * value) => dset (fst x) (snd x) d) l d = d ++ l) by (apply (G l []); exact N).
  clear l N. induction l as [|(k, v) l IH]; intros d N; cbn; [now rewrite app_nil_r|].
  rewrite dset_fresh. - rewrite IH, <- app_assoc; [reflexivity|]. rewrite <- app_assoc. exact N.
  - intros I. rewrite map_app in N. cbn in N. apply NoDup_remove_2 in N. apply N, in_or_app. now left.
Qed.

Theorem stands_saves simple i v j : stands simple i v j ->
  (i = false -> saves simple v j) /\ (i = true -> exists w, handler simple v = Ok w /\ saves simple w j /\ stands simple false w j).
Proof.
  intros H.
  pattern i, v, j.
  apply (stands_nested simple); [| | | | | | |exact H]; clear i v j H.
  - intros i v j H.
    assert (K : saves simple v j /\ handler simple v = Ok v)
      by (destruct v, j; try contradiction H; try subst; (split; [exists 1%nat; intros [|fuel] L; [lia|reflexivity]|reflexivity])).
    destruct K as (K & E). split; [auto|]. intros _. exists v. split; [exact E|]. split; [exact K|]. destruct v, j; try contradiction H; try subst; constructor.
  - intros i z. assert (K : saves simple (VInt z) (JInt z)) by (exists 1%nat; intros [|fuel] L; [lia|reflexivity]).
    split; intros _; [|exists (VInt z); split; [reflexivity|]; split; [exact K|constructor]]. now apply (saves_handled _ _ (VInt z)).
  - intros i full short w j E Sw (K & _). specialize (K eq_refl).
    assert (G : handler simple (VObject full short) = Ok w) by (cbn; rewrite E; reflexivity).
    split; intros _; [|exists w; auto]. now apply (saves_handled _ _ w).
  - intros i l js F. split; intros ->.
    + apply saves_list. induction F as [|x y l js (K & _) F IH]; constructor; auto.
    + assert (G : exists l', rmap (handler simple) l = Ok l' /\ Forall2 (saves simple) l' js /\ Forall2 (stands simple false) l' js).
      { induction F as [|x y l js (_ & K) F IH]; [exists []; repeat split; constructor|].
        destruct (K eq_refl) as (w & E & S & T). destruct IH as (l' & El & Sl & Tl). exists (w :: l'). cbn. rewrite E, El. repeat split; constructor; assumption. }
      destruct G as (l' & E & S & T). exists (VList l'). split; [cbn [handler]; rewrite each_rmap, E; reflexivity|]. split; [now apply saves_list|now constructor].
  - intros i l js F. split; intros ->.
    + apply saves_list. induction F as [|x y l js (K & _) F IH]; constructor; auto.
    + assert (G : exists l', rmap (handler simple) l = Ok l' /\ Forall2 (saves simple) l' js /\ Forall2 (stands simple false) l' js).
      { induction F as [|x y l js (_ & K) F IH]; [exists []; repeat split; constructor|].
        destruct (K eq_refl) as (w & E & S & T). destruct IH as (l' & El & Sl & Tl). exists (w :: l'). cbn. rewrite E, El. repeat split; constructor; assumption. }
      destruct G as (l' & E & S & T). exists (VTuple l'). split; [cbn [handler]; rewrite each_rmap, E; reflexivity|]. split; [now apply saves_list|now constructor].
  - intros i l js F.
    assert (G : exists l', rmap (handler simple) l = Ok l' /\ Forall2 (saves simple) l' js /\ Forall2 (stands simple false) l' js).
    { induction F as [|x y l js (_ & K) F IH]; [exists []; repeat split; constructor|].
      destruct (K eq_refl) as (w & E & S & T). destruct IH as (l' & El & Sl & Tl). exists (w :: l'). cbn. rewrite E, El. repeat split; constructor; assumption. }
    destruct G as (l' & E & S & T).
    assert (G : handler simple (VSet l) = Ok (VList l')) by (cbn [handler]; rewrite each_rmap, E; reflexivity).
    apply saves_list in S. destruct S as (S & _). split; intros _; [|exists (VList l'); split; [exact G|]; split; [exact S|now constructor]]. now apply (saves_handled _ _ (VList l')).
  - intros i d js N F. split; intros ->.
    + apply saves_dict. clear N. induction F as [|x y d js (Q & K & _) F IH]; constructor; [|exact IH].
      split; [|auto]. destruct Q as [Q|(Q & _)]; [exact Q|discriminate Q].
    + assert (G : exists l', rmap (fun x : key * value => rbind (handle_key simple (fst x)) (fun k => rbind (handler simple (snd x)) (fun w => Ok (k, w)))) d = Ok l' /\
          Forall2 (fun x y => fst x = fst y /\ saves simple (snd x) (snd y)) l' js /\ Forall2 (fun x y => fst x = fst y /\ stands simple false (snd x) (snd y)) l' js).
      { clear N. induction F as [|x y d js (Q & _ & K) F IH]; [exists []; repeat split; constructor|].
        destruct (K eq_refl) as (w & E & S & T). destruct IH as (l' & El & Sl & Tl). exists ((fst y, w) :: l'). cbn [rmap].
        assert (Hk : handle_key simple (fst x) = Ok (fst y)) by (destruct Q as [->|(_ & -> & ->)]; reflexivity).
        rewrite Hk, E, El. split; [reflexivity|]. split; (constructor; [split; [reflexivity|assumption]|assumption]). }
      destruct G as (l' & E & S & T). exists (VDict (last_of_equal l')). split; [cbn [handler]; rewrite each_rmap, E; reflexivity|].
      assert (M : map fst l' = map fst js) by (clear -S; induction S as [|x y l js (H & _) S IH]; cbn; congruence).
      rewrite last_of_distinct by (rewrite M; exact N). split.
      2:{ apply st_dict; [exact N|]. clear -T. induction T as [|x y l js (H & K) T IH]; cbn; constructor; auto. cbn. split; [left; congruence|exact K]. }
      apply saves_dict. clear -S. induction S as [|x y l js (H & K) S IH]; cbn; constructor; auto. cbn. split; [congruence|exact K].
Qed.

(** * Nothing else is saved *)

Lemma rmap_back {A B} (f : A -> result B) l ys : rmap f l = Ok ys -> Forall2 (fun x y => f x = Ok y) l ys.
Proof.
  revert ys. induction l as [|x l IH]; intros ys E; cbn in E; [replace ys with (@nil B) by congruence; constructor|].
  destruct (f x) as [y|] eqn:Ex; [|discriminate]. destruct (rmap f l) as [ys'|] eqn:El; [|discriminate].
  replace ys with (y :: ys') by congruence. constructor; auto.
Qed.
Lemma tidy_list (l : list value) : fold_right (fun x P => tidy x /\ P) True l <-> Forall tidy l.
Proof. induction l as [|x l IH]; cbn; split; intros H; auto; [constructor; tauto|]. apply Forall_cons_iff in H. tauto. Qed.
Lemma tidy_dict (d : list (key * value)) : fold_right (fun x P => tidy (snd x) /\ P) True d <-> Forall (fun x => tidy (snd x)) d.
Proof. induction d as [|x l IH]; cbn; split; intros H; auto; [constructor; tauto|]. apply Forall_cons_iff in H. tauto. Qed.

Section Value.
  Variable P : value -> Prop.
  Hypothesis Hplain : forall v, match v with VNone | VBool _ | VInt _ | VFloat _ | VText _ | VInt32 _ | VObject _ _ | VOther => True | _ => False end -> P v.
  Hypothesis Hset : forall l, Forall P l -> P (VSet l).
  Hypothesis Hlist : forall l, Forall P l -> P (VList l).
  Hypothesis Htuple : forall l, Forall P l -> P (VTuple l).
  Hypothesis Hdict : forall d, Forall (fun x => P (snd x)) d -> P (VDict d).
  Fixpoint value_nested v : P v :=
    let all := fix all l : Forall P l := match l with [] => Forall_nil _ | x :: l => Forall_cons x (value_nested x) (all l) end in
    match v with
    | VSet l => Hset l (all l)
    | VList l => Hlist l (all l)
    | VTuple l => Htuple l (all l)
    | VDict d => Hdict d ((fix alld (d : list (key * value)) : Forall (fun x => P (snd x)) d :=
        match d with [] => Forall_nil _ | x :: d => Forall_cons (P := fun x => P (snd x)) x (value_nested (snd x)) (alld d) end) d)
    | VNone => Hplain VNone I | VBool b => Hplain (VBool b) I | VInt z => Hplain (VInt z) I | VFloat q => Hplain (VFloat q) I | VText s => Hplain (VText s) I
    | VInt32 z => Hplain (VInt32 z) I | VObject f s => Hplain (VObject f s) I | VOther => Hplain VOther I
    end.
End Value.

Lemma listed (R : value -> json -> Prop) (H : value -> result value) (D : value -> result json) l l' js :
  Forall (fun v => tidy v -> forall w j, H v = Ok w -> D w = Ok j -> R v j) l -> Forall tidy l ->
  rmap H l = Ok l' -> rmap D l' = Ok js -> Forall2 R l js.
Proof.
  intros F T E. revert js. apply rmap_back in E. induction E as [|x y l l' Ex E IH]; intros js Ej; cbn in Ej; [replace js with (@nil json) by congruence; constructor|].
  apply Forall_cons_iff in F. apply Forall_cons_iff in T. destruct F as (Fx & F), T as (Tx & T).
  destruct (D y) as [j|] eqn:Ey; [|discriminate]. destruct (rmap D l') as [js'|] eqn:Ejs; [|discriminate].
  replace js with (j :: js') by congruence. constructor; [now apply (Fx Tx y)|now apply IH].
Qed.

Section Only.
  Variable simple : bool.
  Definition met fuel := forall v j, tidy v -> dump fuel simple v = Ok j -> stands simple false v j.
  Lemma converted : forall v, tidy v -> forall N, (forall fuel, (fuel <= N)%nat -> met fuel) -> forall fuel w j, (fuel <= N)%nat ->
    handler simple v = Ok w -> dump fuel simple w = Ok j -> stands simple true v j.
  Proof.
    apply (value_nested (fun v => tidy v -> forall N, (forall fuel, (fuel <= N)%nat -> met fuel) -> forall fuel w j, (fuel <= N)%nat ->
      handler simple v = Ok w -> dump fuel simple w = Ok j -> stands simple true v j)).
    - intros v K T N A fuel w j L E D. destruct v; try contradiction K; cbn [handler] in E;
        try (assert (w = _) by (symmetry; injection E; intros X; exact X); subst w; destruct fuel as [|fuel]; [discriminate D|]; cbn in D; replace j with (match D with _ => j end) by reflexivity; injection D as <-; constructor).
      + destruct (if simple then simple0 else full) as [w'|] eqn:Ew; [|discriminate E]. cbn in E. assert (w' = w) by congruence. subst w'.
        apply (st_object simple true full simple0 w); [exact Ew|]. apply (A fuel L); [|exact D].
        cbn in T. destruct T as (T1 & T2). destruct simple; [subst simple0|subst full]; assumption.
      + discriminate E.
    - intros l F T N A fuel w j L E D. cbn [handler] in E. rewrite each_rmap in E. apply rbind_Ok in E. destruct E as (l' & El & E). assert (w = VList l') by congruence. subst w.
      destruct fuel as [|fuel]; [discriminate D|]. cbn [dump] in D. apply rbind_Ok in D. destruct D as (js & Ej & D). replace j with (JList js) by congruence.
      apply st_set. apply tidy_list in T. apply (listed _ (handler simple) (dump fuel simple) l l'); auto.
      apply Forall_forall. intros x Ix Tx w' j' Ex Dx. rewrite Forall_forall in F. apply (F x Ix Tx N A fuel w' j'); [lia|exact Ex|exact Dx].
    - intros l F T N A fuel w j L E D. cbn [handler] in E. rewrite each_rmap in E. apply rbind_Ok in E. destruct E as (l' & El & E). assert (w = VList l') by congruence. subst w.
      destruct fuel as [|fuel]; [discriminate D|]. cbn [dump] in D. apply rbind_Ok in D. destruct D as (js & Ej & D). replace j with (JList js) by congruence.
      apply st_list. apply tidy_list in T. apply (listed _ (handler simple) (dump fuel simple) l l'); auto.
      apply Forall_forall. intros x Ix Tx w' j' Ex Dx. rewrite Forall_forall in F. apply (F x Ix Tx N A fuel w' j'); [lia|exact Ex|exact Dx].
    - intros l F T N A fuel w j L E D. cbn [handler] in E. rewrite each_rmap in E. apply rbind_Ok in E. destruct E as (l' & El & E). assert (w = VTuple l') by congruence. subst w.
      destruct fuel as [|fuel]; [discriminate D|]. cbn [dump] in D. apply rbind_Ok in D. destruct D as (js & Ej & D). replace j with (JList js) by congruence.
      apply st_tuple. apply tidy_list in T. apply (listed _ (handler simple) (dump fuel simple) l l'); auto.
      apply Forall_forall. intros x Ix Tx w' j' Ex Dx. rewrite Forall_forall in F. apply (F x Ix Tx N A fuel w' j'); [lia|exact Ex|exact Dx].
    - intros d F T N A fuel w j L E D. cbn [handler] in E. rewrite each_rmap in E. apply rbind_Ok in E. destruct E as (l' & El & E). assert (w = VDict (last_of_equal l')) by congruence. subst w. clear E.
      destruct T as (Nd & T). fold tidy in T. apply tidy_dict in T.
      apply rmap_back in El.
      assert (Kt : map fst l' = map (fun x => key_text (fst x)) d).
      { clear -El. induction El as [|x y d l Ex El IH]; [reflexivity|]. cbn [map]. rewrite IH. f_equal.
        destruct (handle_key simple (fst x)) as [k|] eqn:Ek; [|discriminate Ex]. cbn in Ex. destruct (handler simple (snd x)); [|discriminate Ex]. cbn in Ex.
        replace y with (k, a) by congruence. cbn [fst]. destruct (fst x); cbn in Ek |- *; [|destruct simple]; congruence. }
      assert (Nl : NoDup (map fst l')) by (rewrite Kt; exact Nd).
      rewrite last_of_distinct in D by exact Nl. destruct fuel as [|fuel]; [discriminate D|]. cbn [dump] in D. apply rbind_Ok in D. destruct D as (js & Ej & D).
      replace j with (JObject js) by congruence. clear D.
      assert (G : Forall2 (fun x y => key_as simple true (fst x) (fst y) /\ stands simple true (snd x) (snd y)) d js /\ map fst js = map fst l').
      { clear Nd Nl Kt. revert js Ej. induction El as [|x y d l' Ex El IH]; intros js Ej; cbn [map] in Ej.
        - cbn in Ej. replace js with (@nil (string * json)) by congruence. split; [constructor|reflexivity].
        - apply Forall_cons_iff in F. apply Forall_cons_iff in T. destruct F as (Fx & F), T as (Tx & T).
          cbn [rmap fst snd] in Ej. destruct (dump fuel simple (snd y)) as [jy|] eqn:Ey; [|discriminate Ej]. cbn [rbind] in Ej.
          match type of Ej with match ?r with _ => _ end = _ => destruct r as [js'|] eqn:Ejs; [|discriminate Ej] end.
          replace js with ((fst y, jy) :: js') by congruence. destruct (IH F T js' eq_refl) as (G & K).
          destruct (handle_key simple (fst x)) as [k|] eqn:Ek; [|discriminate Ex]. cbn [rbind] in Ex.
          destruct (handler simple (snd x)) as [w'|] eqn:Ew; [|discriminate Ex]. cbn [rbind] in Ex. assert (y = (k, w')) by congruence. subst y.
          split; [|cbn [map fst]; now rewrite K]. constructor; [|exact G]. cbn [fst snd] in *. split.
          + destruct (fst x) as [s|s]; cbn in Ek; [left; congruence|]. right. destruct simple; [discriminate Ek|]. repeat split. congruence.
          + apply (Fx Tx N A fuel w' jy); [lia|reflexivity|exact Ey]. }
      destruct G as (G & K). apply st_dict; [rewrite K; exact Nl|exact G].
  Qed.

  Lemma only fuel : met fuel.
  Proof.
    induction fuel as [fuel IH] using lt_wf_ind. intros v j T D. destruct fuel as [|fuel]; [discriminate D|].
    assert (A : forall f, (f <= fuel)%nat -> met f) by (intros f L; apply IH; lia).
    assert (Hd : forall w, handler simple v = Ok w -> dump fuel simple w = Ok j -> stands simple true v j) by (intros w E Dw; apply (converted v T fuel A fuel w j); auto).
    assert (Ls : forall l js, Forall tidy l -> rmap (dump fuel simple) l = Ok js -> Forall2 (stands simple false) l js).
    { intros l js Tl E. apply rmap_back in E. induction E as [|x y l js Ex E IHl]; constructor; apply Forall_cons_iff in Tl; destruct Tl; [now apply (A fuel)|auto]. }
    destruct v; cbn [dump] in D; try (replace j with (match D with _ => j end) by reflexivity; injection D as <-; constructor).
    - apply rbind_Ok in D. destruct D as (w & E & D). specialize (Hd w E D). inversion Hd; subst; constructor.
    - apply rbind_Ok in D. destruct D as (w & E & D). specialize (Hd w E D). inversion Hd; subst. econstructor; eassumption.
    - apply rbind_Ok in D. destruct D as (js & Ej & D). replace j with (JObject js) by congruence. clear D Hd.
      destruct T as (Nd & T). fold tidy in T. apply tidy_dict in T. apply rmap_back in Ej.
      assert (G : Forall2 (fun x y => key_as simple false (fst x) (fst y) /\ stands simple false (snd x) (snd y)) d js /\ map fst js = map (fun x => key_text (fst x)) d).
      { clear Nd. induction Ej as [|x y d js Ex Ej IHd]; [split; [constructor|reflexivity]|]. apply Forall_cons_iff in T. destruct T as (Tx & T).
        destruct (IHd T) as (G & K). destruct (fst x) as [s|s] eqn:Ek; [|discriminate Ex]. apply rbind_Ok in Ex. destruct Ex as (jx & Ex & E). assert (y = (s, jx)) by congruence. subst y.
        split; [|cbn [map fst]; rewrite K, Ek; reflexivity]. constructor; [|exact G]. split; [left; exact Ek|]. now apply (A fuel). }
      destruct G as (G & K). apply st_dict; [rewrite K; exact Nd|exact G].
    - apply rbind_Ok in D. destruct D as (w & E & D). specialize (Hd w E D). inversion Hd; subst. now constructor.
    - apply rbind_Ok in D. destruct D as (js & Ej & D). replace j with (JList js) by congruence. apply st_list, Ls; [now apply tidy_list|exact Ej].
    - apply rbind_Ok in D. destruct D as (js & Ej & D). replace j with (JList js) by congruence. apply st_tuple, Ls; [now apply tidy_list|exact Ej].
    - discriminate D.
  Qed.
End Only.

Theorem only_saved simple v j fuel : tidy v -> dump fuel simple v = Ok j -> stands simple false v j.
Proof. apply only. Qed.

Theorem exactly_saved simple v j : tidy v -> ((exists fuel, dump fuel simple v = Ok j) <-> stands simple false v j).
Proof.
  intros T. split; [intros (fuel & D); now apply (only_saved simple v j fuel)|].
  intros S. apply stands_saves in S. destruct S as (S & _). destruct (S eq_refl) as (n & D). exists n. now apply D.
Qed.

(** * Evaluations *)

Lemma four_stands {A} (number : A -> value) (json_of : A -> json) (f : four A) : (forall x i, stands false i (number x) (json_of x)) -> complete f ->
  exists v j, four_value number f = Ok v /\ stands false true v j /\ movements_as json_of f j.
Proof.
  intros H F. destruct (F RdLow) as (a & Ea), (F WrLow) as (b & Eb), (F RdHigh) as (c & Ec), (F WrHigh) as (d & Ed).
  exists (VObject (Some (VDict [(KText "rd_out_to_low", number a); (KText "wr_in_by_low", number b); (KText "rd_out_to_high", number c); (KText "wr_in_by_high", number d)])) None),
    (JObject [("rd_out_to_low", json_of a); ("wr_in_by_low", json_of b); ("rd_out_to_high", json_of c); ("wr_in_by_high", json_of d)]).
  split; [|split].
  - unfold four_value, directions. cbn [rmap]. unfold dgetr. rewrite Ea, Eb, Ec, Ed. reflexivity.
  - eapply st_object; [reflexivity|]. apply st_dict.
    + cbn [map fst]. repeat (constructor; [cbn; intuition discriminate|]). constructor.
    + repeat (constructor; [split; [left; reflexivity|apply H]|]). constructor.
  - exists a, b, c, d. auto.
Qed.

Lemma operands_stand {A} (convert : A -> result value) (R : A -> json -> Prop) (d : dict string (list A)) : NoDup (keys d) ->
  (forall op l x, dget op d = Some l -> In x l -> exists v j, convert x = Ok v /\ stands false true v j /\ R x j) ->
  exists v js, per_operand convert d = Ok v /\ stands false true v (JObject js) /\
    forall op l, dget op d = Some l -> exists l', dget op js = Some (JList l') /\ Forall2 R l l'.
Proof.
  intros N H.
  assert (G : exists l js, rmap (fun x => rbind (rmap convert (snd x)) (fun vs => Ok (KName (fst x), VList vs))) d = Ok l /\ keys js = keys d /\
    Forall2 (fun x y => key_as false true (fst x) (fst y) /\ stands false true (snd x) (snd y)) l js /\
    forall op l, dget op d = Some l -> exists l', dget op js = Some (JList l') /\ Forall2 R l l').
  { induction d as [|(op, xs) d IH].
    - exists [], []. split; [reflexivity|]. split; [reflexivity|]. split; [constructor|]. intros op l E. discriminate E.
    - apply NoDup_cons_iff in N. destruct N as (Nop & N). destruct IH as (l & js & E & K & F & G); [exact N| |].
      { intros o l x El I. apply (H o l x); [|exact I]. cbn [dget]. destruct (eqb_spec o op) as [->|_]; [|exact El].
        exfalso. apply Nop. apply dget_In in El. apply (List.in_map fst) in El. exact El. }
      assert (X : exists vs j', rmap convert xs = Ok vs /\ Forall2 (stands false true) vs j' /\ Forall2 R xs j').
      { assert (H' : forall x, In x xs -> exists v j, convert x = Ok v /\ stands false true v j /\ R x j).
        { intros x I. apply (H op xs x); [|exact I]. cbn [dget]. destruct (eqb_spec op op) as [_|Y]; [reflexivity|now contradiction Y]. }
        clear -H'. induction xs as [|x xs IH]; [exists [], []; repeat split; constructor|].
        destruct (H' x) as (v & j & Ev & S & Rx); [now left|]. destruct IH as (vs & js & Evs & Ss & Rs); [intros y I; apply H'; now right|].
        exists (v :: vs), (j :: js). cbn [rmap]. rewrite Ev, Evs. repeat split; constructor; assumption. }
      destruct X as (vs & j' & Evs & Sv & Rv).
      exists ((KName op, VList vs) :: l), ((op, JList j') :: js). split; [|split; [|split]].
      + cbn [rmap fst snd]. rewrite Evs. cbn [rbind]. rewrite E. reflexivity.
      + unfold keys in *. cbn [map fst]. now rewrite K.
      + constructor; [|exact F]. split; [right; auto|]. cbn [snd]. apply st_list. exact Sv.
      + intros o m Em. cbn [dget] in Em |- *. destruct (eqb_spec o op) as [_|_]; [|now apply G].
        exists j'. split; [reflexivity|]. replace m with xs by congruence. exact Rv. }
  destruct G as (l & js & E & K & F & G). exists (VDict l), js. split; [unfold per_operand; rewrite E; reflexivity|]. split; [|exact G].
  apply st_dict; [|exact F]. unfold keys in K. rewrite K. exact N.
Qed.

Lemma texts_apart (l : list string) : (if List.list_eq_dec string_dec (nodup string_dec l) l then true else false) = true -> NoDup l.
Proof. destruct (List.list_eq_dec _ _ _) as [<-|_]; [|discriminate]. intros _. apply NoDup_nodup. Qed.
Lemma entry_stands i s v j d js : stands false i v j ->
  Forall2 (fun (x : key * value) (y : string * json) => key_as false i (fst x) (fst y) /\ stands false i (snd x) (snd y)) d js ->
  Forall2 (fun (x : key * value) (y : string * json) => key_as false i (fst x) (fst y) /\ stands false i (snd x) (snd y)) ((KText s, v) :: d) ((s, j) :: js).
Proof. intros H F. constructor; [|exact F]. split; [now left|exact H]. Qed.

Lemma movements_list (l : list Q) js : Forall2 (fun q j => j = JNumber q) l js -> js = map JNumber l.
Proof. induction 1; cbn; congruence. Qed.

Theorem complete_file (e : eval) utilization accelerator layer spatial temporal ju ja jl js jt :
  well_formed e -> ev_utils e <> None ->
  stands false true utilization ju -> stands false true accelerator ja -> stands false true layer jl -> stands false true spatial js -> stands false true temporal jt ->
  exists n j, (forall fuel, (n <= fuel)%nat -> save_complete fuel e utilization accelerator layer spatial temporal = Ok j) /\ file_about e j /\
    under ["outputs"; "memory"; "utilization"] j = Some ju /\
    under ["inputs"] j = Some (JObject [("accelerator", ja); ("layer", jl); ("spatial_mapping", js); ("temporal_mapping", jt)]).
Proof.
  intros (Nb, Nf, Nw, _, _, Af, Aw, _) U Su Sa Sl Ss St.
  destruct (operands_stand (four_value VInt) (movements_as JInt) (ev_words e) Nw) as (vw & jw & Ew & Sw & Gw).
  { intros op l x E I. apply four_stands; [intros; apply st_int|]. apply dget_In in E. eauto. }
  destruct (operands_stand (four_value VFloat) (movements_as JNumber) (ev_further e) Nf) as (vf & jf & Ef & Sf & Gf).
  { intros op l x E I. apply four_stands; [intros; apply st_float|]. apply dget_In in E. eauto. }
  destruct (operands_stand (fun q => Ok (VFloat q)) (fun q j => j = JNumber q) (ev_bd e) Nb) as (vb & jb & Eb & Sb & Gb).
  { intros op l x E I. exists (VFloat x), (JNumber x). split; [reflexivity|]. split; [apply st_float|reflexivity]. }
  destruct (ev_utils e) as [(((a, b), c), d)|] eqn:Eu; [|now contradiction U].
  match type of Ew with _ => pose (J := JObject
    [("outputs", JObject
       [("memory", JObject [("utilization", ju); ("word_accesses", JObject jw)]);
        ("energy", JObject
           [("energy_total", JNumber (ev_energy e)); ("operational_energy", JNumber (ev_mac e)); ("memory_energy", JNumber (ev_mem e));
            ("memory_energy_breakdown_per_level", JObject jb); ("memory_energy_breakdown_per_level_per_operand", JObject jf)]);
        ("latency", JObject
           [("data_onloading", JNumber (ev_l1 e - ev_l0 e)); ("computation", JNumber (ev_l0 e)); ("data_offloading", JNumber (ev_l2 e - ev_l1 e))]);
        ("spatial", JObject
           [("mac_utilization", JObject
               [("ideal", JNumber a); ("stalls", JNumber b); ("stalls_onloading", JNumber c); ("stalls_onloading_offloading", JNumber d)])])]);
     ("inputs", JObject
       [("accelerator", ja); ("layer", jl); ("spatial_mapping", js); ("temporal_mapping", jt)])]) end.
  assert (X : exists v, complete_value e utilization accelerator layer spatial temporal = Ok v /\ saves false v J).
  { unfold complete_value. rewrite Ew. cbn [rbind]. rewrite Eb. cbn [rbind]. rewrite Ef. cbn [rbind]. rewrite Eu. cbn [of_option rbind].
    match goal with |- exists v, handler false ?x = Ok v /\ _ => assert (S : stands false true x J) end.
    { unfold J. repeat first [assumption | apply st_float | (apply st_dict; [apply texts_apart; reflexivity|]) | apply entry_stands | apply Forall2_nil]. }
    apply stands_saves in S. destruct S as (_ & S). destruct (S eq_refl) as (v & Ev & Sv & _). eauto. }
  destruct X as (v & Ev & n & S). exists (Datatypes.S n), J. split; [|split; [|split]].
  - intros [|fuel] L; [lia|]. unfold save_complete. rewrite Ev. cbn [rbind dump handler of_option]. apply S. lia.
  - constructor.
    + repeat split; reflexivity.
    + intros op l E. destruct (Gb op l E) as (l' & E' & F). apply movements_list in F. subst l'. cbn. cbn in E'. rewrite E'. reflexivity.
    + intros op l E. destruct (Gf op l E) as (l' & E' & F). exists l'. split; [|exact F]. cbn. cbn in E'. rewrite E'. reflexivity.
    + intros op l E. destruct (Gw op l E) as (l' & E' & F). exists l'. split; [|exact F]. cbn. cbn in E'. rewrite E'. reflexivity.
    + exists (ev_l1 e - ev_l0 e)%Q, (ev_l0 e), (ev_l2 e - ev_l1 e)%Q. split; [reflexivity|]. split; [reflexivity|]. split; [reflexivity|]. split; [reflexivity|]. split; ring.
    + exists a, b, c, d. split; [exact Eu|]. reflexivity.
  - reflexivity.
  - reflexivity.
Qed.

Lemma numbers_stand i (d : dict string Q) : NoDup (keys d) -> stands false i (numbers_value d) (numbers_as d).
Proof.
  intros N. apply st_dict.
  - rewrite map_map. exact N.
  - clear N. induction d as [|x d IH]; cbn [map]; constructor; [|exact IH]. split; [left; reflexivity|apply st_float].
Qed.
Theorem complete_file_imc (e : eval) (m : imc_numbers) utilization accelerator layer spatial temporal ju ja jl js jt :
  well_formed e -> ev_utils e <> None ->
  NoDup (keys (im_energy_parts m)) -> NoDup (keys (im_clock_parts m)) -> NoDup (keys (im_imc_parts m)) -> NoDup (keys (im_mem_parts m)) ->
  stands false true utilization ju -> stands false true accelerator ja -> stands false true layer jl -> stands false true spatial js -> stands false true temporal jt ->
  exists n j, (forall fuel, (n <= fuel)%nat -> save_complete_imc fuel e m utilization accelerator layer spatial temporal = Ok j) /\ file_about e j /\ imc_file_about e m j /\
    under ["outputs"; "memory"; "utilization"] j = Some ju /\
    under ["inputs"] j = Some (JObject [("accelerator", ja); ("layer", jl); ("spatial_mapping", js); ("temporal_mapping", jt)]).
Proof.
  intros (Nb, Nf, Nw, _, _, Af, Aw, _) U N1 N2 N3 N4 Su Sa Sl Ss St.
  destruct (operands_stand (four_value VInt) (movements_as JInt) (ev_words e) Nw) as (vw & jw & Ew & Sw & Gw).
  { intros op l x E I. apply four_stands; [intros; apply st_int|]. apply dget_In in E. eauto. }
  destruct (operands_stand (four_value VFloat) (movements_as JNumber) (ev_further e) Nf) as (vf & jf & Ef & Sf & Gf).
  { intros op l x E I. apply four_stands; [intros; apply st_float|]. apply dget_In in E. eauto. }
  destruct (operands_stand (fun q => Ok (VFloat q)) (fun q j => j = JNumber q) (ev_bd e) Nb) as (vb & jb & Eb & Sb & Gb).
  { intros op l x E I. exists (VFloat x), (JNumber x). split; [reflexivity|]. split; [apply st_float|reflexivity]. }
  destruct (ev_utils e) as [(((a, b), c), d)|] eqn:Eu; [|now contradiction U].
  match type of Ew with _ => pose (J := JObject
    [("outputs", JObject
       [("memory", JObject [("utilization", ju); ("word_accesses", JObject jw)]);
        ("energy", JObject
           [("energy_total", JNumber (ev_energy e)); ("operational_energy", JNumber (ev_mac e));
            ("operational_energy_breakdown", numbers_as (im_energy_parts m)); ("memory_energy", JNumber (ev_mem e));
            ("memory_energy_breakdown_per_level", JObject jb); ("memory_energy_breakdown_per_level_per_operand", JObject jf)]);
        ("latency", JObject
           [("data_onloading", JNumber (ev_l1 e - ev_l0 e)); ("computation", JNumber (ev_l0 e)); ("data_offloading", JNumber (ev_l2 e - ev_l1 e));
            ("computation_breakdown", JObject [("mac_computation", JNumber (ev_temporal e)); ("memory_stalling", JNumber (im_stall m))])]);
        ("clock", JObject [("tclk (ns)", JNumber (im_clock m)); ("tclk_breakdown (ns)", numbers_as (im_clock_parts m))]);
        ("area (mm^2)", JObject
           [("total_area", JNumber (im_area m));
            ("total_area_breakdown:", JObject [("imc_area", JNumber (im_imc_area m)); ("mem_area", JNumber (im_mem_area m))]);
            ("total_area_breakdown_further", JObject [("imc_area_breakdown", numbers_as (im_imc_parts m)); ("mem_area_breakdown", numbers_as (im_mem_parts m))])]);
        ("spatial", JObject
           [("mac_utilization", JObject
               [("ideal", JNumber a); ("stalls", JNumber b); ("stalls_onloading", JNumber c); ("stalls_onloading_offloading", JNumber d)])])]);
     ("inputs", JObject
       [("accelerator", ja); ("layer", jl); ("spatial_mapping", js); ("temporal_mapping", jt)])]) end.
  assert (X : exists v, complete_value_imc e m utilization accelerator layer spatial temporal = Ok v /\ saves false v J).
  { unfold complete_value_imc. rewrite Ew. cbn [rbind]. rewrite Eb. cbn [rbind]. rewrite Ef. cbn [rbind]. rewrite Eu. cbn [of_option rbind].
    match goal with |- exists v, handler false ?x = Ok v /\ _ => assert (S : stands false true x J) end.
    { unfold J. repeat first [assumption | (apply numbers_stand; assumption) | apply st_float | (apply st_dict; [apply texts_apart; reflexivity|]) | apply entry_stands | apply Forall2_nil]. }
    apply stands_saves in S. destruct S as (_ & S). destruct (S eq_refl) as (v & Ev & Sv & _). eauto. }
  destruct X as (v & Ev & n & S). exists (Datatypes.S n), J. split; [|split; [|split; [|split]]].
  - intros [|fuel] L; [lia|]. unfold save_complete_imc. rewrite Ev. cbn [rbind dump handler of_option]. apply S. lia.
  - constructor.
    + repeat split; reflexivity.
    + intros op l E. destruct (Gb op l E) as (l' & E' & F). apply movements_list in F. subst l'. cbn. cbn in E'. rewrite E'. reflexivity.
    + intros op l E. destruct (Gf op l E) as (l' & E' & F). exists l'. split; [|exact F]. cbn. cbn in E'. rewrite E'. reflexivity.
    + intros op l E. destruct (Gw op l E) as (l' & E' & F). exists l'. split; [|exact F]. cbn. cbn in E'. rewrite E'. reflexivity.
    + exists (ev_l1 e - ev_l0 e)%Q, (ev_l0 e), (ev_l2 e - ev_l1 e)%Q. split; [reflexivity|]. split; [reflexivity|]. split; [reflexivity|]. split; [reflexivity|]. split; ring.
    + exists a, b, c, d. split; [exact Eu|]. reflexivity.
  - constructor; repeat split; reflexivity.
  - reflexivity.
  - reflexivity.
Qed.

Theorem simple_file (e : eval) fuel : (3 <= fuel)%nat -> save_simple fuel e = Ok (JObject [("energy", JNumber (ev_energy e)); ("latency", JNumber (ev_l2 e))]).
Proof. intros L. destruct fuel as [|[|[|fuel]]]; try lia. reflexivity. Qed.
Theorem simple_file_imc (e : eval) m fuel : (3 <= fuel)%nat ->
  save_simple_imc fuel e m = Ok (JObject [("energy", JNumber (ev_energy e)); ("latency", JNumber (ev_l2 e)); ("tclk (ns)", JNumber (im_clock m)); ("area", JNumber (im_area m))]).
Proof. intros L. destruct fuel as [|[|[|fuel]]]; try lia. reflexivity. Qed.

Theorem loops_file {A} (show : A -> string) (d : dict string (list (list A))) : NoDup (keys d) ->
  exists v j, loops_value show d = Ok v /\ (forall i, stands false i v j) /\
    j = JObject (map (fun x => (fst x, JList (map (fun level => JList (map (fun loop => JText (show loop)) level)) (snd x)))) d).
Proof.
  intros N.
  assert (S : stands false true (VDict (map (fun x => (KName (fst x), VList (map (fun level => VList (map (fun loop => VText (show loop)) level)) (snd x)))) d))
    (JObject (map (fun x => (fst x, JList (map (fun level => JList (map (fun loop => JText (show loop)) level)) (snd x)))) d))).
  { apply st_dict.
    - rewrite map_map. exact N.
    - clear N. induction d as [|x d IH]; cbn [map]; constructor; [|exact IH]. split; [right; auto|]. cbn [snd]. apply st_list.
      induction (snd x) as [|level ls IHl]; cbn [map]; constructor; [|exact IHl]. apply st_list.
      induction level as [|y ys IHy]; cbn [map]; constructor; [apply st_text|exact IHy]. }
  apply stands_saves in S. destruct S as (_ & S). destruct (S eq_refl) as (w & E & _ & T).
  eexists _, _. split; [unfold loops_value; rewrite E; reflexivity|]. split; [|reflexivity]. intros i. eapply st_object; [reflexivity|exact T].
Qed.

(** What whole stages hand over can be saved. *)
Section Saved.
  Variables (utilization accelerator layer spatial temporal : value) (ju ja jl js jt : json).
  Hypothesis Hu : stands false true utilization ju.
  Hypothesis Ha : stands false true accelerator ja.
  Hypothesis Hl : stands false true layer jl.
  Hypothesis Hs : stands false true spatial js.
  Hypothesis Ht : stands false true temporal jt.
  Lemma saved_about e : well_formed e -> right_utils e ->
    exists n j, (forall fuel, (n <= fuel)%nat -> save_complete fuel e utilization accelerator layer spatial temporal = Ok j) /\ file_about e j.
  Proof.
    intros W R. destruct (complete_file e utilization accelerator layer spatial temporal ju ja jl js jt W) as (n & j & E & F & _); eauto.
    destruct R as (s & u0 & u1 & u2 & E & _). rewrite E. discriminate.
  Qed.
  Lemma layer_saved ci i name e : NoDup (in_ops ci) -> cme_of ci i name = Ok e ->
    exists n j, (forall fuel, (n <= fuel)%nat -> save_complete fuel e utilization accelerator layer spatial temporal = Ok j) /\ file_about e j.
  Proof. intros N H. apply cme_of_ok in H; [|exact N]. destruct H as (W & R & _). now apply saved_about. Qed.
  Lemma sum_saved {X} order (l : list (eval * X)) t all : (forall l, Permutation (order l) l) -> (forall e x, In (e, x) l -> well_formed e) -> l <> [] ->
    sum_stage order l = Ok (t, all) ->
    exists n j, (forall fuel, (n <= fuel)%nat -> save_complete fuel t utilization accelerator layer spatial temporal = Ok j) /\ file_about t j.
  Proof. intros P W L H. destruct (sum_stage_spec order P l W t all H) as (_ & Wt & _ & R & _). apply saved_about; auto. Qed.
End Saved.
