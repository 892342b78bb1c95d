(** Proofs for C12 and C13. *)
From Verif Require Import Base Model_Alloc Model_Temporal Spec_Temporal Proof_AllocSearch.
From Coq Require Import Lia.
Local Open Scope result_scope.

Lemma loop_eqb_refl x : loop_eqb x x = true.
Proof. unfold loop_eqb. now rewrite eqb_refl, Z.eqb_refl. Qed.

Lemma loop_eqb_eq x y : loop_eqb x y = true -> x = y.
Proof.
  unfold loop_eqb. rewrite andb_true_iff, Z.eqb_eq. intros [E F].
  destruct x, y; cbn [fst snd] in *. apply String.eqb_eq in E. now subst.
Qed.

Fixpoint pre (ir : list string) (l : list tloop) : list tloop :=
  match l with [] => [] | x :: l' => if memb (fst x) ir then x :: pre ir l' else [] end.
Fixpoint post (ir : list string) (l : list tloop) : list tloop :=
  match l with [] => [] | x :: l' => if memb (fst x) ir then post ir l' else l end.

Lemma pre_post ir l : pre ir l ++ post ir l = l.
Proof. induction l as [|x l IH]; cbn [pre post]; [easy|]. destruct (memb _ _); cbn [app]; congruence. Qed.
Lemma pre_over ir l : Forall (over ir) (pre ir l).
Proof.
  induction l as [|x l IH]; cbn [pre]; [constructor|].
  destruct (memb (fst x) ir) eqn:E; constructor; [|easy]. now apply memb_In.
Qed.
Lemma pre_nil ir l : pre ir l = [] <-> ~ starts_over ir l.
Proof.
  destruct l as [|x l]; cbn [pre starts_over]; [tauto|]. unfold over.
  destruct (memb (fst x) ir) eqn:E.
  - apply memb_In in E. split; [discriminate|tauto].
  - apply memb_not_In in E. tauto.
Qed.
Lemma pre_leading ir l : leading_product ir l (zprod (map snd (pre ir l))).
Proof.
  induction l as [|x l IH]; cbn [pre]; [constructor|].
  destruct (memb (fst x) ir) eqn:E.
  - cbn [map]. rewrite zprod_cons. constructor; [now apply memb_In|easy].
  - cbn [map]. constructor. intros H. apply memb_In in H. congruence.
Qed.

Lemma extend_at_app k done acc rest xs : k = length done ->
  extend_at k xs (done ++ acc :: rest) = done ++ (acc ++ xs) :: rest.
Proof. intros ->. induction done as [|d done IH]; cbn; [easy|]. now rewrite IH. Qed.

Lemma scan_level_0 ir l acc rest mac :
  scan_level ir 0 l l (acc :: rest) mac
  = Ok ((acc ++ l) :: rest, mac * zprod (map snd (pre ir l))).
Proof.
  revert acc mac. induction l as [|x l IH]; intros acc mac; cbn [scan_level pre].
  - now rewrite app_nil_r, Z.mul_1_r.
  - destruct (memb (fst x) ir).
    + cbn [py_remove]. rewrite loop_eqb_refl. cbn [rbind extend_at].
      rewrite IH. cbn [map]. rewrite zprod_cons, <- app_assoc, Z.mul_assoc. reflexivity.
    + cbn [extend_at map]. change (zprod []) with 1. now rewrite Z.mul_1_r.
Qed.

Lemma scan_level_S ir k l done acc cur rest mac : k = length done ->
  scan_level ir (S k) l l (done ++ acc :: cur :: rest) mac
  = Ok (done ++ (acc ++ pre ir l) :: (cur ++ post ir l) :: rest, mac).
Proof.
  intros ->. revert acc. induction l as [|x l IH]; intros acc; cbn [scan_level pre post].
  - now rewrite !app_nil_r.
  - destruct (memb (fst x) ir).
    + cbn [py_remove]. rewrite loop_eqb_refl. cbn [rbind].
      rewrite extend_at_app by easy. rewrite IH. now rewrite <- app_assoc.
    + rewrite app_nil_r. do 2 f_equal.
      change (acc :: cur :: rest) with ([acc] ++ cur :: rest). rewrite app_assoc.
      rewrite extend_at_app by (rewrite app_length; cbn; lia). now rewrite <- app_assoc.
Qed.

Fixpoint merged (ir : list string) (acc : list tloop) (ls : tmlevels) : tmlevels :=
  match ls with
  | [] => [acc]
  | l :: ls' => (acc ++ pre ir l) :: merged ir (post ir l) ls'
  end.
Definition passed ir (ls : tmlevels) : tmlevels :=
  match ls with [] => [] | l :: ls' => merged ir l ls' end.

Lemma scan_levels_S ir todo : forall k done acc mac, k = length done ->
  scan_levels ir (S k) todo (done ++ acc :: map (fun _ => []) todo) mac
  = Ok (done ++ merged ir acc todo, mac).
Proof.
  induction todo as [|l todo IH]; intros k done acc mac Hk; cbn [scan_levels merged map]; [easy|].
  rewrite scan_level_S by easy. cbn [rbind fst snd app].
  specialize (IH (S k) (done ++ [acc ++ pre ir l]) (post ir l) mac).
  rewrite <- !app_assoc in IH. cbn [app] in IH. apply IH.
  rewrite app_length. cbn. lia.
Qed.

Lemma scan_levels_ok ir ls :
  scan_levels ir 0 ls (map (fun _ => []) ls) 1
  = Ok (passed ir ls, match ls with [] => 1 | l :: _ => zprod (map snd (pre ir l)) end).
Proof.
  destruct ls as [|l ls]; [easy|]. cbn [scan_levels map passed].
  rewrite scan_level_0. cbn [rbind fst snd].
  rewrite app_nil_l, Z.mul_1_l. exact (scan_levels_S ir ls 0 [] l _ eq_refl).
Qed.

Lemma length_merged ir ls : forall acc, length (merged ir acc ls) = S (length ls).
Proof. induction ls as [|l ls IH]; intros acc; cbn; [easy|]. now rewrite IH. Qed.
Lemma length_passed ir ls : length (passed ir ls) = length ls.
Proof. destruct ls; [easy|]. apply length_merged. Qed.

Lemma concat_merged ir ls : forall acc, concat (merged ir acc ls) = acc ++ concat ls.
Proof.
  induction ls as [|l ls IH]; intros acc; cbn; [now rewrite app_nil_r|].
  rewrite IH, <- app_assoc. f_equal. rewrite app_assoc. now rewrite pre_post.
Qed.
Lemma concat_passed ir ls : concat (passed ir ls) = concat ls.
Proof. destruct ls; [easy|]. apply concat_merged. Qed.

Lemma below_merged ir ls : forall acc k, exists q,
  below k (merged ir acc ls) = below k (acc :: ls) ++ q /\ Forall (over ir) q.
Proof.
  unfold below. induction ls as [|l ls IH]; intros acc k; cbn [merged].
  - exists []. rewrite app_nil_r. split; [easy|constructor].
  - destruct k as [|[|k]].
    + exists []. split; [easy|constructor].
    + exists (pre ir l). cbn. rewrite !app_nil_r. split; [easy|apply pre_over].
    + destruct (IH (post ir l) (S k)) as (q & E & Hq). exists q. split; [|easy].
      rewrite firstn_cons. rewrite concat_cons, E. cbn [firstn concat].
      rewrite <- !app_assoc. f_equal. rewrite app_assoc, pre_post. reflexivity.
Qed.
Lemma below_passed ir ls k : exists q,
  below k (passed ir ls) = below k ls ++ q /\ Forall (over ir) q.
Proof.
  destruct ls as [|l ls]; [|apply below_merged].
  exists []. unfold below. rewrite app_nil_r. now split.
Qed.

(** weight: how far from the bottom the loops are *)
Fixpoint W (k : nat) (ls : tmlevels) : nat :=
  match ls with [] => 0 | l :: ls' => k * length l + W (S k) ls' end.
Fixpoint P (ir : list string) (ls : tmlevels) : nat :=
  match ls with [] => 0 | l :: ls' => length (pre ir l) + P ir ls' end.

Lemma W_merged ir ls : forall k acc, (W k (merged ir acc ls) + P ir ls = W k (acc :: ls))%nat.
Proof.
  induction ls as [|l ls IH]; intros k acc; [cbn; lia|].
  cbn [merged W P]. specialize (IH (S k) (post ir l)). cbn [W] in IH.
  assert (length l = length (pre ir l) + length (post ir l))%nat
    by (rewrite <- app_length; now rewrite pre_post).
  rewrite app_length. nia.
Qed.
Lemma W_passed ir ls : (W 0 (passed ir ls) + P ir (tl ls) = W 0 ls)%nat.
Proof. destruct ls; [easy|]. apply W_merged. Qed.

Lemma P_zero ir ls : P ir ls = 0%nat -> Forall (fun l => ~ starts_over ir l) ls.
Proof.
  induction ls as [|l ls IH]; cbn [P]; intros H; constructor.
  - apply pre_nil. apply length_zero_iff_nil. lia.
  - apply IH. lia.
Qed.

Lemma from_stop ir ls : Forall (fun l => ~ starts_over ir l) ls -> forall k, ~ starts_over ir (from k ls).
Proof.
  unfold from. induction 1 as [|l ls Hl _ IH]; intros k.
  - rewrite skipn_nil. cbn. tauto.
  - destruct k as [|k]; [|apply IH]. cbn [skipn concat]. destruct l as [|x l]; [apply (IH 0%nat)|exact Hl].
Qed.

Lemma level_eqb_eq a : forall b, level_eqb a b = true -> a = b.
Proof.
  unfold level_eqb. induction a as [|x a IH]; intros [|y b]; cbn; try easy.
  rewrite !andb_true_iff. intros [E [F G]]. apply loop_eqb_eq in F. f_equal; [easy|].
  apply IH. now rewrite E, G.
Qed.
Lemma levels_eqb_eq a : forall b, levels_eqb a b = true -> a = b.
Proof.
  unfold levels_eqb. induction a as [|x a IH]; intros [|y b]; cbn; try easy.
  rewrite !andb_true_iff. intros [E [F G]]. apply level_eqb_eq in F. f_equal; [easy|].
  apply IH. now rewrite E, G.
Qed.
Lemma level_eqb_refl a : level_eqb a a = true.
Proof.
  unfold level_eqb. rewrite Nat.eqb_refl. cbn [andb]. apply forallb_forall. intros [x y] H.
  cbn. replace y with x; [apply loop_eqb_refl|]. induction a; cbn in H; [easy|]. destruct H; [congruence|auto].
Qed.
Lemma levels_eqb_refl a : levels_eqb a a = true.
Proof.
  unfold levels_eqb. rewrite Nat.eqb_refl. cbn [andb]. apply forallb_forall. intros [x y] H.
  cbn. replace y with x; [apply level_eqb_refl|]. induction a; cbn in H; [easy|]. destruct H; [congruence|auto].
Qed.

Section Merge.
  Variable ir_dims : dict string (list string).
  Local Notation irs := (reuse_dims ir_dims).
  Definition macs (kv : string * tmlevels) : string * Z :=
    (fst kv, match snd kv with [] => 1 | l :: _ => zprod (map snd (pre (irs (fst kv)) l)) end).
  Definition passes (kv : string * tmlevels) : string * tmlevels :=
    (fst kv, passed (irs (fst kv)) (snd kv)).

  Lemma pass_operand_ok kv : In (fst kv) (keys ir_dims) ->
    pass_operand ir_dims kv = Ok (fst kv, (snd (passes kv), snd (macs kv))).
  Proof.
    intros H. unfold pass_operand, passes, macs, reuse_dims, dgetr.
    apply key_dget in H as [l H]. rewrite H. cbn [of_option rbind fst snd].
    rewrite scan_levels_ok. cbn [rbind]. reflexivity.
  Qed.

  Lemma pass_all m : (forall op, In op (keys m) -> In op (keys ir_dims)) ->
    rmap (pass_operand ir_dims) m = Ok (map (fun kv => (fst kv, (snd (passes kv), snd (macs kv)))) m).
  Proof.
    induction m as [|kv m IH]; intros H; cbn [rmap map]; [easy|].
    rewrite pass_operand_ok by (apply H; left; reflexivity).
    cbn [rbind]. rewrite IH by (intros; apply H; now right). reflexivity.
  Qed.

  Definition weight (m : dict string tmlevels) : nat :=
    fold_right (fun kv n => W 0 (snd kv) + n)%nat 0%nat m.

  Lemma weight_map m : (weight (map passes m) <= weight m)%nat /\
    ((weight (map passes m) = weight m)%nat ->
      Forall (fun kv => P (irs (fst kv)) (tl (snd kv)) = 0%nat) m).
  Proof.
    induction m as [|kv m [IH1 IH2]]; cbn [map weight fold_right]; [now split|].
    fold (weight (map passes m)) (weight m). cbn [passes snd].
    pose proof (W_passed (irs (fst kv)) (snd kv)). split; [lia|].
    intros E. constructor; [lia|]. apply IH2. lia.
  Qed.

  Definition stationary (kv kv' : string * tmlevels) : Prop :=
    fst kv' = fst kv /\ length (snd kv') = length (snd kv) /\
    concat (snd kv') = concat (snd kv) /\
    forall k, exists q, below k (snd kv') = below k (snd kv) ++ q /\ Forall (over (irs (fst kv))) q.

  Lemma stationary_refl kv : stationary kv kv.
  Proof. repeat split. intros k. exists []. now rewrite app_nil_r. Qed.
  Lemma stationary_passes kv kv' : stationary kv kv' -> stationary kv (passes kv').
  Proof.
    intros (E & L & C & B). unfold stationary, passes. cbn [fst snd].
    rewrite length_passed, concat_passed. split; [easy|]. split; [easy|]. split; [easy|].
    intros k. destruct (below_passed (irs (fst kv')) (snd kv') k) as (q & Eq & Hq).
    destruct (B k) as (q0 & E0 & H0). exists (q0 ++ q). rewrite Eq, E0, app_assoc. split; [easy|].
    apply Forall_app. rewrite E in Hq. now split.
  Qed.

  Lemma Forall2_map_r {A B C} (R : A -> C -> Prop) (f : B -> C) l l' :
    Forall2 R l (map f l') <-> Forall2 (fun x y => R x (f y)) l l'.
  Proof.
    revert l. induction l' as [|y l' IH]; intros l; split; intros H; inversion H; subst; constructor; auto;
      now apply IH.
  Qed.

  Lemma merge_down_ok m0 fuel : forall m, (weight m < fuel)%nat ->
    (forall op, In op (keys m) -> In op (keys ir_dims)) ->
    Forall2 stationary m0 m ->
    exists st, merge_down ir_dims fuel m = Ok (st, map macs st) /\ Forall2 stationary m0 st /\
      Forall (fun kv => P (irs (fst kv)) (tl (snd kv)) = 0%nat) st.
  Proof.
    induction fuel as [|fuel IH]; intros m Hf Hk HF; [lia|].
    cbn [merge_down]. rewrite pass_all by easy. cbn [rbind]. rewrite !map_map. cbn [fst snd].
    change (map (fun kv => (fst kv, snd (passes kv))) m) with (map passes m).
    match goal with |- context [if ?b then _ else _] => destruct b eqn:E end.
    - assert (Em : map passes m = m).
      { clear - E. induction m as [|kv m IH]; [easy|]. cbn [map combine forallb] in *.
        apply andb_true_iff in E as [E1 E2]. cbn [fst snd] in E1. f_equal; [|now apply IH].
        apply levels_eqb_eq in E1. destruct kv; unfold passes in *; cbn [fst snd] in *. congruence. }
      exists m. rewrite Em. split; [f_equal; f_equal; reflexivity|]. split; [easy|].
      apply weight_map. now rewrite Em.
    - assert (Hne : (weight (map passes m) < weight m)%nat).
      { destruct (weight_map m) as [H1 H2]. destruct (Nat.eq_dec (weight (map passes m)) (weight m)) as [e|]; [|lia].
        exfalso. specialize (H2 e). clear - E H2. induction H2 as [|kv m Hp _ IHm]; [discriminate|].
        cbn [map combine forallb fst snd] in E. apply andb_false_iff in E as [E|E]; [|now apply IHm].
        replace (snd (passes kv)) with (snd kv) in E; [now rewrite levels_eqb_refl in E|].
        unfold passes. cbn [snd]. destruct (snd kv) as [|l ls]; [easy|]. cbn [tl] in Hp. cbn [passed].
        clear -Hp. revert l. induction ls as [|l1 ls IH]; intros l; [easy|]. cbn [P merged] in *.
        assert (E1 : pre (irs (fst kv)) l1 = []) by (apply length_zero_iff_nil; lia).
        rewrite E1, app_nil_r. f_equal. pose proof (pre_post (irs (fst kv)) l1) as Hpp.
        rewrite E1 in Hpp. cbn in Hpp. rewrite Hpp. apply IH. lia. }
      apply IH; [lia| |].
      + intros op. unfold keys. rewrite map_map. cbn [passes fst]. apply Hk.
      + apply Forall2_map_r. clear - HF. induction HF; constructor; [now apply stationary_passes|easy].
  Qed.

  Theorem merge_down_spec m fuel : (weight m < fuel)%nat ->
    (forall op, In op (keys m) -> In op (keys ir_dims)) ->
    exists st mac, merge_down ir_dims fuel m = Ok (st, mac) /\ keys mac = keys m /\
      Forall2 (fun kv kv' => fst kv' = fst kv /\
         merged_down (irs (fst kv)) (snd kv) (snd kv')) m st /\
      Forall2 (fun kv kv' => fst kv' = fst kv /\
         leading_product (irs (fst kv)) (concat (snd kv)) (snd kv')) m mac.
  Proof.
    intros Hf Hk. destruct (merge_down_ok m fuel m Hf Hk) as (st & E & F & G).
    { clear. induction m; constructor; [apply stationary_refl|easy]. }
    exists st, (map macs st). split; [exact E|]. clear E Hf Hk.
    induction F as [|kv kv' m st S F IH]; cbn [map keys]; [repeat split; constructor|].
    inversion_clear G as [|? ? Gp Gr]. destruct (IH Gr) as (I1 & I2 & I3).
    destruct S as (E & L & C & B). split; [cbn [macs fst]; f_equal; [easy|exact I1]|].
    assert (Hstop : forall k, (0 < k)%nat -> ~ starts_over (irs (fst kv)) (from k (snd kv'))).
    { intros k Hk. apply P_zero in Gp. rewrite E in Gp.
      destruct (snd kv') as [|l ls]; [unfold from; rewrite skipn_nil; cbn; tauto|].
      destruct k; [lia|]. apply (from_stop _ _ Gp k). }
    split; constructor; try easy.
    - split; [easy|]. split; [easy|]. split; [easy|]. intros k Hk. split; [apply B|apply Hstop; lia].
    - cbn [macs fst snd]. split; [easy|]. rewrite E. rewrite <- C.
      specialize (Hstop 1%nat ltac:(lia)).
      destruct (snd kv') as [|l ls]; [constructor|]. cbn [concat]. unfold from in Hstop. cbn [skipn] in Hstop.
      replace (pre (irs (fst kv)) l) with (pre (irs (fst kv)) (l ++ concat ls)); [apply pre_leading|].
      clear - Hstop. induction l as [|x l IH]; cbn [app pre]; [now apply pre_nil|].
      destruct (memb _ _); congruence.
  Qed.
End Merge.
