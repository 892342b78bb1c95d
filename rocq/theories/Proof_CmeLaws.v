From Coq Require Import QArith Lqa.
From Verif Require Import Base Model_Decouple Model_DataMove Model_Links Model_Cost Model_Latency Model_Cme Spec_DataMove Spec_Cost Spec_Cme
  Proof_AllocSearch Proof_Mapping Proof_DataMove Proof_Energy Proof_Latency Proof_Cme.
Local Open Scope result_scope.

Lemma opt_eq_refl x : opt_eq x x.
Proof. destruct x; cbn; [reflexivity|exact I]. Qed.
Lemma opt_add_comm_q x y : opt_eq (opt_add Qplus x y) (opt_add Qplus y x).
Proof. destruct x, y; cbn; try reflexivity. ring. Qed.
Lemma opt_add_assoc_q x y z : opt_eq (opt_add Qplus (opt_add Qplus x y) z) (opt_add Qplus x (opt_add Qplus y z)).
Proof. destruct x, y, z; cbn; try reflexivity. ring. Qed.
Lemma opt_add_comm_z x y : opt_add Z.add x y = opt_add Z.add y x.
Proof. destruct x, y; cbn; try reflexivity. f_equal. ring. Qed.
Lemma opt_add_assoc_z x y z : opt_add Z.add (opt_add Z.add x y) z = opt_add Z.add x (opt_add Z.add y z).
Proof. destruct x, y, z; cbn; try reflexivity. f_equal. ring. Qed.

(** * Accelerator names *)

Lemma app_string_nil s : (s ++ "")%string = s.
Proof. induction s as [|c s IH]; cbn; [reflexivity|]. now rewrite IH. Qed.
Lemma app_string_assoc a b c : ((a ++ b) ++ c)%string = (a ++ b ++ c)%string.
Proof. induction a as [|x a IH]; cbn; [reflexivity|]. now rewrite IH. Qed.
Lemma extends_trans a b c : extends a b -> extends b c -> extends a c.
Proof. intros (s & ->) (t & ->). exists (s ++ t)%string. apply app_string_assoc. Qed.
Lemma extends_refl a : extends a a.
Proof. exists ""%string. now rewrite app_string_nil. Qed.
Lemma extends_antisym a b : extends a b -> extends b a -> a = b.
Proof.
  revert b. induction a as [|c a IH]; intros b (s & Hs) (t & Ht).
  - cbn in Ht. destruct b; [reflexivity|discriminate].
  - destruct b as [|c' b]; [discriminate|]. cbn in Hs, Ht. injection Hs as -> Hs. injection Ht as Ht. f_equal. apply IH; [now exists s|now exists t].
Qed.
Lemma extends_total a b c : extends a c -> extends b c -> extends a b \/ extends b a.
Proof.
  revert b c. induction a as [|x a IH]; intros b c (s & Hs) (t & Ht).
  - left. exists b. reflexivity.
  - destruct b as [|y b]; [right; eexists; reflexivity|]. destruct c as [|z c]; [discriminate|].
    cbn in Hs, Ht. injection Hs as -> Hs. injection Ht as -> Ht.
    destruct (IH b c) as [(u & ->)|(u & ->)]; [now exists s|now exists t|left; now exists u|right; now exists u].
Qed.

Definition below (r x : option string) : Prop :=
  match x with None => True | Some a => exists b, r = Some b /\ extends b a end.
Lemma chosen_below x y r : chosen x y r -> below r x /\ below r y.
Proof.
  destruct x as [a|], y as [b|]; cbn.
  - intros [[H ->]|[H ->]]; split; eexists; (split; [reflexivity|]); (exact H || apply extends_refl).
  - intros ->. split; [|exact I]. eexists. split; [reflexivity|apply extends_refl].
  - intros ->. split; [exact I|]. eexists. split; [reflexivity|apply extends_refl].
  - intros ->. split; exact I.
Qed.
Lemma chosen_among x y r : chosen x y r -> r = x \/ r = y.
Proof. destruct x, y; cbn; intuition. Qed.
Lemma below_trans r x y : below x y -> below r x -> below r y.
Proof.
  destruct y as [c|]; [|tauto]. cbn. intros (b & -> & H) (a & -> & H'). exists a. split; [reflexivity|]. now apply (extends_trans a b).
Qed.
Lemma below_antisym x y : below x y -> below y x -> x = y.
Proof.
  destruct x as [a|], y as [b|]; cbn; try tauto.
  - intros (a' & E & H) (b' & E' & H'). injection E as <-. injection E' as <-. f_equal. now apply extends_antisym.
  - intros _ (b' & E & _). discriminate.
  - intros (b' & E & _) _. discriminate.
Qed.
Lemma chosen_greatest x y r q : chosen x y r -> below q x -> below q y -> below q r.
Proof. intros H Hx Hy. destruct (chosen_among _ _ _ H) as [->| ->]; assumption. Qed.
Lemma chosen_comm x y r r' : chosen x y r -> chosen y x r' -> r = r'.
Proof.
  intros H H'. destruct (chosen_below _ _ _ H), (chosen_below _ _ _ H').
  apply below_antisym; [eapply chosen_greatest|eapply (chosen_greatest x y)]; eassumption.
Qed.
Lemma chosen_assoc x y z xy yz r r' : chosen x y xy -> chosen xy z r -> chosen y z yz -> chosen x yz r' -> r = r'.
Proof.
  intros H1 H2 H3 H4.
  destruct (chosen_below _ _ _ H1) as [a1 a2], (chosen_below _ _ _ H2) as [b1 b2], (chosen_below _ _ _ H3) as [c1 c2], (chosen_below _ _ _ H4) as [d1 d2].
  apply below_antisym.
  - apply (chosen_greatest _ _ _ _ H4); [exact (below_trans _ _ _ a1 b1)|]. apply (chosen_greatest _ _ _ _ H3); [exact (below_trans _ _ _ a2 b1)|exact b2].
  - apply (chosen_greatest _ _ _ _ H2); [|exact (below_trans _ _ _ c2 d2)]. apply (chosen_greatest _ _ _ _ H1); [exact d1|exact (below_trans _ _ _ c1 d2)].
Qed.
Lemma compatible_comm x y : compatible x y -> compatible y x.
Proof. destruct x, y; cbn; tauto. Qed.

(** * Addition *)

Section Laws.
  Variables order order' : list string -> list string.
  Hypothesis order_perm : forall l, Permutation (order l) l.
  Hypothesis order_perm' : forall l, Permutation (order' l) l.

  Lemma sum_comm a b r r' : sum_of a b r -> sum_of b a r' -> same_numbers r r' /\ ev_acc r = ev_acc r'.
  Proof.
    intros [A1 A2 A3 A4 A5 A6 A7 A8 A9 A10 A11 A12 A13 A14 _ _ A15] [B1 B2 B3 B4 B5 B6 B7 B8 B9 B10 B11 B12 B13 B14 _ _ B15].
    split; [|now apply (chosen_comm (ev_acc a) (ev_acc b))].
    constructor; intros; try (rewrite A5, B5 || rewrite A6, B6 || rewrite A7, B7 || rewrite A8, B8 || rewrite A9, B9 || rewrite A10, B10 || rewrite A11, B11 || rewrite A12, B12 || rewrite A13, B13 || rewrite A14, B14; ring).
    - rewrite A1, B1. apply opt_add_comm_q.
    - rewrite A2, B2. apply opt_add_comm_q.
    - rewrite A3, B3. apply opt_add_comm_z.
    - rewrite A4, B4. tauto.
  Qed.

  Lemma add_comm_laws a b r : well_formed a -> well_formed b -> cme_add order a b = Ok r ->
    exists r', cme_add order' b a = Ok r' /\ same_numbers r r' /\ ev_acc r = ev_acc r' /\ Permutation (layer_ids r) (layer_ids r').
  Proof.
    intros Wa Wb H. assert (I : nonzero_sum a b /\ compatible (ev_acc a) (ev_acc b)) by (apply (add_iff order); eauto).
    destruct I as [(Z1 & Z2 & Z3 & Z4) C].
    destruct (proj2 (add_iff order' order_perm' b a Wb Wa)) as (r' & Hr').
    { split; [|now apply compatible_comm]. unfold nonzero_sum.
      rewrite (Qplus_comm (ev_temporal b)), (Qplus_comm (ev_l0 b)), (Qplus_comm (ev_l1 b)), (Qplus_comm (ev_l2 b)). now repeat split. }
    exists r'. split; [exact Hr'|]. destruct (add_sum _ order_perm _ _ _ Wa Wb H) as [S _]. destruct (add_sum _ order_perm' _ _ _ Wb Wa Hr') as [S' _].
    destruct (sum_comm _ _ _ _ S S') as [N E]. split; [exact N|]. split; [exact E|].
    rewrite (so_layers _ _ _ S), (so_layers _ _ _ S'). apply Permutation_app_comm.
  Qed.

  Lemma sum_assoc a b c ab bc r r' : sum_of a b ab -> sum_of ab c r -> sum_of b c bc -> sum_of a bc r' ->
    same_numbers r r' /\ layer_ids r = layer_ids r' /\ ev_acc r = ev_acc r'.
  Proof.
    intros [A1 A2 A3 A4 A5 A6 A7 A8 A9 A10 A11 A12 A13 A14 _ A16 A15] [B1 B2 B3 B4 B5 B6 B7 B8 B9 B10 B11 B12 B13 B14 _ B16 B15]
      [C1 C2 C3 C4 C5 C6 C7 C8 C9 C10 C11 C12 C13 C14 _ C16 C15] [D1 D2 D3 D4 D5 D6 D7 D8 D9 D10 D11 D12 D13 D14 _ D16 D15].
    split; [|split; [rewrite B16, A16, D16, C16; symmetry; apply app_assoc|now apply (chosen_assoc (ev_acc a) (ev_acc b) (ev_acc c) (ev_acc ab) (ev_acc bc))]].
    constructor; intros; try (rewrite B5, D5, A5, C5 || rewrite B6, D6, A6, C6 || rewrite B7, D7, A7, C7 || rewrite B8, D8, A8, C8 || rewrite B9, D9, A9, C9 || rewrite B10, D10, A10, C10 || rewrite B11, D11, A11, C11 || rewrite B12, D12, A12, C12 || rewrite B13, D13, A13, C13 || rewrite B14, D14, A14, C14; ring).
    - rewrite B1, D1, A1, C1. apply opt_add_assoc_q.
    - rewrite B2, D2, A2, C2. apply opt_add_assoc_q.
    - rewrite B3, D3, A3, C3. apply opt_add_assoc_z.
    - rewrite B4, D4, A4, C4. tauto.
  Qed.

  Lemma add_assoc_laws a b c ab bc r r' : well_formed a -> well_formed b -> well_formed c ->
    cme_add order a b = Ok ab -> cme_add order ab c = Ok r -> cme_add order' b c = Ok bc -> cme_add order' a bc = Ok r' ->
    same_numbers r r' /\ layer_ids r = layer_ids r' /\ ev_acc r = ev_acc r'.
  Proof.
    intros Wa Wb Wc H1 H2 H3 H4. destruct (add_sum _ order_perm _ _ _ Wa Wb H1) as [S1 W1]. destruct (add_sum _ order_perm' _ _ _ Wb Wc H3) as [S3 W3].
    destruct (add_sum _ order_perm _ _ _ W1 Wc H2) as [S2 _]. destruct (add_sum _ order_perm' _ _ _ Wa W3 H4) as [S4 _].
    now apply (sum_assoc a b c ab bc).
  Qed.

  (** Positive evaluations of one accelerator can always be added. *)
  Lemma add_total a b : well_formed a -> well_formed b -> positive a -> positive b -> ev_acc a = ev_acc b -> ev_acc a <> None ->
    exists r, cme_add order a b = Ok r /\ positive r /\ ev_acc r = ev_acc a.
  Proof.
    intros Wa Wb (P1 & P2 & P3 & P4) (Q1 & Q2 & Q3 & Q4) E N.
    destruct (proj2 (add_iff order order_perm a b Wa Wb)) as (r & Hr).
    { split; [unfold nonzero_sum; repeat split; intros H; lra|]. rewrite <- E. destruct (ev_acc a); [|congruence]. left. apply extends_refl. }
    exists r. split; [exact Hr|]. destruct (add_sum _ order_perm _ _ _ Wa Wb Hr) as [S _]. split.
    - unfold positive. rewrite (so_temporal _ _ _ S), (so_l0 _ _ _ S), (so_l1 _ _ _ S), (so_l2 _ _ _ S). repeat split; lra.
    - assert (C := so_acc _ _ _ S). apply chosen_among in C. destruct C as [->| ->]; [reflexivity|now symmetry].
  Qed.

  (** * The empty evaluation *)

  Lemma empty_wf : well_formed empty_cme.
  Proof. constructor; try apply NoDup_nil; try (intros op; tauto); cbn; try tauto; try discriminate; intros ? ? ? []. Qed.

  Lemma nonzero_empty_l a : nonzero_sum empty_cme a <-> nonzero a.
  Proof. unfold nonzero_sum, nonzero. cbn [ev_temporal ev_l0 ev_l1 ev_l2 empty_cme]. rewrite !Qplus_0_l. reflexivity. Qed.
  Lemma nonzero_empty_r a : nonzero_sum a empty_cme <-> nonzero a.
  Proof. unfold nonzero_sum, nonzero. cbn [ev_temporal ev_l0 ev_l1 ev_l2 empty_cme]. rewrite !Qplus_0_r. reflexivity. Qed.

  Lemma add_empty a : well_formed a -> ev_acc a <> None -> nonzero a ->
    (exists r, cme_add order empty_cme a = Ok r /\ same_numbers r a /\ layer_ids r = layer_ids a /\ ev_acc r = ev_acc a) /\
    (exists r, cme_add order a empty_cme = Ok r /\ same_numbers r a /\ layer_ids r = layer_ids a /\ ev_acc r = ev_acc a).
  Proof.
    intros Wa Na Nz. split.
    - destruct (proj2 (add_iff order order_perm empty_cme a empty_wf Wa)) as (r & Hr).
      { split; [now apply nonzero_empty_l|]. cbn. destruct (ev_acc a); [exact I|congruence]. }
      exists r. split; [exact Hr|]. destruct (add_sum _ order_perm _ _ _ empty_wf Wa Hr) as [[A1 A2 A3 A4 A5 A6 A7 A8 A9 A10 A11 A12 A13 A14 _ A16 A15] _].
      split; [|split; [exact A16|exact A15]].
      constructor; intros; try (rewrite A5 || rewrite A6 || rewrite A7 || rewrite A8 || rewrite A9 || rewrite A10 || rewrite A11 || rewrite A12 || rewrite A13 || rewrite A14; cbn [empty_cme ev_mac ev_mem ev_energy ev_on ev_off ev_ideal ev_temporal ev_l0 ev_l1 ev_l2]; ring).
      + rewrite A1. apply opt_eq_refl. + rewrite A2. apply opt_eq_refl. + apply A3. + rewrite A4. cbn. tauto.
    - destruct (proj2 (add_iff order order_perm a empty_cme Wa empty_wf)) as (r & Hr).
      { split; [now apply nonzero_empty_r|]. destruct (ev_acc a); [exact I|congruence]. }
      exists r. split; [exact Hr|]. destruct (add_sum _ order_perm _ _ _ Wa empty_wf Hr) as [[A1 A2 A3 A4 A5 A6 A7 A8 A9 A10 A11 A12 A13 A14 _ A16 A15] _].
      split; [|split; [rewrite A16; apply app_nil_r|]].
      + constructor; intros; try (rewrite A5 || rewrite A6 || rewrite A7 || rewrite A8 || rewrite A9 || rewrite A10 || rewrite A11 || rewrite A12 || rewrite A13 || rewrite A14; cbn [empty_cme ev_mac ev_mem ev_energy ev_on ev_off ev_ideal ev_temporal ev_l0 ev_l1 ev_l2]; ring).
        * rewrite A1. change (at2 (ev_bd empty_cme) op lv) with (@None Q). destruct (at2 (ev_bd a) op lv); [reflexivity|exact I].
        * rewrite A2. change (at3 (ev_further empty_cme) op lv k) with (@None Q). destruct (at3 (ev_further a) op lv k); [reflexivity|exact I].
        * rewrite A3. change (at3 (ev_words empty_cme) op lv k) with (@None Z). now destruct (at3 (ev_words a) op lv k).
        * rewrite A4. cbn. tauto.
      + destruct (ev_acc a) as [x|]; [exact A15|congruence].
  Qed.

  Lemma add_empty_empty : cme_add order empty_cme empty_cme = Err ZeroDivisionError.
  Proof.
    destruct (add_dicts order order_perm _ _ empty_wf empty_wf) as (bd & fu & wd & _ & _ & _ & _ & _ & _ & ->). reflexivity.
  Qed.
End Laws.
