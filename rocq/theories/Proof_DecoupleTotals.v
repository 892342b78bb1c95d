(** Proofs for C14: products, telescoping, and the whole mapping. *)
From Coq Require Import Lia Lqa QArith String.
From Verif Require Import Base Model_Pr Model_Alloc Model_Decouple Spec_Alloc Spec_Decouple
  Proof_AllocSearch Proof_AllocTile Proof_Decouple.
Local Open Scope result_scope.
Local Open Scope list_scope.
Local Open Scope Q_scope.

Lemma las_app a b : list_ascii_of_string (a ++ b) = (list_ascii_of_string a ++ list_ascii_of_string b)%list.
Proof. induction a; cbn; congruence. Qed.
Lemma las_inj a b : list_ascii_of_string a = list_ascii_of_string b -> a = b.
Proof. intros H. rewrite <- (string_of_list_ascii_of_string a), H. apply string_of_list_ascii_of_string. Qed.
Lemma app_tail_inj a b s : (a ++ s)%string = (b ++ s)%string -> a = b.
Proof.
  intros H. apply (f_equal list_ascii_of_string) in H. rewrite !las_app in H.
  apply app_inv_tail in H. now apply las_inj.
Qed.
Lemma r_ir_differ a b : (a ++ "_R")%string <> (b ++ "_IR")%string.
Proof.
  intros H. apply (f_equal list_ascii_of_string) in H. rewrite !las_app in H.
  apply (f_equal (@rev _)) in H. rewrite !rev_app_distr in H. cbn in H. discriminate.
Qed.

Section Totals.
  Variable ly : layer.
  Hypothesis Hly : derived_ok ly.

  Lemma dec_iterations before l o : decoupled ly before l o -> iterations_of o == iterations_of l.
  Proof.
    unfold iterations_of. induction 1 as [|before x l out _ _ IH|before x p a b l out _ _ Hb _ IH]; [reflexivity|..];
      cbn [map snd]; rewrite !qprod_cons; rewrite IH; [reflexivity|]. rewrite <- Hb. ring.
  Qed.

  Lemma decs_length before ls os : decoupled_levels ly before ls os -> length os = length ls.
  Proof. induction 1; cbn; congruence. Qed.

  Lemma decs_iterations before ls os : decoupled_levels ly before ls os ->
    Forall2 (fun l o => iterations_of o == iterations_of l) ls os /\
    iterations_of (concat os) == iterations_of (concat ls).
  Proof.
    induction 1 as [|before l ls o os Hd _ [IH1 IH2]]; [split; [constructor|reflexivity]|].
    apply dec_iterations in Hd. split; [constructor; assumption|]. cbn [concat].
    unfold iterations_of in *. rewrite !map_app, !qprod_app, Hd, IH2. reflexivity.
  Qed.

  Lemma extent_cons x l d : extent (x :: l) d == (if eqb (fst x) d then snd x else 1) * extent l d.
  Proof.
    unfold extent. cbn [filter]. destruct (eqb (fst x) d); cbn [map]; [rewrite qprod_cons; reflexivity|ring].
  Qed.

  Lemma dec_telescope rir p before l o : In p (keys (l_pr_loop ly)) ->
    operand_ok ly rir (before ++ l) -> no_tags ly l -> decoupled ly before l o ->
    extent o (p ++ "_R") * elements_along ly before p == elements_along ly (before ++ l) p.
  Proof.
    intros Hp HL Htag Hd. apply in_map_iff in Hp as ([p' ab] & E & Hp). cbn in E. subst p'.
    assert (Hk : In p (keys (l_pr_loop ly))) by (apply (in_map fst) in Hp; exact Hp).
    induction Hd as [before|before x l out Hno Hd IH|before x q a b l out Hr Ha Hb Hd IH].
    - rewrite app_nil_r. unfold extent. cbn. ring.
    - assert (Hassoc : before ++ x :: l = (before ++ [x]) ++ l) by (now rewrite <- app_assoc).
      rewrite Hassoc in *. rewrite extent_cons.
      destruct (Htag x p (or_introl eq_refl) Hk) as [Ht _]. rewrite eqb_neq by exact Ht.
      rewrite <- IH; [|exact HL|intros y r Hy; apply Htag; now right].
      change (elements_along ly (before ++ [x]) p) with (N ly p (before ++ [x])).
      assert (HLx : operand_ok ly rir (before ++ [x])) by (intros y Hy; apply HL, in_or_app; now left).
      rewrite (N_other ly Hly rir p ab Hp before x HLx); [unfold N; ring|].
      apply not_true_iff_false. intros Er. apply (Hno p). now apply (runs_over_related ly p ab).
    - assert (Hassoc : before ++ x :: l = (before ++ [x]) ++ l) by (now rewrite <- app_assoc).
      rewrite Hassoc in *. rewrite !extent_cons. cbn [fst snd].
      assert (HLx : operand_ok ly rir (before ++ [x])) by (intros y Hy; apply HL, in_or_app; now left).
      assert (HL0 : operand_ok ly rir before) by (intros y Hy; apply HLx, in_or_app; now left).
      rewrite (eqb_neq (q ++ "_IR")%string (p ++ "_R")%string) by (intros E; symmetry in E; now apply r_ir_differ in E).
      rewrite <- IH; [|exact HL|intros y r Hy; apply Htag; now right].
      destruct (eqb_spec (q ++ "_R")%string (p ++ "_R")%string) as [E|Hne].
      + apply app_tail_inj in E. subst q. rewrite Ha.
        assert (HN := N_ge_1 ly Hly rir p ab Hp before HL0). unfold N in HN. field. lra.
      + change (elements_along ly (before ++ [x]) p) with (N ly p (before ++ [x])).
        rewrite (N_other ly Hly rir p ab Hp before x HLx); [unfold N; ring|].
        apply not_true_iff_false. intros Er. apply Hne. f_equal.
        apply (dok_unshared _ Hly q p x); [easy|]. now apply (runs_over_related ly p ab).
  Qed.

  Lemma extent_app' l1 l2 d : extent (l1 ++ l2) d == extent l1 d * extent l2 d.
  Proof. unfold extent. now rewrite filter_app, map_app, qprod_app. Qed.

  Lemma decs_telescope rir p ls : In p (keys (l_pr_loop ly)) -> forall before os,
    operand_ok ly rir (before ++ concat ls) -> no_tags ly (concat ls) -> decoupled_levels ly before ls os ->
    forall k, extent (concat (firstn k os)) (p ++ "_R") * elements_along ly before p
      == elements_along ly (before ++ concat (firstn k ls)) p.
  Proof.
    intros Hp. induction ls as [|l ls IH]; intros before os HL Htag Hd k; inversion Hd as [|? ? ? o os' Hd1 Hd2]; subst.
    - rewrite firstn_nil. cbn [concat]. rewrite app_nil_r. unfold extent. cbn. ring.
    - destruct k as [|k].
      { cbn [firstn concat]. rewrite app_nil_r. unfold extent. cbn. ring. }
      cbn [firstn concat]. cbn [concat] in HL, Htag. rewrite app_assoc in HL. rewrite app_assoc.
      rewrite <- (IH (before ++ l) os' HL); [|intros x q Hx; apply Htag, in_or_app; now right|exact Hd2].
      rewrite extent_app'.
      rewrite <- (dec_telescope rir p before l o Hp); [ring| | |exact Hd1].
      + intros x Hx. apply HL, in_or_app. now left.
      + intros x q Hx. apply Htag, in_or_app. now left.
  Qed.

  Theorem decoupled_totals rir ls os : operand_ok ly rir (concat ls) -> no_tags ly (concat ls) ->
    decoupled_levels ly [] ls os ->
    Forall2 (fun l o => iterations_of o == iterations_of l) ls os /\
    iterations_of (concat os) == iterations_of (concat ls) /\
    forall p k, In p (keys (l_pr_loop ly)) ->
      extent (concat (firstn k os)) (p ++ "_R") == elements_along ly (concat (firstn k ls)) p.
  Proof.
    intros HL Htag Hd. destruct (decs_iterations _ _ _ Hd) as [H1 H2]. split; [exact H1|]. split; [exact H2|].
    intros p k Hp. rewrite <- (app_nil_l (concat (firstn k ls))).
    rewrite <- (decs_telescope rir p ls Hp [] os HL Htag Hd k).
    apply in_map_iff in Hp as ([p' ab] & E & Hp). cbn in E. subst p'.
    assert (HN := N_nil ly Hly [] p ab Hp). unfold N in HN. rewrite HN. ring.
  Qed.

  Theorem decouple_ok rir pr_ops mapping :
    (forall op, In op pr_ops -> exists dims ls, dget op rir = Some dims /\ dget op mapping = Some ls /\
       operand_ok ly dims (concat ls)) ->
    exists out, decouple_pr_loop ly rir pr_ops mapping = Ok out /\ keys out = keys mapping /\
      (forall op ls, dget op mapping = Some ls -> ~ In op pr_ops -> dget op out = Some ls) /\
      (forall op ls, dget op mapping = Some ls -> In op pr_ops ->
         exists ls', dget op out = Some ls' /\ decoupled_levels ly [] ls ls').
  Proof.
    unfold decouple_pr_loop. intros Hall.
    enough (G : forall ops m, keys m = keys mapping -> (forall op, In op ops -> In op pr_ops) ->
      exists out, rfold (fun m op => dims <- dgetr op rir ;; ls <- dgetr op mapping ;;
         ls' <- decouple_operand ly dims ls ;; Ok (dset op ls' m)) m ops = Ok out /\ keys out = keys mapping /\
      (forall op, ~ In op ops -> dget op out = dget op m) /\
      (forall op ls, dget op mapping = Some ls -> In op ops ->
         exists ls', dget op out = Some ls' /\ decoupled_levels ly [] ls ls')).
    { destruct (G pr_ops mapping eq_refl (fun _ H => H)) as (out & E & K & H1 & H2).
      exists out. split; [exact E|]. split; [exact K|]. split; [|exact H2].
      intros op ls Hg Hni. now rewrite H1. }
    induction ops as [|op ops IH]; intros m Km Hsub; cbn [rfold].
    - exists m. now repeat split.
    - destruct (Hall op (Hsub op (or_introl eq_refl))) as (dims & ls & E1 & E2 & HL).
      unfold dgetr. rewrite E1, E2. cbn [of_option rbind].
      destruct (decouple_operand_ok ly Hly dims ls HL) as (os & Eo & Hd). rewrite Eo. cbn [rbind].
      destruct (IH (dset op os m)) as (out & E & K & H1 & H2).
      + rewrite keys_dset_in; [exact Km|]. rewrite Km. eapply dget_Some_key. exact E2.
      + intros; apply Hsub; now right.
      + exists out. split; [exact E|]. split; [exact K|]. split.
        * intros op' Hni. rewrite H1 by (intros H; apply Hni; now right).
          apply dget_dset_neq. intros ->. apply Hni. now left.
        * intros op' ls0 Hg Hi. destruct (in_dec String.string_dec op' ops) as [Hin|Hni]; [now apply H2|].
          destruct Hi as [<-|Hi]; [|contradiction]. exists os. rewrite H1 by exact Hni. rewrite dget_dset_eq.
          assert (ls0 = ls) by congruence. subst. now split.
  Qed.
End Totals.
