(** Workload descriptions: what is accepted, and that sensible descriptions are built as written. *)
From Coq Require Import Ascii.
From Verif Require Import Base Model_Text Model_Alloc Model_Graph Model_Pr Model_Layer Model_MapFile Model_Workload Model_WorkFile
  Spec_Pr Spec_Loma Spec_Layer Spec_MapFile Spec_Workload Spec_WorkFile Proof_Pr Proof_Text Proof_MapFile Proof_Relevancy Proof_Elements Proof_Node Proof_Workload.
Open Scope string_scope.
Open Scope list_scope.
Open Scope Z_scope.

(** * Characters *)

Lemma space_in c : is_space c = true <-> In (nat_of_ascii c) [9; 10; 11; 12; 13; 28; 29; 30; 31; 32]%nat.
Proof.
  split.
  - destruct c as [[] [] [] [] [] [] [] []]; intros H; try discriminate H; vm_compute; tauto.
  - destruct c as [[] [] [] [] [] [] [] []]; intros H; try reflexivity; exfalso; cbv in H; intuition discriminate.
Qed.
Lemma word_in c : is_word c = true <-> In c (characters "abcdefghijklmnopqrstuvwxyzABCDEFGHIJKLMNOPQRSTUVWXYZ0123456789_").
Proof.
  split.
  - destruct c as [[] [] [] [] [] [] [] []]; intros H; try discriminate H; cbn; tauto.
  - intros H. repeat (destruct H as [<-|H]; [reflexivity|]). destruct H.
Qed.
Lemma spaces_every s : spaces s <-> every is_space s.
Proof. unfold spaces, every. split; intros H c I; apply space_in, H, I. Qed.
Lemma words_every s : wordlike s <-> every is_word s.
Proof. unfold wordlike, every. split; intros H c I; apply word_in, H, I. Qed.

Lemma skip_spec s : exists g, spaces g /\ s = (g ++ skip_space s)%string.
Proof.
  exists (fst (span is_space s)). unfold skip_space. destruct (span_spec is_space s) as (E & H & _). split; [now apply spaces_every|exact E].
Qed.
Lemma skip_run g r : spaces g -> stops is_space r -> skip_space (g ++ r)%string = r.
Proof. intros Hg Hr. unfold skip_space. rewrite span_run; [reflexivity|now apply spaces_every|exact Hr]. Qed.
Lemma space_not_word c : is_space c = true -> is_word c = false.
Proof. destruct c as [[] [] [] [] [] [] [] []]; intros H; try discriminate H; reflexivity. Qed.
Lemma stops_spaces g r : spaces g -> stops is_word r -> stops is_word (g ++ r)%string.
Proof.
  destruct g as [|c g]; intros Hg Hr; [exact Hr|]. apply spaces_every in Hg. apply every_cons in Hg. cbn. apply space_not_word. exact (proj1 Hg).
Qed.
(** Taking the blanks away: what is left is at its beginning. *)
Lemma skip_idem g r : spaces g -> skip_space (g ++ r)%string = skip_space r.
Proof.
  intros Hg. apply spaces_every in Hg. unfold skip_space. induction g as [|c g IH]; [reflexivity|].
  apply every_cons in Hg. cbn [String.append span]. rewrite (proj1 Hg). destruct (span is_space (g ++ r)) as [a b] eqn:E. cbn [snd]. rewrite <- IH by apply Hg. reflexivity.
Qed.

(** * Equations *)

Definition not_open (r : string) : Prop := match r with String "[" _ => False | _ => True end.
Definition good_sub (opt : bool) (s : string) : Prop := wordlike s /\ (opt = false -> s <> "").

Lemma not_open_eqb c r : Ascii.eqb c "["%char = false -> not_open (String c r).
Proof. destruct c as [[] [] [] [] [] [] [] []]; intros H; cbn; try exact Logic.I; discriminate H. Qed.

(** Reading from inside a bracket: a word, a closing bracket, and further subscripts. *)
Lemma brackets_read opt : forall s inside some r, brackets opt inside some s = Some r ->
  not_open r /\ exists subs, (forall x, In x subs -> good_sub opt x) /\
  if inside then exists w, wordlike w /\ (opt = false -> some = false -> w <> "") /\
    s = (w ++ "]" ++ String.concat "" (map subscript subs) ++ r)%string
  else s = (String.concat "" (map subscript subs) ++ r)%string.
Proof.
  induction s as [|c s IH]; intros inside some r H; cbn [brackets] in H.
  - destruct inside; [discriminate|]. injection H as <-. split; [exact Logic.I|]. exists []. split; [intros x []|reflexivity].
  - destruct inside.
    + destruct (Ascii.eqb_spec c "]"%char) as [->|N].
      * destruct (some || opt) eqn:So; [|discriminate]. apply IH in H. destruct H as (Nr & subs & G & E). split; [exact Nr|]. exists subs. split; [exact G|].
        exists "". split; [intros x []|]. split; [intros -> ->; discriminate|]. cbn. now rewrite E.
      * destruct (is_word c) eqn:W; [|discriminate]. apply IH in H. destruct H as (Nr & subs & G & w & Ww & _ & E). split; [exact Nr|]. exists subs. split; [exact G|].
        exists (String c w). split; [apply words_every, every_cons; split; [exact W|now apply words_every]|]. split; [discriminate|]. cbn [String.append]. now rewrite E.
    + destruct (Ascii.eqb_spec c "["%char) as [->|N].
      * apply IH in H. destruct H as (Nr & subs & G & w & Ww & Wn & E). split; [exact Nr|]. exists (w :: subs). split.
        { intros x [<-|I]; [split; [exact Ww|auto]|now apply G]. }
        cbn [map]. rewrite concat_cons. unfold subscript at 1. cbn [String.append]. rewrite !str_app_assoc. cbn [String.append]. now rewrite E.
      * injection H as <-. split; [apply not_open_eqb; now apply Ascii.eqb_neq|]. exists []. split; [intros x []|reflexivity].
Qed.
Lemma brackets_word opt w : forall some r, wordlike w -> (opt = false -> some = false -> w <> "") ->
  brackets opt true some (w ++ "]" ++ r)%string = brackets opt false false r.
Proof.
  induction w as [|c w IH]; intros some r W N; cbn [String.append brackets].
  - cbn. destruct opt, some; try reflexivity. destruct (N eq_refl eq_refl eq_refl).
  - apply words_every, every_cons in W. destruct W as [Wc W]. rewrite Wc.
    replace (Ascii.eqb c "]"%char) with false.
    + apply IH; [now apply words_every|discriminate].
    + symmetry. destruct c as [[] [] [] [] [] [] [] []]; try reflexivity; discriminate Wc.
Qed.
Lemma brackets_run opt subs : forall r, (forall x, In x subs -> good_sub opt x) -> not_open r ->
  brackets opt false false (String.concat "" (map subscript subs) ++ r)%string = Some r.
Proof.
  induction subs as [|x subs IH]; intros r G N.
  - cbn [map String.concat String.append]. destruct r as [|c r]; [reflexivity|]. cbn [brackets]. destruct (Ascii.eqb_spec c "["%char) as [->|]; [destruct N|reflexivity].
  - cbn [map]. rewrite concat_cons. unfold subscript at 1. cbn [String.append brackets]. rewrite Ascii.eqb_refl. rewrite !str_app_assoc.
    rewrite brackets_word; [apply IH; [intros y Hy; apply G; now right|exact N]|apply (G x); now left|]. intros E _. now apply (G x (or_introl eq_refl)).
Qed.
Lemma subscripts_iff opt s r : subscripts opt s = Some r <->
  not_open r /\ exists subs, subs <> [] /\ (forall x, In x subs -> good_sub opt x) /\ s = (String.concat "" (map subscript subs) ++ r)%string.
Proof.
  split.
  - intros H. assert (B : brackets opt false false s = Some r /\ not_open s -> False).
    { intros (_ & N). destruct s as [|c s]; [discriminate|]. unfold subscripts in H. destruct c as [[] [] [] [] [] [] [] []]; try discriminate H. exact N. }
    assert (B2 : brackets opt false false s = Some r).
    { destruct s as [|c s]; [discriminate|]. unfold subscripts in H. destruct c as [[] [] [] [] [] [] [] []]; try discriminate H. exact H. }
    destruct (brackets_read opt s false false r B2) as (Nr & subs & G & E). split; [exact Nr|]. exists subs. split; [|split; assumption].
    intros ->. apply B. split; [exact B2|]. cbn in E. now rewrite E.
  - intros (Nr & subs & Ne & G & ->). assert (B := brackets_run opt subs r G Nr). destruct subs as [|x subs]; [congruence|]. cbn [map] in *. rewrite concat_cons in *. exact B.
Qed.
Lemma operand_iff opt s r : operand_prefix opt s = Some r <->
  not_open r /\ exists w c, wr_name w = String c "" /\ wordlike (String c "") /\ wr_subs w <> [] /\ (forall x, In x (wr_subs w) -> good_sub opt x) /\
    s = (operand_text w ++ r)%string.
Proof.
  unfold operand_prefix. split.
  - destruct s as [|c s]; [discriminate|]. destruct (is_word c) eqn:W; [|discriminate]. intros H. apply subscripts_iff in H. destruct H as (Nr & subs & Ne & G & ->).
    split; [exact Nr|]. exists (mkWritten (String c "") subs), c. repeat split; try assumption.
    + apply words_every, every_cons. split; [exact W|apply every_nil].
    + apply (G x); assumption.
    + apply (G x); assumption.
  - intros (Nr & w & c & En & Wc & Ne & G & ->). unfold operand_text. rewrite En. cbn [String.append]. apply words_every, every_cons in Wc. rewrite (proj1 Wc).
    apply subscripts_iff. split; [exact Nr|]. exists (wr_subs w). auto.
Qed.

Lemma not_open_spaces g r : spaces g -> not_open r -> not_open (g ++ r)%string.
Proof.
  destruct g as [|c g]; intros Hg Hr; [exact Hr|]. apply not_open_eqb. apply spaces_every, every_cons in Hg.
  destruct c as [[] [] [] [] [] [] [] []]; try reflexivity; destruct Hg as [Hc _]; discriminate Hc.
Qed.
Lemma operand_start w c r : wr_name w = String c "" -> wordlike (String c "") -> stops is_space (operand_text w ++ r)%string.
Proof. intros E W. unfold operand_text. rewrite E, str_app_assoc. apply word_stops_space; [now apply words_every|discriminate]. Qed.

Lemma equation_iff s : equation_regex s = true <-> exists e, s = equation_text e /\ equation_form e.
Proof.
  split.
  - intros H. unfold equation_regex in H. destruct s as [|c s]; [discriminate|].
    assert (Ec : c = "O"%char) by (destruct c as [[] [] [] [] [] [] [] []]; try discriminate H; reflexivity). subst c. cbn beta iota in H.
    destruct (subscripts false s) as [r|] eqn:S1; [|discriminate]. cbn zeta in H. apply subscripts_iff in S1. destruct S1 as (_ & subs & Ne & G & ->).
    destruct (skip_spec r) as (g1 & G1 & E1). set (r1 := skip_space r) in *. clearbody r1. subst r.
    assert (A : exists a r2, (a = "=" \/ exists g, spaces g /\ a = ("+" ++ g ++ "=")%string) /\ r1 = (a ++ r2)%string /\
      match operand_prefix false (skip_space r2) with
              | None => false
              | Some r =>
                  match skip_space r with
                  | String o r =>
                      (Ascii.eqb o "*" || Ascii.eqb o "+") &&
                      match operand_prefix true (skip_space r) with Some r => eqb (skip_space r) "" | None => false end
                  | EmptyString => false
                  end
              end = true).
    { destruct r1 as [|p r1]; [discriminate|]. destruct (Ascii.eqb_spec p "+"%char) as [->|Np].
      - cbn beta iota in H. destruct (skip_spec r1) as (g & Hg & E). destruct (skip_space r1) as [|q r2]; [discriminate|].
        assert (q = "="%char) by (destruct q as [[] [] [] [] [] [] [] []]; try discriminate H; reflexivity). subst q. cbn beta iota in H.
        exists ("+" ++ g ++ "=")%string, r2. split; [right; eauto|]. split; [|exact H]. cbn [String.append]. f_equal. rewrite str_app_assoc. exact E.
      - assert (H' : match String p r1 with String "=" r => match operand_prefix false (skip_space r) with
              | None => false
              | Some r =>
                  match skip_space r with
                  | String o r =>
                      (Ascii.eqb o "*" || Ascii.eqb o "+") &&
                      match operand_prefix true (skip_space r) with Some r => eqb (skip_space r) "" | None => false end
                  | EmptyString => false
                  end
              end | _ => false end = true).
        { destruct p as [[] [] [] [] [] [] [] []]; try discriminate H; try exact H; destruct (Np eq_refl). }
        assert (p = "="%char) by (destruct p as [[] [] [] [] [] [] [] []]; try discriminate H'; reflexivity). subst p. exists "=", r1. split; [now left|]. split; [reflexivity|exact H']. }
    destruct A as (a & r2 & Ha & -> & H2). clear H. destruct (skip_spec r2) as (g2 & G2 & E2). set (r3 := skip_space r2) in *. clearbody r3. subst r2.
    destruct (operand_prefix false r3) as [r4|] eqn:O1; [|discriminate]. apply operand_iff in O1. destruct O1 as (_ & w1 & c1 & N1 & W1 & Ne1 & Gs1 & ->).
    destruct (skip_spec r4) as (g3 & G3 & E3). set (r5 := skip_space r4) in *. clearbody r5. subst r4. destruct r5 as [|o r6]; [discriminate|].
    apply andb_prop in H2. destruct H2 as (Ho & H3). apply orb_prop in Ho.
    destruct (skip_spec r6) as (g4 & G4 & E4). set (r7 := skip_space r6) in *. clearbody r7. subst r6.
    destruct (operand_prefix true r7) as [r8|] eqn:O2; [|discriminate]. apply operand_iff in O2. destruct O2 as (_ & w2 & c2 & N2 & W2 & Ne2 & Gs2 & ->).
    destruct (skip_spec r8) as (g5 & G5 & E5). destruct (eqb_spec (skip_space r8) "") as [E6|]; [|discriminate]. rewrite E6, str_app_nil in E5. subst r8.
    exists (mkWE (mkWritten "O" subs) g1 a g2 w1 [mkFactor g3 (String o "") g4 w2] g5). split.
    + unfold equation_text, factor_text. cbn [we_out we_gap1 we_assign we_gap2 we_first we_rest we_end map fa_before fa_op fa_after fa_operand]. rewrite concat_cons. change (operand_text (mkWritten "O" subs)) with (String "O" (String.concat "" (map subscript subs))). cbn [map String.concat].
      rewrite !str_app_assoc. cbn [String.append]. reflexivity.
    + unfold equation_form. cbn [we_out we_gap1 we_assign we_gap2 we_first we_rest we_end wr_name wr_subs].
      split; [reflexivity|]. split; [split; [exact Ne|]; intros x I; destruct (G x I) as (A & B); split; auto|].
      split; [exact G1|]. split; [exact G2|]. split; [exact G5|]. split; [exact Ha|]. split; [eauto|]. split; [split; [exact Ne1|]; intros x I; destruct (Gs1 x I) as (A & B); split; auto|].
      eexists. split; [reflexivity|]. cbn [fa_before fa_op fa_after fa_operand]. split; [exact G3|]. split; [exact G4|]. split.
      { destruct Ho as [Ho|Ho]; apply Ascii.eqb_eq in Ho; subst o; auto. }
      split; [eauto|]. split; [exact Ne2|]. intros x I. apply (Gs2 x I).
  - intros (e & -> & On & (One & Os) & G1 & G2 & G5 & As & (c1 & N1 & W1) & (Ne1 & Gs1) & f & Er & G3 & G4 & Fo & (c2 & N2 & W2) & Ne2 & Gs2).
    unfold equation_text. rewrite Er. cbn [map]. rewrite concat_cons. unfold factor_text. assert (Eo : operand_text (we_out e) = String "O" (String.concat "" (map subscript (wr_subs (we_out e))))) by (unfold operand_text; now rewrite On).
    rewrite Eo. clear Eo. change (String.concat "" []) with "". rewrite !str_app_assoc. cbn [String.append].
    set (t2 := (operand_text (fa_operand f) ++ we_end e)%string).
    set (t1 := (operand_text (we_first e) ++ fa_before f ++ fa_op f ++ fa_after f ++ t2)%string).
    unfold equation_regex.
    assert (No : forall g r, spaces g -> (exists u, r = String "=" u \/ r = String "+" u \/ r = String "*" u) -> not_open (g ++ r)%string).
    { intros g r Hg (u & [->|[->| ->]]); apply not_open_spaces; try exact Hg; exact Logic.I. }
    assert (Last : match operand_prefix true (skip_space (fa_after f ++ t2)) with Some r => eqb (skip_space r) "" | None => false end = true).
    { rewrite skip_run; [|exact G4|eapply operand_start; eassumption].
      assert (O2 : operand_prefix true t2 = Some (we_end e)).
      { apply operand_iff. split.
        - rewrite <- (str_app_nil (we_end e)). apply not_open_spaces; [exact G5|exact Logic.I].
        - exists (fa_operand f), c2. repeat (split; [assumption|]). split; [|reflexivity]. intros x I. split; [now apply Gs2|discriminate]. }
      rewrite O2. rewrite <- (str_app_nil (we_end e)), skip_run; [reflexivity|exact G5|exact Logic.I]. }
    assert (Mid : match operand_prefix false (skip_space (we_gap2 e ++ t1)) with
              | None => false
              | Some r =>
                  match skip_space r with
                  | String o r =>
                      (Ascii.eqb o "*" || Ascii.eqb o "+") &&
                      match operand_prefix true (skip_space r) with Some r => eqb (skip_space r) "" | None => false end
                  | EmptyString => false
                  end
              end = true).
    { rewrite skip_run; [|exact G2|eapply operand_start; eassumption].
      assert (O1 : operand_prefix false t1 = Some (fa_before f ++ fa_op f ++ fa_after f ++ t2)%string).
      { apply operand_iff. split.
        - apply No; [exact G3|]. destruct Fo as [->| ->]; eexists; cbn [String.append]; eauto.
        - exists (we_first e), c1. repeat (split; [assumption|]). split; [|reflexivity]. intros x I. split; [now apply Gs1|]. intros _. now apply Gs1. }
      rewrite O1. rewrite skip_run; [|exact G3|destruct Fo as [->| ->]; reflexivity].
      destruct Fo as [->| ->]; cbn [String.append]; rewrite Last; reflexivity. }
    assert (S1 : subscripts false (String.concat "" (map subscript (wr_subs (we_out e))) ++ we_gap1 e ++ we_assign e ++ we_gap2 e ++ t1)%string = Some (we_gap1 e ++ we_assign e ++ we_gap2 e ++ t1)%string).
    { apply subscripts_iff. split.
      - apply No; [exact G1|]. destruct As as [->|(g & _ & ->)]; eexists; cbn [String.append]; eauto.
      - exists (wr_subs (we_out e)). split; [exact One|]. split; [|reflexivity]. intros x I. destruct (Os x I). split; auto. }
    cbn beta iota. rewrite S1. cbn zeta. rewrite skip_run; [|exact G1|destruct As as [->|(g & _ & ->)]; reflexivity].
    destruct As as [->|(g & Hg & ->)]; cbn [String.append]; [exact Mid|]. rewrite str_app_assoc. cbn [String.append]. rewrite skip_run; [exact Mid|exact Hg|reflexivity].
Qed.

(** * Relations *)

Lemma term_parsed s c d r : parse_term s = Some (c, d, r) -> exists t, term_form t /\ s = (t ++ r)%string.
Proof.
  unfold parse_term. destruct (span_spec is_word s) as (E & W & _). destruct (span is_word s) as [w u]. cbn [fst snd] in *.
  destruct (eqb_spec w "") as [|N]; [discriminate|]. destruct (skip_spec u) as (g & Hg & Eu).
  intros H. destruct (match skip_space u with String "*" _ => true | _ => false end) eqn:St.
  - destruct (skip_space u) as [|x v] eqn:Es; [discriminate|]. assert (x = "*"%char) by (destruct x as [[] [] [] [] [] [] [] []]; try discriminate St; reflexivity). subst x.
    destruct (skip_spec v) as (g' & Hg' & Ev). destruct (span_spec is_word (skip_space v)) as (E2 & W2 & _). destruct (span is_word (skip_space v)) as [w' u']. cbn [fst snd] in *.
    destruct (eqb_spec w' "") as [|N2]; [discriminate|]. injection H as <- <- <-. exists (w ++ g ++ "*" ++ g' ++ w')%string. split.
    + right. exists w, g, g', w'. repeat split; try assumption; now apply words_every.
    + rewrite E, Eu, Ev, E2. rewrite ?str_app_assoc. cbn [String.append]. reflexivity.
  - assert (H' : Some (None (A:=string), w, u) = Some (c, d, r)).
    { destruct (skip_space u) as [|x v]; [exact H|]. destruct x as [[] [] [] [] [] [] [] []]; try exact H; discriminate St. }
    injection H' as _ _ <-. exists w. split; [left; split; [now apply words_every|exact N]|exact E].
Qed.
Lemma term_run t r : term_form t -> stops is_word r -> (match skip_space r with String "*" _ => False | _ => True end) ->
  (exists c d, parse_term (t ++ r)%string = Some (c, d, r)) /\ stops is_space (t ++ r)%string.
Proof.
  intros [(W & N)|(w & g & g' & d & -> & W & N & Hg & Hg' & Wd & Nd)] Hr Hs; unfold parse_term.
  - split; [|apply word_stops_space; [now apply words_every|exact N]]. rewrite span_run; [|now apply words_every|exact Hr].
    destruct (eqb_spec t ""); [congruence|]. exists None, t. destruct (skip_space r) as [|x v]; [reflexivity|]. destruct x as [[] [] [] [] [] [] [] []]; try reflexivity. destruct Hs.
  - split; [|rewrite ?str_app_assoc; apply word_stops_space; [now apply words_every|exact N]]. rewrite ?str_app_assoc.
    rewrite span_run; [|now apply words_every|apply stops_spaces; [exact Hg|reflexivity]]. destruct (eqb_spec w ""); [congruence|].
    rewrite skip_run; [|exact Hg|reflexivity]. cbn [String.append]. rewrite ?str_app_assoc. rewrite skip_run; [|exact Hg'|apply word_stops_space; [now apply words_every|exact Nd]].
    rewrite span_run; [|now apply words_every|exact Hr]. destruct (eqb_spec d ""); [congruence|]. eauto.
Qed.
Lemma relation_iff s : (exists x, parse_relation s = Some x) <-> relation_form s.
Proof.
  split.
  - intros (x & H). unfold parse_relation in H. destruct (span_spec is_word s) as (E & W & _). destruct (span is_word s) as [d u]. cbn [fst snd] in *.
    destruct (eqb_spec d "") as [|N]; [discriminate|]. destruct (skip_spec u) as (g1 & G1 & E1). destruct (skip_space u) as [|a r1]; [discriminate|].
    assert (a = "="%char) by (destruct a as [[] [] [] [] [] [] [] []]; try discriminate H; reflexivity). subst a. cbn beta iota in H.
    destruct (skip_spec r1) as (g2 & G2 & E2). destruct (parse_term (skip_space r1)) as [[[c2 d2] r2]|] eqn:T; [|discriminate]. apply term_parsed in T. destruct T as (t & Ft & Et). rewrite Et in E2.
    destruct (skip_spec r2) as (g3 & G3 & E3). destruct (skip_space r2) as [|a r3]; [discriminate|].
    assert (a = "+"%char) by (destruct a as [[] [] [] [] [] [] [] []]; try discriminate H; reflexivity). subst a. cbn beta iota in H.
    destruct (skip_spec r3) as (g4 & G4 & E4). destruct (parse_term (skip_space r3)) as [[[c3 d3] r4]|] eqn:T; [|discriminate]. apply term_parsed in T. destruct T as (t' & Ft' & Et'). rewrite Et' in E4.
    destruct (eqb r4 "" || eqb r4 (String (ascii_of_nat 10) "")) eqn:Z; [|discriminate].
    exists d, g1, g2, t, g3, g4, t', r4. split.
    + rewrite E, E1, E2, E3, E4. rewrite ?str_app_assoc. cbn [String.append]. rewrite ?str_app_assoc. cbn [String.append]. reflexivity.
    + split; [now apply words_every|]. split; [exact N|]. repeat (split; [assumption|]). apply orb_prop in Z. destruct Z as [Z|Z]; [left|right]; [destruct (eqb_spec r4 "") as [Q|]|destruct (eqb_spec r4 (String (ascii_of_nat 10) "")) as [Q|]]; try discriminate; exact Q.
  - intros (d & g1 & g2 & t & g3 & g4 & t' & z & -> & W & N & G1 & G2 & Ft & G3 & G4 & Ft' & Hz).
    unfold parse_relation. rewrite span_run; [|now apply words_every|apply stops_spaces; [exact G1|reflexivity]]. destruct (eqb_spec d ""); [congruence|].
    rewrite skip_run; [|exact G1|reflexivity]. cbn [String.append].
    set (r3 := (g3 ++ String "+" (g4 ++ t' ++ z))%string).
    assert (K3 : skip_space r3 = String "+" (g4 ++ t' ++ z)%string) by (apply skip_run; [exact G3|reflexivity]).
    destruct (term_run t r3 Ft) as ((c2 & d2 & E2) & S2); [apply stops_spaces; [exact G3|reflexivity]|rewrite K3; exact Logic.I|].
    rewrite skip_run; [|exact G2|exact S2]. rewrite E2, K3.
    destruct (term_run t' z Ft') as ((c3 & d3 & E3) & S3); [destruct Hz as [->| ->]; reflexivity|destruct Hz as [->| ->]; exact Logic.I|].
    rewrite skip_run; [|exact G4|exact S3]. rewrite E3. destruct Hz as [->| ->]; cbn; eauto.
Qed.

(** * Acceptance *)

Lemma field_default {A} (o : option A) m : field o m (default m o).
Proof. destruct o; [left; reflexivity|right; auto]. Qed.

Lemma same_length_one {A} (x : option (option (list A))) (dims : option (option (list string))) :
  (Model_WorkFile.same_length (default None x) (default None dims) = Ok true <-> one_each x dims) /\
  (forall e, Model_WorkFile.same_length (default None x) (default None dims) = Err e <->
     e = TypeError /\ (dims = None \/ dims = Some None) /\ exists l, x = Some (Some l)).
Proof.
  unfold Model_WorkFile.same_length, one_each. destruct x as [[l|]|]; cbn [default].
  - destruct dims as [[ds|]|]; cbn [default of_option rbind].
    + split.
      * split.
        { intros H l' Q. injection Q as <-. exists ds. split; [reflexivity|]. apply Nat.eqb_eq. congruence. }
        { intros H. destruct (H l eq_refl) as (ds' & Q & E). injection Q as <-. rewrite E, Nat.eqb_refl. reflexivity. }
      * intros e. split; [discriminate|]. intros (_ & [Q|Q] & _); discriminate.
    + split; [split; [discriminate|intros H; destruct (H l eq_refl) as (ds & Q & _); discriminate]|].
      intros e. split; [intros Q; injection Q as <-; eauto 6|]. intros (-> & _). reflexivity.
    + split; [split; [discriminate|intros H; destruct (H l eq_refl) as (ds & Q & _); discriminate]|].
      intros e. split; [intros Q; injection Q as <-; eauto 6|]. intros (-> & _). reflexivity.
  - split; [split; [intros _ l Q; discriminate|reflexivity]|]. intros e. split; [discriminate|intros (_ & _ & l & Q); discriminate].
  - split; [split; [intros _ l Q; discriminate|reflexivity]|]. intros e. split; [discriminate|intros (_ & _ & l & Q); discriminate].
Qed.

Lemma validate_layer_ok r : validate_layer (normalise_layer r) = Ok true <->
  one_each (rl_padding r) (rl_pr_dims r) /\ one_each (rl_pr_sizes r) (rl_pr_dims r).
Proof.
  unfold validate_layer, normalise_layer. cbn [ld_padding ld_pr_dims ld_pr_sizes].
  destruct (same_length_one (rl_padding r) (rl_pr_dims r)) as (H1 & _). destruct (same_length_one (rl_pr_sizes r) (rl_pr_dims r)) as (H2 & _).
  destruct (Model_WorkFile.same_length (default None (rl_padding r)) _) as [b1|e]; cbn [rbind].
  - destruct (Model_WorkFile.same_length (default None (rl_pr_sizes r)) _) as [b2|e]; cbn [rbind].
    + rewrite <- H1, <- H2. destruct b1, b2; cbn; split; try tauto; try discriminate; intros (A & B); try discriminate A; discriminate B.
    + split; [discriminate|]. intros (_ & B). apply H2 in B. discriminate.
  - split; [discriminate|]. intros (A & _). apply H1 in A. discriminate.
Qed.
Lemma validate_layer_err r e : validate_layer (normalise_layer r) = Err e <-> e = TypeError /\ unnamed_dims r.
Proof.
  unfold validate_layer, normalise_layer, unnamed_dims. cbn [ld_padding ld_pr_dims ld_pr_sizes].
  destruct (same_length_one (rl_padding r) (rl_pr_dims r)) as (_ & H1). destruct (same_length_one (rl_pr_sizes r) (rl_pr_dims r)) as (_ & H2).
  destruct (Model_WorkFile.same_length (default None (rl_padding r)) _) as [b1|e1]; cbn [rbind].
  - destruct (Model_WorkFile.same_length (default None (rl_pr_sizes r)) _) as [b2|e2]; cbn [rbind].
    + split; [discriminate|]. intros (-> & D & [L|L]).
      * assert (X := proj2 (H1 TypeError) (conj eq_refl (conj D L))). discriminate.
      * assert (X := proj2 (H2 TypeError) (conj eq_refl (conj D L))). discriminate.
    + rewrite H2. split; [tauto|]. intros (-> & D & [L|L]); [|tauto].
      assert (X := proj2 (H1 TypeError) (conj eq_refl (conj D L))). discriminate.
  - destruct (proj1 (H1 e1) eq_refl) as (-> & D & L). split; [intros Q; injection Q as <-; tauto|]. intros (-> & _). reflexivity.
Qed.

Lemma schema_ok r : layer_schema (normalise_layer r) = true <->
  (exists t, rl_type r = Some t /\ In t allowed_operators) /\
  (exists e, rl_equation r = Some (equation_text e) /\ equation_form e) /\
  (forall l s, rl_relations r = Some l -> In s l -> relation_form s) /\
  (exists d, rl_precision r = Some d /\ In "O" (keys d) /\ In "O_final" (keys d) /\ forall k, In k (keys d) -> In k ["I"; "W"; "O"; "O_final"]) /\
  (forall d k, rl_source r = Some d -> In k (keys d) -> k = "I" \/ k = "W") /\
  (forall l p, rl_padding r = Some (Some l) -> In p l -> length p = 2%nat).
Proof.
  unfold layer_schema, normalise_layer. cbn [ld_type ld_equation ld_relations ld_precision ld_source ld_padding].
  rewrite !Bool.andb_true_iff, !forallb_forall, !memb_In, equation_iff.
  split.
  - intros (((((Ht & (e & Ee & He)) & Hr) & (Hk & Ho) & Hf) & Hs) & Hp). split; [|split; [|split; [|split; [|split]]]].
    + destruct (rl_type r) as [t|]; [eauto|]. cbn in Ht. intuition discriminate.
    + exists e. split; [|exact He]. destruct (rl_equation r) as [q|]; cbn [default] in Ee; [now rewrite Ee|].
      exfalso. assert (X : equation_regex "" = true) by (apply equation_iff; eauto). discriminate X.
    + intros l s El I. rewrite El in Hr. cbn [default] in Hr. apply relation_iff. specialize (Hr s I). destruct (parse_relation s); [eauto|discriminate].
    + destruct (rl_precision r) as [d|]; cbn [default] in *; [|destruct Ho]. exists d. split; [reflexivity|]. split; [exact Ho|]. split; [exact Hf|]. intros k I. apply memb_In. now apply Hk.
    + intros d k Ed I. rewrite Ed in Hs. cbn [default] in Hs. specialize (Hs k I). apply memb_In in Hs. destruct Hs as [<-|[<-|[]]]; auto.
    + intros l p El I. rewrite El in Hp. cbn [default] in Hp. rewrite forallb_forall in Hp. apply Nat.eqb_eq. now apply Hp.
  - intros ((t & Et & It) & (e & Ee & He) & Hr & (d & Ed & Ho & Hf & Hk) & Hs & Hp). rewrite Et, Ee, Ed. cbn [default].
    split; [split; [split; [split; [split; [exact It|eauto]|]|split; [split|]]|]|].
    + intros s I. destruct (rl_relations r) as [l|]; cbn [default] in I; [|destruct I]. specialize (Hr l s eq_refl I). apply relation_iff in Hr. destruct Hr as (x & ->). reflexivity.
    + intros k I. apply memb_In. now apply Hk.
    + exact Ho.
    + exact Hf.
    + intros k I. destruct (rl_source r) as [d'|]; cbn [default] in I; [|destruct I]. apply memb_In. destruct (Hs d' k eq_refl I) as [->| ->]; cbn; auto.
    + destruct (rl_padding r) as [[l|]|]; cbn [default]; try reflexivity. apply forallb_forall. intros p I. apply Nat.eqb_eq. now apply (Hp l).
Qed.
Lemma proper_iff r : proper_layer r <-> layer_schema (normalise_layer r) = true /\ validate_layer (normalise_layer r) = Ok true.
Proof.
  rewrite schema_ok, validate_layer_ok. split.
  - intros []. split; [repeat (split; [assumption|]); assumption|split; assumption].
  - intros ((A & B & C & D & E & F) & G & H). constructor; assumption.
Qed.

Lemma validated_layers file :
  (exists bs, rmap validate_layer (map normalise_layer file) = Ok bs /\ (forall r, In r file -> ~ unnamed_dims r) /\
     (forallb (fun b => b) bs = true <-> forall r, In r file -> validate_layer (normalise_layer r) = Ok true)) \/
  (rmap validate_layer (map normalise_layer file) = Err TypeError /\ exists r, In r file /\ unnamed_dims r).
Proof.
  induction file as [|r file IH]; cbn [map rmap].
  - left. exists []. split; [reflexivity|]. split; [intros r []|]. split; [intros _ r []|reflexivity].
  - destruct (validate_layer (normalise_layer r)) as [b|e] eqn:V; cbn [rbind].
    + destruct IH as [(bs & -> & N & B)|(-> & x & I & U)]; cbn [rbind].
      * left. exists (b :: bs). split; [reflexivity|]. split.
        { intros x [<-|I]; [|now apply N]. intros U. assert (X := proj2 (validate_layer_err r TypeError) (conj eq_refl U)). congruence. }
        cbn [forallb]. rewrite Bool.andb_true_iff, B. split.
        { intros (-> & H) x [<-|I]; [exact V|now apply H]. }
        { intros H. split; [|intros x I; apply H; now right]. specialize (H r (or_introl eq_refl)). congruence. }
      * right. split; [reflexivity|]. exists x. split; [now right|exact U].
    + right. apply validate_layer_err in V. destruct V as (-> & U). split; [reflexivity|]. exists r. split; [now left|exact U].
Qed.

Lemma file_accepted file :
  (parse_workload_data file = Ok (map normalise_layer file) <-> forall r, In r file -> proper_layer r) /\
  (forall data, parse_workload_data file = Ok data -> data = map normalise_layer file) /\
  (forall e, parse_workload_data file = Err e <->
     (e = TypeError /\ exists r, In r file /\ unnamed_dims r) \/
     (e = ValueError /\ (forall r, In r file -> ~ unnamed_dims r) /\ exists r, In r file /\ ~ proper_layer r)).
Proof.
  unfold parse_workload_data, validate_workload. cbn zeta.
  destruct (validated_layers file) as [(bs & -> & N & B)|(-> & x & I & U)]; cbn [rbind].
  - assert (Q : forallb layer_schema (map normalise_layer file) && forallb (fun b => b) bs = true <-> forall r, In r file -> proper_layer r).
    { rewrite Bool.andb_true_iff, B, forallb_forall. split.
      - intros (A & C) r I. apply proper_iff. split; [apply A; now apply List.in_map|now apply C].
      - intros H. split; [|intros r I; apply proper_iff; auto]. intros d I. apply in_map_iff in I. destruct I as (r & <- & I). apply proper_iff; auto. }
    destruct (forallb layer_schema (map normalise_layer file) && forallb (fun b => b) bs) eqn:E.
    + split; [tauto|]. split; [congruence|]. intros e. split; [discriminate|]. intros [(_ & r & I & U)|(_ & _ & r & I & P)]; [destruct (N r I U)|]. destruct P. now apply (proj1 Q eq_refl).
    + split; [split; [discriminate|intros H; apply Q in H; discriminate]|]. split; [discriminate|]. intros e. split.
      * intros X. injection X as <-. right. split; [reflexivity|]. split; [exact N|].
        assert (F : forallb (fun r => layer_schema (normalise_layer r) && match validate_layer (normalise_layer r) with Ok b => b | Err _ => false end) file = false).
        { apply Bool.not_true_is_false. intros F. rewrite forallb_forall in F. assert (X : false = true) by (apply Q; intros r I; apply proper_iff; specialize (F r I); apply andb_prop in F; destruct F as (F1 & F2); split; [exact F1|]; destruct (validate_layer (normalise_layer r)); congruence). discriminate X. }
        clear -F. induction file as [|r l IH]; [discriminate|]. cbn [forallb] in F. apply Bool.andb_false_iff in F. destruct F as [F|F].
        { exists r. split; [now left|]. intros P. apply proper_iff in P. destruct P as (P1 & P2). rewrite P1, P2 in F. discriminate. }
        { destruct (IH F) as (x & I & P). exists x. split; [now right|exact P]. }
      * intros [(_ & r & I & U)|(-> & _)]; [destruct (N r I U)|reflexivity].
  - split; [split; [discriminate|]|].
    { intros H. exfalso. specialize (H x I). apply proper_iff in H. destruct H as (_ & H). assert (X := proj2 (validate_layer_err x TypeError) (conj eq_refl U)). congruence. }
    split; [discriminate|]. intros e. split; [intros Q; injection Q as <-; left; eauto|]. intros [(-> & _)|(_ & N & _)]; [reflexivity|]. destruct (N x I U).
Qed.

Lemma normalised_read r : proper_layer r -> layer_read r (normalise_layer r).
Proof.
  intros P. unfold layer_read, normalise_layer. cbn [ld_id ld_name ld_type ld_equation ld_relations ld_dims ld_sizes ld_precision ld_source ld_pr_dims ld_pr_sizes ld_padding].
  destruct (pl_type r P) as (t & -> & _). destruct (pl_equation r P) as (e & -> & _). destruct (pl_precision r P) as (d & -> & _). cbn [default].
  split; [apply field_default|]. split; [apply field_default|]. split; [reflexivity|]. split; [reflexivity|]. split; [apply field_default|]. split; [apply field_default|]. split; [apply field_default|]. split; [reflexivity|].
  split; [apply field_default|]. split; [apply field_default|]. split; apply field_default.
Qed.
(** C76: exactly the proper files are accepted, and read as written. *)
Lemma accepted_files file :
  ((exists data, parse_workload_data file = Ok data) <-> forall r, In r file -> proper_layer r) /\
  (forall data, parse_workload_data file = Ok data -> Forall2 layer_read file data) /\
  (forall e, parse_workload_data file = Err e <->
     (e = TypeError /\ exists r, In r file /\ unnamed_dims r) \/
     (e = ValueError /\ (forall r, In r file -> ~ unnamed_dims r) /\ exists r, In r file /\ ~ proper_layer r)).
Proof.
  destruct (file_accepted file) as (A & B & C). split; [|split; [|exact C]].
  - rewrite <- A. split; [intros (data & E); rewrite E; f_equal; now apply B|eauto].
  - intros data E. assert (D := B _ E). subst data. assert (P := proj1 A E). clear -P. induction file as [|r l IH]; [constructor|]. cbn [map]. constructor; [apply normalised_read; apply P; now left|]. apply IH. intros x I. apply P. now right.
Qed.

(** * Construction *)

Lemma first_of {A} (l : list A) : forall x, In x l -> forall (f : A -> string), NoDup (map f l) ->
  exists i, nth_error l i = Some x /\ forall j y, (j < i)%nat -> nth_error l j = Some y -> f y <> f x.
Proof.
  induction l as [|a l IH]; intros x I f N; [destruct I|]. cbn [map] in N. inversion N as [|? ? Na Nl]; subst. destruct I as [<-|I].
  - exists 0%nat. split; [reflexivity|]. intros j y L. lia.
  - destruct (IH x I f Nl) as (i & E & H). exists (S i). split; [exact E|]. intros [|j] y L Q.
    + injection Q as <-. intros X. apply Na. rewrite X. now apply List.in_map.
    + apply (H j y); [lia|exact Q].
Qed.

Lemma padding_pairs l : (forall p, In p l -> length p = 2%nat) -> exists ps, rmap padding_pair l = Ok ps /\ Forall2 (fun p q => p = [fst q; snd q]) l ps.
Proof.
  induction l as [|p l IH]; intros H; [exists []; split; [reflexivity|constructor]|]. cbn [rmap].
  destruct IH as (ps & -> & F); [intros q I; apply H; now right|]. assert (L := H p (or_introl eq_refl)). destruct p as [|a [|b [|]]]; try discriminate L.
  exists ((a, b) :: ps). split; [reflexivity|]. constructor; [reflexivity|exact F].
Qed.

Lemma padding_combine (ps : list (Z * Z)) : forall (dims : list string) k, (k + length dims <= length ps)%nat ->
  rmap (fun id => p <- of_option IndexError (nth_error ps (fst id)) ;; Ok (upper (snd id), p)) (combine (seq k (length dims)) dims)
  = Ok (combine (map upper dims) (skipn k ps)).
Proof.
  induction dims as [|d dims IH]; intros k L; [reflexivity|]. cbn [length seq combine rmap fst snd map] in *.
  destruct (nth_error ps k) as [p|] eqn:E; [|apply nth_error_None in E; lia]. cbn [of_option rbind].
  rewrite IH by lia. cbn [rbind].
  assert (Sk : skipn k ps = p :: skipn (S k) ps).
  { clear -E. revert k E. induction ps as [|q ps IH]; intros [|k] E; try discriminate; [injection E as ->; reflexivity|]. cbn [skipn]. rewrite (IH k E). reflexivity. }
  rewrite Sk. reflexivity.
Qed.

Lemma pad_found dims : forall (l : list (list Z)) ps d, Forall2 (fun p q => p = [fst q; snd q]) l ps ->
  pad_of (combine dims ps) d =
  match find (fun x : string * list Z => eqb (fst x) d) (combine dims l) with Some (_, [a; b]) => (a, b) | _ => (0, 0) end.
Proof.
  induction dims as [|x dims IH]; intros l ps d F; [reflexivity|]. destruct F as [|p q l ps -> F]; [reflexivity|].
  unfold pad_of in *. cbn [combine dget find fst]. destruct (eqb_spec d x) as [E|N].
  - subst d. rewrite eqb_refl. destruct q; reflexivity.
  - destruct (eqb_spec x d) as [E|]; [congruence|]. apply IH, F.
Qed.

Lemma proper_written r : proper_layer r -> well_written r.
Proof. intros P. destruct P as [(t & Et & _) _ _ Pr _ Pp Pd Ps]. constructor; eauto. Qed.

Section Built.
  Variables (order : list string -> list string) (mapping : list raw_entry) (data : list entry)
            (r : raw_layer) (e : written_equation) (ws : list written_relation) (loops : list (string * Z)).
  Hypothesis order_perm : forall l, Permutation (order l) l.
  Hypothesis mapping_proper : proper_file mapping.
  Hypothesis mapping_read : parse_mapping mapping = Ok data.
  Hypothesis proper : well_written r.
  Hypothesis sensible_r : sensible_layer r e ws loops.

  Lemma node_data_read : exists nd, node_data_of (normalise_layer r) = Ok nd /\
    nd_equation nd = equation_text e /\ rl_equation r = Some (nd_equation nd) /\ nd_relations nd = map relation_text ws /\
    rl_precision r = Some (nd_precision nd) /\ create_layer_dim_sizes nd = loops /\
    (exists padding, create_padding nd = Ok padding /\ forall d, pad_of padding d = padding_at r d) /\
    match create_pr_layer_dim_sizes nd with
    | Some (x :: l) => (forall w, In w ws -> In (upper (wl_1 w)) (keys (x :: l))) /\ forall d n, In (d, n) (x :: l) -> 0 < n
    | _ => forall w, In w ws -> fst (padding_at r (upper (wl_1 w))) + snd (padding_at r (upper (wl_1 w))) < indices_of loops (relation_of w)
    end.
  Proof.
    destruct (sy_equation _ _ _ _ sensible_r) as (Ee & _ & _). destruct (sy_relations _ _ _ _ sensible_r) as (Fr & _).
    destruct (sy_loops _ _ _ _ sensible_r) as (dims & sizes & Ed & Es & L & El & Nd & _).
    destruct (ww_precision r proper) as (pr & Ep & _).
    assert (Er : default [] (rl_relations r) = map relation_text ws) by (destruct Fr as [->|(-> & ->)]; reflexivity).
    assert (Pp : exists pad, match default None (rl_padding r) with None => Ok None | Some l => ps <- rmap padding_pair l ;; Ok (Some ps) end = Ok pad /\
      match default None (rl_padding r) with None => pad = None | Some l => exists ps, pad = Some ps /\ Forall2 (fun p q => p = [fst q; snd q]) l ps end).
    { destruct (rl_padding r) as [[l|]|] eqn:E; cbn [default]; try (exists None; split; reflexivity).
      destruct (padding_pairs l) as (ps & -> & F); [intros p I; now apply (ww_pairs r proper l)|]. cbn [rbind]. eauto 6. }
    destruct Pp as (pad & Epad & Fpad).
    unfold node_data_of, normalise_layer. cbn [ld_padding ld_equation ld_dims ld_sizes ld_precision ld_relations ld_pr_dims ld_pr_sizes]. rewrite Epad. cbn [rbind].
    eexists. split; [reflexivity|]. unfold create_layer_dim_sizes, create_padding, create_pr_layer_dim_sizes.
    cbn [nd_equation nd_loop_dims nd_loop_sizes nd_precision nd_relations nd_pr_loop_dims nd_pr_loop_sizes nd_padding].
    rewrite Ee, Ep, Ed, Es. cbn [default]. split; [reflexivity|]. split; [reflexivity|]. split; [exact Er|]. split; [reflexivity|]. split.
    { rewrite El. apply dict_of_nodup. change (map fst) with (@keys string Z). rewrite Proof_Generation.keys_combine; [exact Nd|]. now rewrite map_length. }
    split.
    { unfold padding_at. destruct (rl_pr_dims r) as [[ds|]|] eqn:Dr; cbn [default]; try (eexists; split; [reflexivity|]; intros d; reflexivity).
      destruct (rl_padding r) as [[l|]|] eqn:Pr; cbn [default] in *; try (subst pad; eexists; split; [reflexivity|]; intros d; reflexivity).
      destruct Fpad as (ps & -> & F). assert (O := ww_padding r proper l Pr). destruct O as (ds' & Q & Ll). rewrite Dr in Q. injection Q as <-.
      assert (Lp : length l = length ps) by (clear -F; induction F; cbn [length]; congruence). rewrite (padding_combine ps ds 0) by lia. cbn [rbind skipn]. eexists. split; [reflexivity|]. intros d.
      rewrite dict_of_nodup.
      - apply pad_found. exact F.
      - change (map fst) with (@keys string (Z * Z)). rewrite Proof_Generation.keys_combine; [exact (sy_named _ _ _ _ sensible_r ds Dr)|]. rewrite map_length. lia. }
    destruct (sy_derived _ _ _ _ sensible_r) as [(ds & n & szs & Ds & Ss & Hp & Hn)|(Hn & Hp)].
    - rewrite Ds, Ss. cbn [default]. assert (O := ww_sizes r proper (n :: szs) Ss). destruct O as (ds' & Q & Ll). rewrite Ds in Q. injection Q as <-.
      assert (K : keys (combine (map upper ds) (n :: szs)) = map upper ds) by (apply Proof_Generation.keys_combine; rewrite map_length; congruence).
      rewrite dict_of_nodup by (change (map fst) with (@keys string Z); rewrite K; exact (sy_named _ _ _ _ sensible_r ds Ds)).
      destruct ds as [|d0 ds]; [discriminate Ll|]. cbn [map combine]. split.
      + intros w I. change (In (upper (wl_1 w)) (keys (combine (map upper (d0 :: ds)) (n :: szs)))). rewrite K. now apply Hn.
      + intros d m I. apply Hp. change (In (d, m) (combine (map upper (d0 :: ds)) (n :: szs))) in I. now apply in_combine_r in I.
    - destruct (rl_pr_dims r) as [[ds|]|]; cbn [default]; try exact Hp. destruct (rl_pr_sizes r) as [[szs|]|]; cbn [default]; try exact Hp.
      rewrite (Hn szs eq_refl). destruct (map upper ds); exact Hp.
  Qed.

  Lemma relations_read : rmap create_relation (map relation_text ws) = Ok (map relation_of ws).
  Proof.
    destruct (sy_relations _ _ _ _ sensible_r) as (_ & G). clear -G. induction ws as [|w l IH]; [reflexivity|]. cbn [map rmap].
    rewrite (relation_read w (G w (or_introl eq_refl))). cbn [rbind]. rewrite IH by (intros x I; apply G; now right). reflexivity.
  Qed.

  Lemma layer_built : exists l, create_layer order data (normalise_layer r) = Ok l /\ layer_as order mapping r e ws loops l.
  Proof.
    destruct node_data_read as (nd & End & Eq & Eqr & Erel & Epr & Esz & (padding & Epad & Hpad) & Hder).
    destruct (sy_equation _ _ _ _ sensible_r) as (_ & Pe & Nn). destruct (sy_loops _ _ _ _ sensible_r) as (dims & sizes & _ & _ & L & El & Nd & Pos).
    assert (Good := sy_sensible _ _ _ _ sensible_r).
    destruct (equation_read e Pe) as (Eops & Edims).
    assert (Dims : forall w, In w (operands_of e) -> get_r_layer_dims (disassembly (create_equation (equation_text e))) (wr_name w) = Ok (dims_of w)).
    { intros w I. destruct (first_of (operands_of e) w I wr_name Nn) as (i & Ei & H). exact (Edims i w Ei H). }
    assert (LoopsPos : forall d n, In (d, n) loops -> 0 < n).
    { intros d n I. rewrite El in I. apply Pos. now apply in_combine_r in I. }
    set (name := layer_name (normalise_layer r)). set (type := ld_type (normalise_layer r)).
    destruct (attr_spec mapping data name type (keys loops) mapping_proper mapping_read) as (en & a & C & Ea & Hs & Hh & Hnl & Hkl & Hl & Ho).
    assert (Node : exists ln, layer_node_of order (at_links a) nd = Ok ln).
    { apply (node_total order (at_links a) nd (map relation_of ws) padding (map wr_name (operands_of e)) order_perm).
      - rewrite Erel. exact relations_read.
      - exact Epad.
      - unfold node_tokens. rewrite Eq. exact Eops.
      - rewrite Esz. exact LoopsPos.
      - rewrite Esz. exact Good.
      - rewrite Esz. destruct (create_pr_layer_dim_sizes nd) as [[|x l]|].
        + intros q I. apply in_map_iff in I. destruct I as (w & <- & I). rewrite Hpad. cbn [relation_of rel_1]. eapply Z.lt_le_trans; [exact (Hder w I)|].
          destruct (proj2 Good (relation_of w)) as (K2 & K3 & _); [now apply List.in_map|].
          apply pr_size_over; try assumption; unfold size_of, size_or_1; match goal with |- context [dget ?d loops] => destruct (dget d loops) as [n|] eqn:G end; try lia; eapply LoopsPos, dget_In, G.
        + destruct Hder as (H1 & H2). split; [|exact H2]. intros q I. apply in_map_iff in I. destruct I as (w & <- & I). cbn [relation_of rel_1]. now apply H1.
        + intros q I. apply in_map_iff in I. destruct I as (w & <- & I). rewrite Hpad. cbn [relation_of rel_1]. eapply Z.lt_le_trans; [exact (Hder w I)|].
          destruct (proj2 Good (relation_of w)) as (K2 & K3 & _); [now apply List.in_map|].
          apply pr_size_over; try assumption; unfold size_of, size_or_1; match goal with |- context [dget ?d loops] => destruct (dget d loops) as [n|] eqn:G end; try lia; eapply LoopsPos, dget_In, G.
      - intros op I. apply in_map_iff in I. destruct I as (w & <- & I). exists (dims_of w). unfold node_tokens. rewrite Eq, Esz. split; [now apply Dims|]. now apply (sy_operands _ _ _ _ sensible_r).
      - intros op I. apply in_map_iff in I. destruct I as (w & <- & I). now apply (sy_precision _ _ _ _ sensible_r w).
      - left. destruct (ww_precision r proper) as (p & Ep & _ & Of & _). rewrite Epr in Ep. injection Ep as <-. exact Of. }
    destruct Node as (ln & Eln).
    destruct (node_shape order (at_links a) nd ln Eln) as (rels & prs & pd & Erels & Epd & Sz & Op & _ & _ & Eprs & Mprs & Mac & _).
    assert (Der : forall w, In w ws -> exists n, dget (upper (wl_1 w)) (l_pr_sizes (ln_layer ln)) = Some n /\ 0 < n).
    { rewrite Erel, relations_read in Erels. injection Erels as <-. rewrite Epad in Epd. injection Epd as <-. rewrite Eprs. rewrite Esz in Mprs.
      assert (Def : (forall w, In w ws -> fst (padding_at r (upper (wl_1 w))) + snd (padding_at r (upper (wl_1 w))) < indices_of loops (relation_of w)) ->
        rmap (fun d => n <- total_pr_size loops (pr_loop_of (map relation_of ws)) (pr_scaling_of (map relation_of ws)) padding d ;; Ok (d, n)) (keys (pr_loop_of (map relation_of ws))) = Ok prs ->
        forall w, In w ws -> exists n, dget (upper (wl_1 w)) prs = Some n /\ 0 < n).
      { intros Hp M w I. assert (Ir : In (relation_of w) (map relation_of ws)) by now apply List.in_map.
        assert (Ek : keys (pr_loop_of (map relation_of ws)) = map rel_1 (map relation_of ws)).
        { unfold pr_loop_of. rewrite (dict_of_rels (fun r => (rel_2 r, rel_3 r))) by exact (proj1 Good). unfold keys. now rewrite map_map. }
        assert (G : forall ds p, rmap (fun d => n <- total_pr_size loops (pr_loop_of (map relation_of ws)) (pr_scaling_of (map relation_of ws)) padding d ;; Ok (d, n)) ds = Ok p ->
          forall d, In d ds -> exists n, dget d p = Some n /\ total_pr_size loops (pr_loop_of (map relation_of ws)) (pr_scaling_of (map relation_of ws)) padding d = Ok n).
        { clear. induction ds as [|x ds IH]; intros p H d Hd; [destruct Hd|]. cbn [rmap] in H.
          destruct (total_pr_size loops (pr_loop_of (map relation_of ws)) (pr_scaling_of (map relation_of ws)) padding x) as [n|] eqn:E; [|discriminate H]. cbn [rbind] in H.
          destruct (rmap _ ds) as [q|] eqn:R; [|discriminate H]. cbn [rbind] in H. injection H as <-. cbn [dget].
          destruct (eqb_spec d x) as [->|Ne]; [eauto|]. destruct Hd as [->|Hd]; [congruence|]. exact (IH q eq_refl d Hd). }
        destruct (G _ _ M (upper (wl_1 w))) as (n & Gn & Tn).
        { rewrite Ek. apply in_map_iff. exists (relation_of w). split; [reflexivity|exact Ir]. }
        exists n. split; [exact Gn|]. rewrite <- Esz, <- Sz in Tn.
        change (upper (wl_1 w)) with (rel_1 (relation_of w)) in Tn.
        rewrite <- Esz, <- Sz in Good.
        rewrite (total_size ln (map relation_of ws) Good padding (relation_of w) n Ir Tn). rewrite Hpad. cbn [relation_of rel_1] in *.
        destruct (proj2 Good (relation_of w) Ir) as (K2 & K3 & _).
        assert (H := Hp w I). enough (X : indices_of loops (relation_of w) <= calc_pr_dimension_size (rel_coef_2 (relation_of w)) (size_or_1 (rel_2 (relation_of w)) (ln_sizes ln)) (rel_coef_3 (relation_of w)) (size_or_1 (rel_3 (relation_of w)) (ln_sizes ln))) by (cbn [relation_of rel_1 rel_2 rel_3 rel_coef_2 rel_coef_3] in *; lia).
        rewrite Sz, Esz.
        apply pr_size_over; try assumption; unfold size_of, size_or_1; match goal with |- context [dget ?d loops] => destruct (dget d loops) as [k|] eqn:Gk end; try lia; eapply LoopsPos, dget_In, Gk. }
      destruct (create_pr_layer_dim_sizes nd) as [[|x l]|]; [now apply Def| |now apply Def].
      injection Mprs as <-. destruct Hder as (H1 & H2). intros w I. destruct (key_dget _ _ (H1 w I)) as (n & Gn). exists n. split; [exact Gn|]. exact (H2 _ _ (dget_In _ _ _ Gn)). }
    eexists. split.
    - unfold create_layer. rewrite End. cbn [rbind]. rewrite Erel, relations_read. cbn [rbind]. rewrite Epad. cbn [rbind]. rewrite Esz. fold name type. rewrite Ea. cbn [rbind]. rewrite Eln. cbn [rbind]. reflexivity.
    - constructor; cbn [bl_id bl_name bl_type bl_node bl_constants bl_source bl_mapping].
      + reflexivity.
      + unfold name, layer_name, normalise_layer, field. cbn [ld_name ld_id]. destruct (rl_name r) as [[n|]|]; cbn [default]; auto.
      + unfold type, normalise_layer. cbn [ld_type]. destruct (ww_type r proper) as (t & ->). reflexivity.
      + unfold node_tokens in Op. rewrite Eq in Op. congruence.
      + congruence.
      + rewrite Mac, Sz, Esz. reflexivity.
      + intros op. unfold create_constant_operands, normalise_layer, identifier, keys. cbn [ld_id ld_source]. split.
        * intros I. apply in_map_iff in I. destruct I as ((o & s) & <- & I). apply filter_In in I. destruct I as (I & Q). cbn [fst snd] in *. destruct (eqb_spec s (default 0 (rl_id r))) as [E|]; [|discriminate]. now rewrite <- E.
        * intros I. apply in_map_iff. exists (op, default 0 (rl_id r)). split; [reflexivity|]. apply filter_In. split; [exact I|]. cbn [snd]. apply eqb_refl.
      + intros op s. unfold create_operand_source, normalise_layer, identifier. cbn [ld_id ld_source]. rewrite filter_In. cbn [snd]. destruct (eqb_spec s (default 0 (rl_id r))) as [E|N]; cbn [negb]; split; intros (A & B); split; auto; try discriminate; congruence.
      + exists en. destruct (parsed_valid _ _ mapping_read) as (Dm & _). rewrite <- Dm. split; [exact C|]. split; [exact Hs|]. split; [exact Hh|]. split; [exact Hl|]. split; [exact Hnl|]. split; [exact Hkl|exact Ho].
      + exact Der.
      + exists nd. split; [exact Eln|]. split; [exact Eqr|]. split; [exact Erel|]. split; [rewrite Erel; exact relations_read|]. split; [exact Epr|]. rewrite Eq. exact Dims.
  Qed.
End Built.

(** A description with its meaning: equation, relations and loops of every layer *)
Definition meaning : Type := (written_equation * list written_relation * list (string * Z))%type.

Lemma workload_built order mapping file (m : list meaning) :
  (forall l, Permutation (order l) l) -> proper_file mapping -> (exists data, parse_mapping mapping = Ok data) ->
  (forall r, In r file -> proper_layer r) ->
  Forall2 (fun r x => sensible_layer r (fst (fst x)) (snd (fst x)) (snd x)) file m ->
  sources_earlier (described file) ->
  exists ls g, parse_workload order file mapping = Ok (ls, g) /\
    (forall i r x, nth_error file i = Some r -> nth_error m i = Some x ->
       exists l, nth_error ls i = Some l /\ layer_as order mapping r (fst (fst x)) (snd (fst x)) (snd x) l) /\
    length ls = length file /\ g_nodes g = seq 0 (length file) /\
    forall u v, In (u, v) (g_edges g) <-> names (described file) u v.
Proof.
  intros Op Pf (data & Pm) P F Se. unfold parse_workload. rewrite (proj2 (proj1 (file_accepted file)) P). cbn [rbind]. rewrite Pm. cbn [rbind]. unfold create_workload.
  assert (X : exists ls, rmap (create_layer order data) (map normalise_layer file) = Ok ls /\ length ls = length file /\
    forall i r x, nth_error file i = Some r -> nth_error m i = Some x ->
       exists l, nth_error ls i = Some l /\ layer_as order mapping r (fst (fst x)) (snd (fst x)) (snd x) l).
  { clear Se. induction F as [|r x file m H F IH].
    - exists []. split; [reflexivity|]. split; [reflexivity|]. intros [|i] r x Q; discriminate Q.
    - destruct IH as (ls & El & Ll & Hl); [intros q I; apply P; now right|].
      destruct (layer_built order mapping data r (fst (fst x)) (snd (fst x)) (snd x) Op Pf Pm (proper_written r (P r (or_introl eq_refl))) H) as (l & E & A).
      exists (l :: ls). cbn [map rmap]. rewrite E. cbn [rbind]. rewrite El. cbn [rbind]. split; [reflexivity|]. split; [cbn [length]; now rewrite Ll|].
      intros [|i] r' x' Q1 Q2; cbn [nth_error] in *; [injection Q1 as <-; injection Q2 as <-; eauto|]. now apply (Hl i). }
  destruct X as (ls & -> & Ll & Hl). cbn [rbind].
  assert (Ed : map (fun d => mkLayerspec (ld_id d) (ld_source d)) (map normalise_layer file) = described file).
  { unfold described. rewrite map_map. apply map_ext. intros r. reflexivity. }
  rewrite Ed. destruct (proj2 (proj1 (dnn_ok (described file))) Se) as (g & Eg). rewrite Eg. cbn [rbind]. exists ls, g. split; [reflexivity|]. split; [exact Hl|]. split; [exact Ll|].
  destruct (dnn_spec _ _ Eg) as (_ & Nn & He). unfold described in Nn at 1. rewrite map_length in Nn. split; [exact Nn|exact He].
Qed.
