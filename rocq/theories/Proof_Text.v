(** Proofs about texts and equations (C64). *)
From Coq Require Import Ascii.
From Verif Require Import Base Model_Text Model_Layer Spec_Layer Proof_AllocSearch.
Open Scope string_scope.
Open Scope list_scope.
Open Scope Z_scope.

(** * Characters *)

Definition every (p : ascii -> bool) (s : string) : Prop := forall c, In c (characters s) -> p c = true.

Lemma chars_app a b : characters (a ++ b)%string = characters a ++ characters b.
Proof. unfold characters. induction a; cbn; [reflexivity|]. now rewrite IHa. Qed.

Lemma every_app p a b : every p (a ++ b)%string <-> every p a /\ every p b.
Proof.
  unfold every. rewrite chars_app. split.
  - intros H. split; intros c Hc; apply H, in_or_app; tauto.
  - intros [H1 H2] c Hc. apply in_app_or in Hc. destruct Hc; auto.
Qed.

Lemma every_cons p c s : every p (String c s) <-> p c = true /\ every p s.
Proof.
  unfold every. cbn. split.
  - intros H. split; [apply H; now left|intros x Hx; apply H; now right].
  - intros [H1 H2] x [<-|Hx]; auto.
Qed.

Lemma every_nil p : every p "".
Proof. intros c []. Qed.

Lemma every_impl p q s : (forall c, p c = true -> q c = true) -> every p s -> every q s.
Proof. intros Hi H c Hc. apply Hi, H, Hc. Qed.

Lemma plain_every s : plain s -> every is_alnum s.
Proof.
  intros H c Hc. specialize (H c Hc). cbn in H.
  repeat (destruct H as [H|H]; [subst c; reflexivity|]). destruct H.
Qed.

Lemma wordlike_every s : wordlike s -> every is_word s.
Proof.
  intros H c Hc. specialize (H c Hc). cbn in H.
  repeat (destruct H as [H|H]; [subst c; reflexivity|]). destruct H.
Qed.

Lemma blank_every s : blank s -> every is_space s.
Proof. intros H c Hc. destruct (H c Hc) as [->|[->| ->]]; reflexivity. Qed.

Lemma blank_app a b : blank a -> blank b -> blank (a ++ b)%string.
Proof. intros A B c Hc. rewrite chars_app in Hc. apply in_app_or in Hc. destruct Hc; auto. Qed.

(** An alphanumeric character is none of the special ones. *)
Lemma alnum_not c d : is_alnum c = true -> is_alnum d = false -> c <> d.
Proof. congruence. Qed.

Lemma str_app_assoc a b c : ((a ++ b) ++ c)%string = (a ++ (b ++ c))%string.
Proof. induction a; cbn; [reflexivity|now rewrite IHa]. Qed.
Lemma str_app_nil a : (a ++ "")%string = a.
Proof. induction a; cbn; [reflexivity|now rewrite IHa]. Qed.

(** * Runs of a character class *)

Lemma runs_app p cur w r : every p w -> runs p cur (w ++ r)%string = runs p (cur ++ w)%string r.
Proof.
  revert cur. induction w as [|c w IH]; intros cur H; cbn.
  - now rewrite str_app_nil.
  - apply every_cons in H. destruct H as [Hc Hw]. rewrite Hc, IH by exact Hw.
    now rewrite str_app_assoc.
Qed.

Definition stops (p : ascii -> bool) (s : string) : Prop :=
  match s with EmptyString => True | String c _ => p c = false end.

Lemma findall_run p w r : every p w -> stops p r -> findall p (w ++ r)%string = emit w ++ findall p r.
Proof.
  intros Hw Hr. unfold findall. rewrite runs_app by exact Hw. cbn [String.append].
  destruct r as [|c r]; cbn in *.
  - now rewrite app_nil_r.
  - now rewrite Hr.
Qed.

Lemma findall_gap p g r : every (fun c => negb (p c)) g -> findall p (g ++ r)%string = findall p r.
Proof.
  induction g as [|c g IH]; intros H; cbn; [reflexivity|].
  apply every_cons in H. destruct H as [Hc Hg]. apply negb_true_iff in Hc.
  unfold findall. cbn. rewrite Hc. cbn. apply IH, Hg.
Qed.

Lemma stops_gap p g r : every (fun c => negb (p c)) g -> stops p r -> stops p (g ++ r)%string.
Proof.
  destruct g as [|c g]; cbn; [auto|]. intros H _. apply every_cons in H. destruct H as [H _].
  now apply negb_true_iff in H.
Qed.

Lemma findall_one p c r : p c = false -> findall p (String c r) = findall p r.
Proof. intros H. unfold findall. cbn. now rewrite H. Qed.

Lemma emit_ne w : w <> "" -> emit w = [w].
Proof. destruct w; [congruence|reflexivity]. Qed.

(** * Replacements *)

Fixpoint smap (f : ascii -> string) (s : string) : string :=
  match s with EmptyString => EmptyString | String c s' => (f c ++ smap f s')%string end.

Lemma smap_app f a b : smap f (a ++ b)%string = (smap f a ++ smap f b)%string.
Proof. induction a; cbn; [reflexivity|]. now rewrite IHa, str_app_assoc. Qed.

Lemma smap_id f s : (forall c, In c (characters s) -> f c = String c "") -> smap f s = s.
Proof.
  induction s as [|c s IH]; intros H; cbn; [reflexivity|].
  rewrite H by (now left). rewrite IH; [reflexivity|]. intros d Hd. apply H. now right.
Qed.

Lemma prefix_one c d s : String.prefix (String c "") (String d s) = Ascii.eqb c d.
Proof.
  cbn. destruct (ascii_dec c d) as [E|N].
  - subst. rewrite Ascii.eqb_refl. now destruct s.
  - symmetry. now apply Ascii.eqb_neq.
Qed.

Lemma replace_char c new s :
  replace (String c "") new s = smap (fun x => if Ascii.eqb c x then new else String x "") s.
Proof.
  unfold replace. induction s as [|d s IH]; [reflexivity|].
  cbn [replace_from String.length]. rewrite prefix_one. cbn [smap].
  destruct (Ascii.eqb c d).
  - cbn [Nat.sub]. now rewrite IH.
  - cbn. now rewrite IH.
Qed.

Lemma smap_smap f g s : smap f (smap g s) = smap (fun c => smap f (g c)) s.
Proof. induction s; cbn; [reflexivity|]. now rewrite smap_app, IHs. Qed.

Lemma smap_ext f g s : (forall c, f c = g c) -> smap f s = smap g s.
Proof. intros H. induction s; cbn; [reflexivity|]. now rewrite H, IHs. Qed.

(** The three last replacements of [create_equation] put blanks around operators. *)
Definition spaced (c : ascii) : string :=
  if Ascii.eqb "*" c then " * " else if Ascii.eqb "=" c then " = "
  else if Ascii.eqb "+" c then " + " else String c "".

Lemma replace_spaced s : replace "+" " + " (replace "=" " = " (replace "*" " * " s)) = smap spaced s.
Proof.
  rewrite !replace_char, !smap_smap. apply smap_ext. intros c. unfold spaced.
  destruct (Ascii.eqb "*" c) eqn:E1; [reflexivity|].
  cbn [smap]. rewrite str_app_nil.
  destruct (Ascii.eqb "=" c) eqn:E2; [reflexivity|].
  cbn [smap]. rewrite str_app_nil. now destruct (Ascii.eqb "+" c).
Qed.

(** Two-character replacements. *)
Fixpoint no_pair (a b : ascii) (s : string) : Prop :=
  match s with
  | EmptyString => True
  | String c s' => (c = a -> match s' with String d _ => d <> b | EmptyString => True end) /\ no_pair a b s'
  end.

Lemma prefix_two a b c s : String.prefix (String a (String b "")) (String c s)
  = Ascii.eqb a c && match s with String d _ => Ascii.eqb b d | EmptyString => false end.
Proof.
  cbn. destruct (ascii_dec a c) as [E|N].
  - subst. rewrite Ascii.eqb_refl. destruct s as [|d s]; [reflexivity|].
    cbn [andb]. apply prefix_one.
  - apply Ascii.eqb_neq in N. now rewrite N.
Qed.

Lemma replace_no_pair a b new s : no_pair a b s -> replace (String a (String b "")) new s = s.
Proof.
  unfold replace. induction s as [|c s IH]; intros H; [reflexivity|].
  cbn [replace_from]. rewrite prefix_two. cbn in H. destruct H as [H1 H2].
  destruct (Ascii.eqb_spec a c) as [E|N]; cbn [andb].
  - subst. specialize (H1 eq_refl). destruct s as [|d s].
    + reflexivity.
    + destruct (Ascii.eqb_spec b d); [congruence|]. now rewrite IH.
  - now rewrite IH.
Qed.

Lemma replace_at_pair a b new u v : (forall c, In c (characters u) -> c <> a) -> no_pair a b v ->
  replace (String a (String b "")) new (u ++ String a (String b v))%string = (u ++ new ++ v)%string.
Proof.
  intros Hu Hv. unfold replace. induction u as [|c u IH].
  - cbn [String.append replace_from]. rewrite prefix_two, !Ascii.eqb_refl. cbn [andb String.length Nat.sub].
    cbn [replace_from]. f_equal. now apply replace_no_pair.
  - cbn [String.append replace_from]. rewrite prefix_two.
    destruct (Ascii.eqb_spec a c) as [E|N].
    + exfalso. apply (Hu c); [now left|congruence].
    + cbn [andb]. rewrite IH; [reflexivity|]. intros d Hd. apply Hu. now right.
Qed.

Lemma no_pair_app a b u v : (forall c, In c (characters u) -> c <> a) -> no_pair a b v ->
  no_pair a b (u ++ v)%string.
Proof.
  induction u as [|c u IH]; intros Hu Hv; cbn; [exact Hv|]. split.
  - intros E. exfalso. apply (Hu c); [now left|exact E].
  - apply IH; [intros d Hd; apply Hu; now right|exact Hv].
Qed.

Definition head_not (b : ascii) (s : string) : Prop :=
  match s with String d _ => d <> b | EmptyString => True end.

Lemma no_pair_cons a b s : head_not b s -> no_pair a b s -> no_pair a b (String a s).
Proof. intros H1 H2. cbn. split; [intros _; exact H1|exact H2]. Qed.

Lemma head_not_app b u v : (forall c, In c (characters u) -> c <> b) -> head_not b v ->
  head_not b (u ++ v)%string.
Proof. destruct u as [|c u]; intros H1 H2; [exact H2|]. cbn. apply H1. now left. Qed.

(** * The text of an equation *)

(** Free of the three operator characters. *)
Definition quiet (c : ascii) : bool :=
  negb (Ascii.eqb "*" c) && negb (Ascii.eqb "=" c) && negb (Ascii.eqb "+" c).

Lemma quiet_spaced s : every quiet s -> smap spaced s = s.
Proof.
  intros H. apply smap_id. intros c Hc. specialize (H c Hc). unfold quiet in H. unfold spaced.
  destruct (Ascii.eqb "*" c); [discriminate|]. destruct (Ascii.eqb "=" c); [discriminate|].
  destruct (Ascii.eqb "+" c); [discriminate|]. reflexivity.
Qed.

Lemma quiet_not s c : every quiet s -> In c (characters s) -> c <> "+"%char /\ c <> "="%char /\ c <> "*"%char.
Proof.
  intros H Hc. specialize (H c Hc). repeat split; intros ->; discriminate H.
Qed.

Lemma alnum_quiet c : is_alnum c = true -> quiet c = true.
Proof.
  intros H. unfold quiet.
  destruct (Ascii.eqb_spec "*" c); [subst; discriminate|].
  destruct (Ascii.eqb_spec "=" c); [subst; discriminate|].
  destruct (Ascii.eqb_spec "+" c); [subst; discriminate|]. reflexivity.
Qed.

Lemma alnum_token c : is_alnum c = true -> is_token c = true.
Proof. intros H. unfold is_token. now rewrite H. Qed.

Lemma blank_gap s : blank s -> every quiet s /\ every (fun c => negb (is_token c)) s.
Proof.
  intros H. split; intros c Hc; destruct (H c Hc) as [->|[->| ->]]; reflexivity.
Qed.

Lemma subs_quiet l : (forall s, In s l -> plain s) -> every quiet (String.concat "" (map subscript l)).
Proof.
  intros H.
  assert (Q : forall s, In s l -> every quiet (subscript s)).
  { intros s Hs. unfold subscript. apply every_app. split; [intros c [<-|[]]; reflexivity|].
    apply every_app. split; [|intros c [<-|[]]; reflexivity].
    eapply every_impl; [apply alnum_quiet|]. apply plain_every, H, Hs. }
  clear H. induction l as [|s l IH]; [apply every_nil|].
  destruct l as [|s' l].
  - cbn. apply Q. now left.
  - cbn [map String.concat]. cbn [map] in IH. apply every_app. split; [apply Q; now left|].
    apply IH. intros x Hx. apply Q. now right.
Qed.

Lemma concat_cons x l : String.concat "" (x :: l) = (x ++ String.concat "" l)%string.
Proof. destruct l; cbn; [now rewrite str_app_nil|reflexivity]. Qed.

Lemma subs_tokens l r : (forall s, In s l -> plain s) -> stops is_token r ->
  findall is_token (String.concat "" (map subscript l) ++ r)%string
  = filter (fun s => negb (eqb s "")) l ++ findall is_token r /\
  stops is_token (String.concat "" (map subscript l) ++ r)%string.
Proof.
  intros H Hr. induction l as [|s l IH]; [split; [reflexivity|exact Hr]|].
  destruct IH as [IH1 IH2]; [intros x Hx; apply H; now right|].
  cbn [map]. rewrite concat_cons. split; [|reflexivity].
  unfold subscript at 1. rewrite !str_app_assoc. cbn [String.append].
  rewrite findall_one by reflexivity.
  rewrite findall_run; [|eapply every_impl; [apply alnum_token|]; apply plain_every, H; now left|reflexivity].
  rewrite findall_one by reflexivity. rewrite IH1.
  cbn [filter]. destruct s as [|c s]; cbn; reflexivity.
Qed.

Definition word_list (w : written) : list string :=
  wr_name w :: filter (fun s => negb (eqb s "")) (wr_subs w).

Lemma operand_quiet w : plain_operand w -> every quiet (operand_text w).
Proof.
  intros (Hn & _ & Hs). apply every_app. split.
  - eapply every_impl; [apply alnum_quiet|]. now apply plain_every.
  - now apply subs_quiet.
Qed.

Lemma operand_tokens w r : plain_operand w -> stops is_token r ->
  findall is_token (operand_text w ++ r)%string = word_list w ++ findall is_token r.
Proof.
  intros (Hn & Hne & Hs) Hr. unfold operand_text. rewrite str_app_assoc.
  destruct (subs_tokens (wr_subs w) r Hs Hr) as [E1 E2].
  rewrite findall_run; [|eapply every_impl; [apply alnum_token|]; now apply plain_every|exact E2].
  rewrite E1, emit_ne by exact Hne. reflexivity.
Qed.

Lemma operand_head w b r : plain_operand w -> is_alnum b = false ->
  head_not b (operand_text w ++ r)%string.
Proof.
  intros (Hn & Hne & Hs) Hb. unfold operand_text. destruct (wr_name w) as [|c n] eqn:E; [congruence|].
  cbn. intros ->. apply plain_every in Hn. apply every_cons in Hn. destruct Hn; congruence.
Qed.

(** What follows the assignment. *)
Definition good_factor (f : factor) : Prop :=
  blank (fa_before f) /\ blank (fa_after f) /\ (fa_op f = "*" \/ fa_op f = "+") /\ plain_operand (fa_operand f).

Lemma factors_no_pair b fs r : b = "+"%char \/ b = "="%char -> (forall f, In f fs -> good_factor f) ->
  every quiet r -> no_pair "+" b (String.concat "" (map factor_text fs) ++ r)%string.
Proof.
  intros Hb H Hr.
  assert (NB : forall s, blank s -> forall c, In c (characters s) -> c <> b /\ c <> "+"%char).
  { intros s Hs c Hc. destruct (Hs c Hc) as [->|[->| ->]]; destruct Hb; subst; split; discriminate. }
  assert (AB : is_alnum b = false) by (destruct Hb; subst; reflexivity).
  assert (R : no_pair "+" b r).
  { rewrite <- (str_app_nil r). apply no_pair_app; [|exact Logic.I]. intros c Hc. apply (quiet_not r c Hr Hc). }
  induction fs as [|f fs IH]; [exact R|].
  cbn [map]. rewrite concat_cons. unfold factor_text at 1. rewrite !str_app_assoc.
  destruct (H f (or_introl eq_refl)) as (B1 & B2 & Op & Po).
  assert (IH' : no_pair "+" b (String.concat "" (map factor_text fs) ++ r)%string)
    by (apply IH; intros x Hx; apply H; now right).
  apply no_pair_app; [intros c Hc; apply (NB _ B1 c Hc)|].
  assert (P2 : no_pair "+" b (fa_after f ++ operand_text (fa_operand f) ++ String.concat "" (map factor_text fs) ++ r)%string).
  { apply no_pair_app; [intros c Hc; apply (NB _ B2 c Hc)|].
    apply no_pair_app; [intros c Hc; apply (quiet_not _ c (operand_quiet _ Po) Hc)|exact IH']. }
  destruct Op as [->| ->]; cbn [String.append].
  - apply (no_pair_app "+" b "*"); [intros c [<-|[]]; discriminate|exact P2].
  - apply no_pair_cons; [|exact P2].
    apply head_not_app; [intros c Hc; apply (NB _ B2 c Hc)|]. now apply operand_head.
Qed.

Lemma factors_tokens fs r : (forall f, In f fs -> good_factor f) -> blank r ->
  findall is_token (smap spaced (String.concat "" (map factor_text fs) ++ r)%string)
  = flat_map (fun f => fa_op f :: word_list (fa_operand f)) fs /\
  stops is_token (smap spaced (String.concat "" (map factor_text fs) ++ r)%string).
Proof.
  intros H Hr. destruct (blank_gap r Hr) as [R1 R2].
  induction fs as [|f fs IH].
  - cbn [map String.concat String.append flat_map]. rewrite quiet_spaced by exact R1. split.
    + rewrite <- (str_app_nil r), findall_gap by exact R2. reflexivity.
    + rewrite <- (str_app_nil r). apply stops_gap; [exact R2|exact Logic.I].
  - destruct IH as [IH1 IH2]; [intros x Hx; apply H; now right|].
    destruct (H f (or_introl eq_refl)) as (B1 & B2 & Op & Po).
    destruct (blank_gap _ B1) as [B1q B1t]. destruct (blank_gap _ B2) as [B2q B2t].
    cbn [map]. rewrite concat_cons. unfold factor_text at 1 3. rewrite !str_app_assoc.
    set (rest := (String.concat "" (map factor_text fs) ++ r)%string) in *.
    rewrite !smap_app, (quiet_spaced _ B1q), (quiet_spaced _ B2q), (quiet_spaced _ (operand_quiet _ Po)).
    assert (E : smap spaced (fa_op f) = (" " ++ fa_op f ++ " ")%string) by (destruct Op as [->| ->]; reflexivity).
    rewrite E. split.
    + rewrite findall_gap by exact B1t. rewrite !str_app_assoc. cbn [String.append].
      rewrite findall_one by reflexivity.
      rewrite findall_run; [|destruct Op as [->| ->]; intros c [<-|[]]; reflexivity|reflexivity].
      rewrite findall_one by reflexivity. rewrite findall_gap by exact B2t.
      rewrite operand_tokens by assumption. rewrite IH1. cbn [flat_map].
      destruct Op as [->| ->]; reflexivity.
    + apply stops_gap; [exact B1t|reflexivity].
Qed.

Lemma equation_tokens e : plain_equation e ->
  disassembly (create_equation (equation_text e))
  = word_list (we_out e) ++ "=" :: word_list (we_first e) ++
    flat_map (fun f => fa_op f :: word_list (fa_operand f)) (we_rest e).
Proof.
  intros (Ho & G1 & G2 & G3 & As & Fs).
  assert (Po : plain_operand (we_out e)) by (apply Ho; now left).
  assert (Pf : plain_operand (we_first e)) by (apply Ho; right; now left).
  assert (F : forall f, In f (we_rest e) -> good_factor f).
  { intros f Hf. destruct (Fs f Hf) as (A & B & C). repeat split; try assumption.
    all: apply Ho; right; right; now apply List.in_map. }
  set (tail := (we_gap2 e ++ operand_text (we_first e) ++ String.concat "" (map factor_text (we_rest e)) ++ we_end e)%string).
  destruct (blank_gap _ G1) as [G1q G1t]. destruct (blank_gap _ G2) as [G2q G2t]. destruct (blank_gap _ G3) as [G3q G3t].
  set (front := (operand_text (we_out e) ++ we_gap1 e)%string).
  assert (Qf : every quiet front) by (apply every_app; split; [now apply operand_quiet|exact G1q]).
  assert (Qt : forall b, b = "+"%char \/ b = "="%char -> no_pair "+" b tail).
  { intros b Hb. unfold tail. apply no_pair_app; [intros c Hc; apply (quiet_not _ c G2q Hc)|].
    apply no_pair_app; [intros c Hc; apply (quiet_not _ c (operand_quiet _ Pf) Hc)|].
    now apply factors_no_pair. }
  assert (T : equation_text e = (front ++ we_assign e ++ tail)%string).
  { unfold equation_text, front, tail. now rewrite !str_app_assoc. }
  assert (N : create_equation (equation_text e) = smap spaced (front ++ "=" ++ tail)%string).
  { unfold create_equation. rewrite replace_spaced. f_equal.
    assert (E1 : replace "+=" "=" (equation_text e) = (front ++ "=" ++ tail)%string).
    { rewrite T. destruct As as [->| ->].
      - apply replace_no_pair. apply no_pair_app; [intros c Hc; apply (quiet_not _ c Qf Hc)|].
        apply (no_pair_app "+" "=" "="); [intros c [<-|[]]; discriminate|]. apply Qt. now right.
      - apply replace_at_pair; [intros c Hc; apply (quiet_not _ c Qf Hc)|]. apply Qt. now right. }
    rewrite E1. apply replace_no_pair. apply no_pair_app; [intros c Hc; apply (quiet_not _ c Qf Hc)|].
    apply (no_pair_app "+" "+" "="); [intros c [<-|[]]; discriminate|]. apply Qt. now left. }
  unfold disassembly. rewrite N. rewrite smap_app, (quiet_spaced _ Qf).
  unfold front. rewrite str_app_assoc.
  rewrite operand_tokens; [|exact Po|apply stops_gap; [exact G1t|reflexivity]].
  f_equal. rewrite findall_gap by exact G1t. rewrite smap_app.
  change (smap spaced "=") with " = ". cbn [String.append].
  rewrite findall_one by reflexivity.
  change (String "=" (String " " (smap spaced tail))) with ("=" ++ String " " (smap spaced tail))%string.
  rewrite findall_run; [|intros c [<-|[]]; reflexivity|reflexivity].
  rewrite findall_one by reflexivity. cbn [emit "++"]. f_equal. f_equal.
  unfold tail. rewrite smap_app, (quiet_spaced _ G2q), findall_gap by exact G2t.
  rewrite smap_app, (quiet_spaced _ (operand_quiet _ Pf)).
  destruct (factors_tokens (we_rest e) (we_end e) F G3) as [E1 E2].
  rewrite operand_tokens by assumption. now rewrite E1.
Qed.

(** * Operands and their dimensions from the tokens *)

Definition flat (rest : list (string * list string)) : list string :=
  flat_map (fun x => fst x :: snd x) rest.
Definition starts (k : nat) (t : list string) : list nat :=
  map (fun ix => S (fst ix)) (filter (fun ix => is_operator (snd ix)) (combine (seq k (length t)) t)).
Fixpoint offs (k : nat) (segs : list (list string)) : list nat :=
  match segs with [] => [k] | s :: l => k :: offs (S (k + length s)) l end.

Definition no_operator (l : list string) : Prop := forall x, In x l -> is_operator x = false.

Lemma starts_seg k seg t : no_operator seg -> starts k (seg ++ t) = starts (k + length seg) t.
Proof.
  revert k. induction seg as [|x seg IH]; intros k H; [cbn; now rewrite Nat.add_0_r|].
  unfold starts. cbn [app length seq combine filter snd].
  rewrite (H x) by (now left). fold (starts (S k) (seg ++ t)).
  rewrite IH by (intros y Hy; apply H; now right). unfold starts.
  replace (k + S (length seg))%nat with (S k + length seg)%nat by lia. reflexivity.
Qed.

Lemma starts_op k o t : is_operator o = true -> starts k (o :: t) = S k :: starts (S k) t.
Proof. intros H. unfold starts. cbn [length seq combine filter snd]. now rewrite H. Qed.

Lemma offs_starts rest : forall k seg, no_operator seg ->
  (forall x, In x rest -> is_operator (fst x) = true /\ no_operator (snd x)) ->
  (k :: starts k (seg ++ flat rest)) ++ [S (k + length (seg ++ flat rest))] = offs k (seg :: map snd rest).
Proof.
  induction rest as [|[o s] rest IH]; intros k seg Hs Hr.
  - cbn [flat flat_map map]. rewrite app_nil_r. rewrite <- (app_nil_r seg) at 1. rewrite starts_seg by exact Hs.
    cbn. reflexivity.
  - destruct (Hr (o, s) (or_introl eq_refl)) as [Ho Hs']. cbn [fst snd] in *.
    unfold flat. cbn [flat_map fst snd map app]. fold (flat rest).
    rewrite starts_seg by exact Hs. rewrite starts_op by exact Ho.
    specialize (IH (S (k + length seg)) s Hs'). cbn [map] in IH.
    change (offs k (seg :: s :: map snd rest)) with (k :: offs (S (k + length seg)) (s :: map snd rest)).
    rewrite <- IH by (intros x Hx; apply Hr; now right).
    cbn [app]. f_equal. f_equal. f_equal.
    rewrite app_length. cbn [length]. f_equal. lia.
Qed.

Lemma offs_nth rest : forall k seg i s, nth_error (seg :: map snd rest) i = Some s ->
  exists pre post, seg ++ flat rest = pre ++ s ++ post /\
    nth_error (offs k (seg :: map snd rest)) i = Some (k + length pre)%nat /\
    nth_error (offs k (seg :: map snd rest)) (S i) = Some (S (k + length pre + length s))%nat.
Proof.
  induction rest as [|[o s'] rest IH]; intros k seg i s Hi.
  - destruct i as [|i]; [|now destruct i]. cbn in Hi. injection Hi as <-.
    exists [], []. cbn. rewrite !app_nil_r, Nat.add_0_r. auto.
  - destruct i as [|i].
    + cbn in Hi. injection Hi as <-. exists [], (flat ((o, s') :: rest)). cbn. now rewrite Nat.add_0_r.
    + cbn [map snd] in Hi. cbn [nth_error] in Hi.
      destruct (IH (S (k + length seg)) s' i s Hi) as (pre & post & E & E1 & E2).
      exists (seg ++ o :: pre), post. split; [|split].
      * unfold flat. cbn [flat_map fst snd]. fold (flat rest). rewrite <- app_assoc. cbn [app]. now rewrite <- E.
      * cbn [map snd]. change (nth_error (offs k (seg :: s' :: map snd rest)) (S i))
          with (nth_error (offs (S (k + length seg)) (s' :: map snd rest)) i).
        rewrite E1. f_equal. rewrite app_length. cbn [length]. lia.
      * cbn [map snd]. change (nth_error (offs k (seg :: s' :: map snd rest)) (S (S i)))
          with (nth_error (offs (S (k + length seg)) (s' :: map snd rest)) (S i)).
        rewrite E2. f_equal. rewrite app_length. cbn [length]. lia.
Qed.

Lemma offs_length k segs : length (offs k segs) = S (length segs).
Proof. revert k. induction segs; intros; cbn; [reflexivity|]. now rewrite IHsegs. Qed.

Lemma rmap_nth {A B} (f : A -> result B) (l : list A) (r : list B) : length l = length r ->
  (forall i a, nth_error l i = Some a -> exists b, nth_error r i = Some b /\ f a = Ok b) -> rmap f l = Ok r.
Proof.
  revert r. induction l as [|a l IH]; intros [|b r] L H; try discriminate; [reflexivity|].
  destruct (H O a eq_refl) as (b' & Eb & Ef). cbn in Eb. injection Eb as <-.
  cbn [rmap]. rewrite Ef. rewrite (IH r); [reflexivity|now injection L|].
  intros i x Hx. exact (H (S i) x Hx).
Qed.

Section Tokens.
  Variables (seg : list string) (rest : list (string * list string)).
  Hypothesis (Hseg : seg <> [] /\ no_operator seg).
  Hypothesis (Hrest : forall x, In x rest -> is_operator (fst x) = true /\ snd x <> [] /\ no_operator (snd x)).
  Let tokens := seg ++ flat rest.
  Let segs := seg :: map snd rest.

  Lemma slices : start_indices tokens ++ [S (length tokens)] = offs 0 segs.
  Proof.
    unfold start_indices. fold (starts 0 tokens). unfold tokens, segs.
    rewrite <- offs_starts; [reflexivity|apply Hseg|]. intros x Hx. destruct (Hrest x Hx) as (A & _ & B). auto.
  Qed.

  Lemma start_length : length (start_indices tokens) = length segs.
  Proof.
    pose proof (f_equal (@length nat) slices) as L. rewrite app_length, offs_length in L.
    change (length [S (length tokens)]) with 1%nat in L. rewrite Nat.add_1_r in L. congruence.
  Qed.

  Lemma seg_ne i s : nth_error segs i = Some s -> s <> [].
  Proof.
    intros Hs. apply nth_error_In in Hs. destruct Hs as [<-|Hs]; [apply Hseg|].
    apply in_map_iff in Hs. destruct Hs as (x & <- & Hx). apply (Hrest x Hx).
  Qed.

  Lemma start_nth i s : nth_error segs i = Some s ->
    exists pre post, tokens = pre ++ s ++ post /\ nth_error (start_indices tokens) i = Some (length pre).
  Proof.
    intros Hs. destruct (offs_nth rest 0 seg i s Hs) as (pre & post & E & E1 & _).
    exists pre, post. split; [exact E|]. fold segs in E1. rewrite <- slices in E1.
    rewrite nth_error_app1 in E1; [exact E1|].
    rewrite start_length. apply nth_error_Some. congruence.
  Qed.

  Lemma tokens_operands : contained_operands tokens = Ok (map (hd "") segs).
  Proof.
    unfold contained_operands. apply rmap_nth.
    - now rewrite start_length, map_length.
    - intros i a Ha.
      destruct (nth_error segs i) as [s|] eqn:Es.
      + destruct (start_nth i s Es) as (pre & post & E & E1). rewrite E1 in Ha. injection Ha as <-.
        exists (hd "" s). split; [now rewrite nth_error_map, Es|].
        rewrite E. rewrite nth_error_app2 by lia. rewrite Nat.sub_diag.
        pose proof (seg_ne i s Es). destruct s; [congruence|reflexivity].
      + exfalso. apply nth_error_None in Es. rewrite <- start_length in Es. apply nth_error_None in Es. congruence.
  Qed.

  Lemma tokens_dims i s : nth_error segs i = Some s -> index_of (hd "" s) (map (hd "") segs) = Some i ->
    get_r_layer_dims tokens (hd "" s) = Ok (map upper (tl s)).
  Proof.
    intros Hs Hi. unfold get_r_layer_dims. rewrite tokens_operands. cbn [rbind]. rewrite Hi.
    rewrite slices. destruct (offs_nth rest 0 seg i s Hs) as (pre & post & E & E1 & E2).
    unfold segs. rewrite E1, E2. cbn [of_option rbind]. f_equal. f_equal.
    unfold tokens. rewrite E. pose proof (seg_ne i s Hs) as Ne. destruct s as [|x s]; [congruence|].
    cbn [tl length Nat.add]. replace (S (length pre + S (length s)) - 1 - (length pre + 1))%nat with (length s) by lia.
    replace (length pre + 1)%nat with (length (pre ++ [x])) by (rewrite app_length; reflexivity).
    replace (pre ++ (x :: s) ++ post) with ((pre ++ [x]) ++ s ++ post) by (rewrite <- app_assoc; reflexivity).
    rewrite skipn_app, skipn_all, Nat.sub_diag. cbn [app skipn].
    rewrite firstn_app, firstn_all, Nat.sub_diag. cbn. apply app_nil_r.
  Qed.
End Tokens.

Lemma alnum_no_operator s : every is_alnum s -> is_operator s = false.
Proof.
  intros H. unfold is_operator, memb. cbn [existsb].
  destruct (eqb_spec s "=") as [E|_]; [subst; specialize (H "="%char (or_introl eq_refl)); discriminate|].
  destruct (eqb_spec s "*") as [E|_]; [subst; specialize (H "*"%char (or_introl eq_refl)); discriminate|].
  destruct (eqb_spec s "+") as [E|_]; [subst; specialize (H "+"%char (or_introl eq_refl)); discriminate|].
  reflexivity.
Qed.

Lemma word_list_ok w : plain_operand w -> word_list w <> [] /\ no_operator (word_list w).
Proof.
  intros (A & _ & B). split; [discriminate|]. intros x [<-|Hx]; apply alnum_no_operator.
  - now apply plain_every.
  - apply filter_In in Hx. apply plain_every, B, Hx.
Qed.

(** C64. *)
Lemma equation_read e : plain_equation e ->
  let tokens := disassembly (create_equation (equation_text e)) in
  contained_operands tokens = Ok (map wr_name (operands_of e)) /\
  forall i w, nth_error (operands_of e) i = Some w ->
    (forall j w', (j < i)%nat -> nth_error (operands_of e) j = Some w' -> wr_name w' <> wr_name w) ->
    get_r_layer_dims tokens (wr_name w) = Ok (dims_of w).
Proof.
  intros P tokens.
  set (rest := ("=", word_list (we_first e)) :: map (fun f => (fa_op f, word_list (fa_operand f))) (we_rest e)).
  assert (T : tokens = word_list (we_out e) ++ flat rest).
  { unfold tokens. rewrite equation_tokens by exact P. f_equal. unfold rest, flat. cbn [flat_map fst snd app].
    f_equal. f_equal. induction (we_rest e) as [|f fs IHf]; cbn; [reflexivity|]. now rewrite IHf. }
  destruct P as (Ho & _ & _ & _ & _ & Fs).
  assert (H1 : word_list (we_out e) <> [] /\ no_operator (word_list (we_out e))) by (apply word_list_ok, Ho; now left).
  assert (H2 : forall x, In x rest -> is_operator (fst x) = true /\ snd x <> [] /\ no_operator (snd x)).
  { intros x [<-|Hx].
    - split; [reflexivity|]. apply word_list_ok, Ho. right; now left.
    - apply in_map_iff in Hx. destruct Hx as (f & <- & Hf). cbn [fst snd]. split.
      + destruct (Fs f Hf) as (_ & _ & [->| ->]); reflexivity.
      + apply word_list_ok, Ho. right; right. now apply List.in_map. }
  assert (S : word_list (we_out e) :: map snd rest = map word_list (operands_of e)).
  { unfold rest, operands_of. cbn [map snd]. rewrite !map_map. reflexivity. }
  assert (S' : map (hd "") (word_list (we_out e) :: map snd rest) = map wr_name (operands_of e)).
  { rewrite S, map_map. reflexivity. }
  split.
  - rewrite T, tokens_operands by assumption. now rewrite S'.
  - intros i w Hw Hfirst. rewrite T. change (wr_name w) with (hd "" (word_list w)).
    rewrite (tokens_dims _ _ H1 H2 i (word_list w)).
    + reflexivity.
    + rewrite S, nth_error_map, Hw. reflexivity.
    + rewrite S'. cbn [hd word_list].
      assert (G : forall l k, nth_error l k = Some w ->
        (forall j w', (j < k)%nat -> nth_error l j = Some w' -> wr_name w' <> wr_name w) ->
        index_of (wr_name w) (map wr_name l) = Some k).
      { clear. induction l as [|x l IH]; intros [|k] Hk Hl; try discriminate.
        - injection Hk as ->. cbn. now rewrite String.eqb_refl.
        - cbn [map index_of]. rewrite eqb_neq by (intros E; apply (Hl O x); [lia|reflexivity|congruence]).
          rewrite (IH k Hk); [reflexivity|]. intros j w' Hj Hw'. apply (Hl (Datatypes.S j) w'); [lia|exact Hw']. }
      now apply G.
Qed.

(** * Numbers *)
From Coq Require Import DecimalString DecimalZ DecimalFacts.

Lemma string_of_nonneg k : 0 <= k -> exists u, string_of_Z k = NilZero.string_of_uint u /\
  Z.of_int (Decimal.Pos u) = k.
Proof.
  intros Hk. unfold string_of_Z. destruct k as [|p|p]; [| |lia].
  - exists (Decimal.D0 Decimal.Nil). split; reflexivity.
  - exists (Pos.to_uint p). split; [reflexivity|]. exact (DecimalZ.of_to (Z.pos p)).
Qed.

Lemma digits_word u : every is_digit (NilEmpty.string_of_uint u).
Proof.
  induction u; cbn [NilEmpty.string_of_uint]; try apply every_nil; apply every_cons; (split; [reflexivity|assumption]).
Qed.

Lemma int_round_trip k : 0 <= k ->
  int_of_word (string_of_Z k) = Ok k /\ every is_digit (string_of_Z k) /\ string_of_Z k <> "".
Proof.
  intros Hk. unfold string_of_Z. destruct k as [|p|p]; [repeat split; try discriminate| |lia].
  - intros c [<-|[]]. reflexivity.
  - cbn [Z.to_int NilZero.string_of_int]. repeat split.
    + unfold int_of_word. rewrite NilZero.usu.
      * cbn [Z.of_int]. f_equal. exact (DecimalZ.of_to (Z.pos p)).
      * apply DecimalPos.Unsigned.to_uint_nonnil.
    + unfold NilZero.string_of_uint. destruct (Pos.to_uint p) eqn:E; try rewrite <- E; try apply digits_word.
      exfalso. now apply (DecimalPos.Unsigned.to_uint_nonnil p).
    + unfold NilZero.string_of_uint. pose proof (DecimalPos.Unsigned.to_uint_nonnil p).
      destruct (Pos.to_uint p); cbn; congruence.
Qed.

Lemma digit_word c : is_digit c = true -> is_word c = true.
Proof. intros H. unfold is_word, is_alnum. now rewrite H. Qed.

(** * Relations *)

Lemma span_run p w r : every p w -> stops p r -> span p (w ++ r)%string = (w, r).
Proof.
  intros Hw Hr. induction w as [|c w IH]; cbn.
  - destruct r as [|c r]; [reflexivity|]. cbn in Hr. cbn. now rewrite Hr.
  - apply every_cons in Hw. destruct Hw as [Hc Hw]. rewrite Hc, (IH Hw). reflexivity.
Qed.

Lemma skip_space_run g r : blank g -> stops is_space r -> skip_space (g ++ r)%string = r.
Proof. intros Hg Hr. unfold skip_space. rewrite span_run; [reflexivity|now apply blank_every|exact Hr]. Qed.

Lemma blank_stops_word g r : blank g -> stops is_word r -> stops is_word (g ++ r)%string.
Proof.
  destruct g as [|c g]; intros Hg Hr; [exact Hr|]. cbn. destruct (Hg c (or_introl eq_refl)) as [->|[->| ->]]; reflexivity.
Qed.

Lemma word_stops_space w r : every is_word w -> w <> "" -> stops is_space (w ++ r)%string.
Proof.
  destruct w as [|c w]; [congruence|]. intros H _. cbn. apply every_cons in H. destruct H as [H _].
  destruct c as [[] [] [] [] [] [] [] []]; try reflexivity; discriminate H.
Qed.

(** The text of a term followed by [r], where the characters after the blanks of [r] are
    not a star. *)
Lemma term_read t r : good_term t -> stops is_word r ->
  (match skip_space r with String "*" _ => False | _ => True end) ->
  parse_term (term_text t ++ r)%string
  = Some (option_map (fun c => string_of_Z (fst (fst c))) (wt_coef t), wt_dim t, r) /\
  stops is_space (term_text t ++ r)%string.
Proof.
  intros (Wd & Ne & C) Hr Hs. unfold term_text, parse_term. apply wordlike_every in Wd.
  destruct (wt_coef t) as [[[k g1] g2]|].
  - destruct C as (Hk & B1 & B2). destruct (int_round_trip k Hk) as (_ & D & N).
    assert (W : every is_word (string_of_Z k)) by (eapply every_impl; [apply digit_word|exact D]).
    split.
    + rewrite !str_app_assoc. rewrite span_run; [|exact W|apply blank_stops_word; [exact B1|reflexivity]].
      destruct (eqb_spec (string_of_Z k) ""); [congruence|].
      rewrite skip_space_run; [|exact B1|reflexivity]. cbn [String.append].
      rewrite skip_space_run; [|exact B2|now apply word_stops_space].
      rewrite span_run by assumption. destruct (eqb_spec (wt_dim t) ""); [congruence|]. reflexivity.
    + rewrite str_app_assoc. now apply word_stops_space.
  - split; [|now apply word_stops_space].
    rewrite span_run by assumption. destruct (eqb_spec (wt_dim t) ""); [congruence|].
    cbn [option_map]. destruct (skip_space r) as [|c r'] eqn:E; [reflexivity|].
    destruct c as [[] [] [] [] [] [] [] []]; try reflexivity. destruct Hs.
Qed.

Lemma coef_read t : good_term t ->
  coefficient (option_map (fun c => string_of_Z (fst (fst c))) (wt_coef t)) = Ok (coef_of t).
Proof.
  intros (_ & _ & C). unfold coef_of. destruct (wt_coef t) as [[[k g1] g2]|]; [|reflexivity].
  cbn. apply int_round_trip. apply C.
Qed.

(** C64. *)
Lemma relation_read r : good_relation r ->
  create_relation (relation_text r)
  = Ok (mkRel (upper (wl_1 r)) (coef_of (wl_2 r)) (upper (wt_dim (wl_2 r)))
              (coef_of (wl_3 r)) (upper (wt_dim (wl_3 r)))).
Proof.
  intros (W1 & N1 & B1 & B2 & B3 & B4 & T2 & T3).
  assert (P : parse_relation (relation_text r) =
    Some (wl_1 r, option_map (fun c => string_of_Z (fst (fst c))) (wt_coef (wl_2 r)), wt_dim (wl_2 r),
          option_map (fun c => string_of_Z (fst (fst c))) (wt_coef (wl_3 r)), wt_dim (wl_3 r))).
  { unfold parse_relation, relation_text.
    rewrite span_run; [|now apply wordlike_every|apply blank_stops_word; [exact B1|reflexivity]].
    destruct (eqb_spec (wl_1 r) ""); [congruence|].
    rewrite skip_space_run; [|exact B1|reflexivity]. cbn [String.append].
    set (r3 := (wl_g3 r ++ String "+" (wl_g4 r ++ term_text (wl_3 r)))%string).
    assert (K3 : skip_space r3 = String "+" (wl_g4 r ++ term_text (wl_3 r))%string)
      by (apply skip_space_run; [exact B3|reflexivity]).
    destruct (term_read (wl_2 r) r3 T2) as [E2 S2].
    { apply blank_stops_word; [exact B3|reflexivity]. }
    { rewrite K3. exact Logic.I. }
    rewrite skip_space_run; [|exact B2|exact S2].
    rewrite E2, K3.
    destruct (term_read (wl_3 r) "" T3 Logic.I Logic.I) as [E3 S3]. rewrite !str_app_nil in E3, S3.
    rewrite skip_space_run; [|exact B4|exact S3]. rewrite E3. reflexivity. }
  unfold create_relation. rewrite P. rewrite !coef_read by assumption. reflexivity.
Qed.
