(** Proofs for C73: reading of hardware descriptions. *)
From Coq Require Import QArith Ascii Lia Sorting.Sorted.
From Verif Require Import Base Model_Text Model_MapFile Model_DataMove Model_Cost Model_Hierarchy Model_Imc Model_Cacti Model_AccelFile Shipped_Hardware
  Spec_Layer Spec_MapFile Spec_Hierarchy Spec_Imc Spec_Cacti Spec_AccelFile
  Proof_Text Proof_Relevancy Proof_MapFile Proof_AllocSearch Proof_Bandwidth Proof_Hierarchy Proof_Ports Proof_Sharing Proof_Imc Proof_Cacti.
Open Scope string_scope.
Open Scope list_scope.
Open Scope Z_scope.
Open Scope result_scope.

(** * Regular expressions *)

Lemma operand_iff s : operand_regex s = true <-> operand_name s.
Proof. apply memb_In. Qed.

Lemma digits_every s : digits s = true <-> every is_digit s.
Proof.
  induction s as [|c s IH]; cbn [digits]; [split; [intros _; apply every_nil|reflexivity]|].
  rewrite andb_true_iff, IH, every_cons. reflexivity.
Qed.
Lemma all_digits_iff w : all_digits w <-> w <> "" /\ every is_digit w.
Proof. unfold all_digits, every. split; intros [N H]; (split; [exact N|]); intros c I; apply digit_in; auto. Qed.

Lemma dimension_iff s : dimension_regex s = true <-> dimension_label s.
Proof.
  split.
  - destruct s as [|a [|c [|]]]; try discriminate; try (destruct a as [[] [] [] [] [] [] [] []]; discriminate).
    intros H. assert (a = "D"%char) as -> by (destruct a as [[] [] [] [] [] [] [] []]; try discriminate H; reflexivity).
    exists c. split; [apply digit_in; exact H|reflexivity].
  - intros (c & I & ->). apply digit_in. exact I.
Qed.
Lemma oa_dimension_iff s r : oa_dimension s = Ok r <-> dimension_label s /\ r = s.
Proof.
  rewrite <- dimension_iff. split.
  - destruct s as [|a [|c [|]]]; try discriminate; try (destruct a as [[] [] [] [] [] [] [] []]; discriminate).
    intros H. assert (a = "D"%char) as -> by (destruct a as [[] [] [] [] [] [] [] []]; try discriminate H; reflexivity).
    cbn in *. destruct (is_digit c); [|discriminate]. injection H as <-. auto.
  - intros (H & ->). destruct s as [|a [|c [|]]]; try discriminate; try (destruct a as [[] [] [] [] [] [] [] []]; discriminate).
    assert (a = "D"%char) as -> by (destruct a as [[] [] [] [] [] [] [] []]; try discriminate H; reflexivity).
    cbn in *. now rewrite H.
Qed.

Lemma drop_cases c s : drop c s = s /\ ~ (exists r, s = String c r) \/ s = String c (drop c s).
Proof.
  destruct s as [|a s]; cbn [drop]; [left; split; [reflexivity|intros (r & [=])]|].
  destruct (Ascii.eqb_spec c a) as [->|N]; [right; reflexivity|left; split; [reflexivity|intros (r & [= ? ?]); congruence]].
Qed.
Lemma substring_all s : forall n, (String.length s <= n)%nat -> substring 0 n s = s.
Proof. induction s as [|c s IH]; intros [|n] H; cbn in *; try lia; [reflexivity|reflexivity|]. now rewrite IH by lia. Qed.
Lemma label_tail t : (String.prefix "_port_" t && match substring 6 (String.length t - 6) t with EmptyString => false | d => digits d end)%bool = true
  <-> exists w, all_digits w /\ t = ("_port_" ++ w)%string.
Proof.
  split.
  - intros H. apply andb_true_iff in H. destruct H as [P H].
    assert (E : exists w, t = ("_port_" ++ w)%string).
    { do 6 (destruct t as [|? t]; [discriminate P|cbn [String.prefix] in P; destruct (ascii_dec _ _); [subst|discriminate P]]). exists t. reflexivity. }
    destruct E as (w & ->). exists w. split; [|reflexivity]. cbn [append String.length substring] in H.
    replace (S (S (S (S (S (S (String.length w)))))) - 6)%nat with (String.length w) in H by lia. rewrite substring_all in H by lia.
    apply all_digits_iff. destruct w as [|c w]; [discriminate H|]. split; [discriminate|]. apply digits_every. exact H.
  - intros (w & W & ->). apply all_digits_iff in W. destruct W as [N W]. cbn [append String.length substring String.prefix].
    replace (S (S (S (S (S (S (String.length w)))))) - 6)%nat with (String.length w) by lia. rewrite substring_all by lia.
    repeat (destruct (ascii_dec _ _) as [_|X]; [|congruence]). destruct w as [|c w]; [congruence|]. cbn [andb].
    replace (String.prefix "" (String c w)) with true by reflexivity. apply digits_every. exact W.
Qed.
Lemma port_label_iff s : port_regex s = true <-> port_label s.
Proof.
  unfold port_regex. cbv zeta. rewrite label_tail. split.
  - intros (w & W & E). destruct (drop_cases "r" s) as [(E1 & _)|E1]; destruct (drop_cases "w" (drop "r" s)) as [(E2 & _)|E2].
    + exists "", w. split; [cbn; auto|]. split; [exact W|]. rewrite E2, E1 in E. exact E.
    + exists "w", w. split; [cbn; auto|]. split; [exact W|]. rewrite <- E1, E2, E. reflexivity.
    + exists "r", w. split; [cbn; auto|]. split; [exact W|]. rewrite E1, <- E2, E. reflexivity.
    + exists "rw", w. split; [cbn; auto|]. split; [exact W|]. rewrite E1, E2, E. reflexivity.
  - intros (u & w & I & W & ->). exists w. split; [exact W|]. destruct I as [<-|[<-|[<-|[<-|[]]]]]; reflexivity.
Qed.

(** * Texts of allocations *)
Lemma direction_texts d : In (direction_name d) ["fh"; "tl"; "fl"; "th"].
Proof. destruct d; cbn; auto. Qed.
Lemma allocation_iff s : allocation_regex s = true <-> exists op d, operand_name op /\ says s op d.
Proof.
  unfold allocation_regex. rewrite existsb_exists. split.
  - intros (op & I & H). apply existsb_exists in H. destruct H as (t & J & H). destruct (eqb_spec s (op ++ ", " ++ t)%string) as [E|]; [|discriminate].
    exists op. destruct J as [<-|[<-|[<-|[<-|[]]]]]; [exists WrHigh|exists RdLow|exists WrLow|exists RdHigh]; (split; [exact I|exact E]).
  - intros (op & d & I & ->). exists op. split; [exact I|]. apply existsb_exists. exists (direction_name d). split; [apply direction_texts|]. apply eqb_refl.
Qed.
Lemma split_says s op d : operand_name op -> says s op d -> split_allocation s = Ok (op, direction_name d).
Proof. intros I ->. destruct I as [<-|[<-|[<-|[]]]]; destruct d; reflexivity. Qed.
Lemma says_fun s op d op' d' : operand_name op -> operand_name op' -> says s op d -> says s op' d' -> op = op' /\ d = d'.
Proof.
  intros I I' H H'. assert (E := split_says _ _ _ I H). rewrite (split_says _ _ _ I' H') in E. injection E as -> E. split; [reflexivity|]. destruct d, d'; try reflexivity; discriminate E.
Qed.
Lemma length_append (a b : string) : String.length (a ++ b) = (String.length a + String.length b)%nat.
Proof. induction a as [|c a IH]; [reflexivity|]. cbn. now rewrite IH. Qed.
(** an operand that is not a proper one may hold a comma, but what is written for it does not *)
Lemma says_operand s op d op' d' : operand_name op -> says s op d -> says s op' d' -> op = op'.
Proof.
  intros I H H'. unfold says in *. subst s.
  assert (L : forall a b x y : string, String.length x = String.length y -> (a ++ x)%string = (b ++ y)%string -> a = b).
  { intros a. induction a as [|c a IH]; intros b x y Lx E.
    - destruct b as [|c b]; [reflexivity|]. apply (f_equal String.length) in E. cbn in E. rewrite length_append in E. lia.
    - destruct b as [|c' b]; [apply (f_equal String.length) in E; cbn in E; rewrite length_append in E; lia|].
      cbn in E. injection E as -> E. f_equal. exact (IH b x y Lx E). }
  apply (L op op' (", " ++ direction_name d)%string (", " ++ direction_name d')%string); [destruct d, d'; reflexivity|exact H'].
Qed.

Lemma dataflow_iff s : dataflow_regex s = true <-> proper_dataflow s.
Proof.
  unfold dataflow_regex. cbv zeta. split.
  - destruct (span_spec is_upper s) as (E & H1 & H2). destruct (span is_upper s) as [a b]. cbn [fst snd] in *. intros H.
    apply andb_true_iff in H. destruct H as [N H]. destruct (eqb_spec a "") as [|Na]; [discriminate N|].
    destruct b as [|c1 [|c2 w]]; try discriminate H; try (destruct c1 as [[] [] [] [] [] [] [] []]; discriminate H).
    assert (c1 = ","%char) as -> by (destruct c1 as [[] [] [] [] [] [] [] []]; try discriminate H; reflexivity).
    assert (c2 = " "%char) as -> by (destruct c2 as [[] [] [] [] [] [] [] []]; try discriminate H; reflexivity).
    apply andb_true_iff in H. destruct H as [Nw H]. destruct (eqb_spec w "") as [|Nw']; [discriminate Nw|].
    exists a, w. split; [exact E|]. split; [exact Na|]. split; [intros c I; apply upper_in; auto|]. apply all_digits_iff. split; [exact Nw'|].
    destruct (span_spec is_digit w) as (E' & K1 & K2). destruct (eqb_spec (snd (span is_digit w)) "") as [Z0'|]; [|discriminate H].
    rewrite Z0', str_app_nil in E'. rewrite E'. exact K1.
  - intros (a & w & -> & Na & Ha & W). apply all_digits_iff in W. destruct W as [Nw W].
    assert (Ha' : every is_upper a) by (intros c I; apply upper_in; auto).
    change (", " ++ w)%string with (String "," (String " " w)). rewrite (span_run is_upper a) by (try exact Ha'; reflexivity).
    cbn [fst snd]. rewrite eqb_neq by exact Na. rewrite eqb_neq by exact Nw. assert (S0 := span_run is_digit w "" W). rewrite str_app_nil in S0. rewrite S0 by reflexivity. reflexivity.
Qed.

(** * Validation *)

Lemma type_iff s : memb s ["read"; "write"; "read_write"] = true <-> exists t, port_kind s t.
Proof.
  rewrite memb_In. split.
  - intros [<-|[<-|[<-|[]]]]; eexists; constructor.
  - intros (t & K). destruct K; cbn; auto.
Qed.
Lemma rmap_all {A} (f : A -> result bool) (P : A -> Prop) l : (forall x, In x l -> exists b, f x = Ok b /\ (b = true <-> P x)) ->
  exists bs, rmap f l = Ok bs /\ (forallb (fun b => b) bs = true <-> forall x, In x l -> P x).
Proof.
  induction l as [|x l IH]; intros H.
  - exists []. split; [reflexivity|]. cbn. split; [intros _ y []|reflexivity].
  - destruct (H x (or_introl eq_refl)) as (b & E & Hb). destruct IH as (bs & El & Hl); [intros y I; apply H; now right|].
    exists (b :: bs). split; [cbn; rewrite E; cbn; rewrite El; reflexivity|]. cbn [forallb]. rewrite andb_true_iff, Hb, Hl.
    split; [intros [P1 P2] y [<-|I]; auto|intros K; split; [apply K; now left|intros y I; apply K; now right]].
Qed.
Lemma allocation_valid_ok t type s op d : port_kind type t -> operand_name op -> says s op d ->
  exists b, allocation_valid type s = Ok b /\ (b = true <-> may_move t d).
Proof.
  intros K I H. unfold allocation_valid. rewrite (split_says _ _ _ I H). cbn [rbind snd]. eexists. split; [reflexivity|].
  destruct K, d; cbn; split; intros X; try reflexivity; try exact Logic.I; try discriminate X; destruct X.
Qed.
Lemma port_ok p : port_schema p = true -> exists b, port_valid_raw p = Ok b /\ (b && negb (rp_max p <? rp_min p) = true <-> proper_port p).
Proof.
  unfold port_schema. rewrite !andb_true_iff, port_label_iff, type_iff, forallb_forall. intros ((L & t & K) & A).
  destruct (rmap_all (allocation_valid (rp_type p)) (fun s => forall op d, operand_name op -> says s op d -> may_move t d) (rp_alloc p)) as (bs & E & Hb).
  { intros s I. destruct (proj1 (allocation_iff s) (A s I)) as (op & d & Io & Hs). destruct (allocation_valid_ok _ _ _ _ _ K Io Hs) as (b & E & Hb).
    exists b. split; [exact E|]. rewrite Hb. split; [|intros X; exact (X op d Io Hs)]. intros M op' d' Io' Hs'. destruct (says_fun _ _ _ _ _ Io Io' Hs Hs') as [-> ->]. exact M. }
  unfold port_valid_raw. rewrite E. cbn [rbind]. eexists. split; [reflexivity|]. rewrite andb_true_iff, Hb, negb_true_iff, Z.ltb_ge. unfold proper_port. split.
  - intros [M B]. split; [exact L|]. split; [exact B|]. exists t. split; [exact K|]. intros s I. destruct (proj1 (allocation_iff s) (A s I)) as (op & d & Io & Hs). exists op, d. eauto.
  - intros (_ & B & t' & K' & M). split; [|exact B]. intros s I op d Io Hs. destruct (M s I) as (op' & d' & Io' & Hs' & X).
    destruct (says_fun _ _ _ _ _ Io Io' Hs Hs') as [<- <-]. destruct K; inversion K'; subst; exact X.
Qed.
Lemma proper_port_schema p : proper_port p -> port_schema p = true.
Proof.
  intros (L & _ & t & K & A). unfold port_schema. rewrite !andb_true_iff, port_label_iff, type_iff, forallb_forall. split; [split; [exact L|eauto]|].
  intros s I. destruct (A s I) as (op & d & Io & Hs & _). apply allocation_iff. eauto.
Qed.

Lemma auto_iff m : auto_cost m = true <-> automatic m.
Proof. unfold auto_cost, automatic, default. destruct (rm_auto m) as [[]|]; split; congruence. Qed.
Lemma imc_iff a : is_imc a = true <-> in_memory a.
Proof. unfold is_imc, in_memory, default. destruct (ra_imc a) as [[]|]; split; congruence. Qed.

Lemma costs_iff m : (if auto_cost m then rm_size m mod 8 =? 0
    else match rm_read m, rm_write m, rm_area m with Some _, Some _, Some _ => true | _, _, _ => false end) = true <->
  (automatic m -> rm_size m mod 8 = 0) /\ (~ automatic m -> rm_read m <> None /\ rm_write m <> None /\ rm_area m <> None).
Proof.
  rewrite <- auto_iff. destruct (auto_cost m).
  - rewrite Z.eqb_eq. split; [intros E; split; [auto|congruence]|intros [H _]; auto].
  - split.
    + intros H. split; [discriminate|]. intros _. destruct (rm_read m), (rm_write m), (rm_area m); try discriminate H. repeat split; discriminate.
    + intros [_ H]. destruct H as (H1 & H2 & H3); [discriminate|]. destruct (rm_read m), (rm_write m), (rm_area m); congruence.
Qed.

Lemma memory_ok dims m : memory_schema m = true -> exists b, validate_memory dims m = Ok b /\ (b = true <-> proper_memory dims m).
Proof.
  unfold memory_schema. rewrite !andb_true_iff, !forallb_forall. intros ((O & P) & D).
  destruct (rmap_all port_valid_raw (fun p => forall b, port_valid_raw p = Ok b -> b = true) (rm_ports m)) as (bs & E & Hb).
  { intros p I. destruct (port_ok p (P p I)) as (b & E & _). exists b. split; [exact E|]. split; [intros -> b'; congruence|auto]. }
  unfold validate_memory. rewrite E. cbn [rbind]. eexists. split; [reflexivity|].
  rewrite !andb_true_iff, costs_iff, Hb, !forallb_forall. unfold proper_memory.
  assert (G : (forall x, In x (rm_ports m) -> forall b, port_valid_raw x = Ok b -> b = true) /\ (forall x, In x (rm_ports m) -> negb (rp_max x <? rp_min x) = true) <-> forall p, In p (rm_ports m) -> proper_port p).
  { split.
    - intros [H1 H2] p I. destruct (port_ok p (P p I)) as (b & Eb & Hp). apply Hp. rewrite (H1 p I b Eb), (H2 p I). reflexivity.
    - intros H. split; intros p I; [intros b Eb|]; destruct (port_ok p (P p I)) as (b' & Eb' & Hp); apply (proj2 Hp) in H; try exact I; apply andb_true_iff in H; [destruct H as [H _]; congruence|apply H]. }
  assert (G' : (forall x, In x (rm_served m) -> memb x dims = true) <-> forall d, In d (rm_served m) -> In d dims) by (split; intros H d I; [apply memb_In|apply memb_In]; auto).
  rewrite G'. split.
  - intros (((C & S0) & B1) & B2). split; [intros op I; apply operand_iff; auto|]. split; [apply G; auto|]. tauto.
  - intros (_ & Pp & S0 & C). apply G in Pp. tauto.
Qed.
Lemma proper_memory_schema dims m : (forall d, In d dims -> dimension_label d) -> proper_memory dims m -> memory_schema m = true.
Proof.
  intros D (O & P & S0 & _). unfold memory_schema. rewrite !andb_true_iff, !forallb_forall. split; [split|].
  - intros op I. apply operand_iff; auto.
  - intros p I. apply proper_port_schema; auto.
  - intros d I. apply dimension_iff. auto.
Qed.

Lemma dataflows_iff f : dataflows_schema (rf_dataflows f) = true <-> proper_dataflows f.
Proof.
  unfold dataflows_schema, proper_dataflows. destruct (rf_dataflows f) as [[d|]|]; [|split; [discriminate|intros []]|tauto].
  rewrite andb_true_iff, memb_In, forallb_forall. split; intros [I H]; (split; [exact I|]).
  - intros oa texts J. specialize (H _ J). cbn [fst snd] in H. apply andb_true_iff in H. destruct H as [H1 H2]. split; [apply memb_In in H1; exact H1|].
    rewrite forallb_forall in H2. intros t K. apply dataflow_iff. auto.
  - intros [oa texts] J. destruct (H oa texts J) as [H1 H2]. cbn [fst snd]. apply andb_true_iff. split; [apply memb_In; exact H1|].
    apply forallb_forall. intros t K. apply dataflow_iff. auto.
Qed.

Lemma no_adc_iff a : match adc_resolution a with Some r => r =? 0 | None => false end = true <-> no_adc a.
Proof.
  unfold adc_resolution, no_adc, default. destruct (ra_adc a) as [[r|]|]; [|split; [discriminate|intros [|]; discriminate]|split; auto].
  rewrite Z.eqb_eq. split; [intros ->; auto|]. intros [|]; [discriminate|congruence].
Qed.
Lemma array_schema_iff a : length (ra_dims a) = length (ra_sizes a) /\ array_schema a = true <->
  proper_sizes a /\ (forall l, ra_precision a = Some l -> length l = 2%nat) /\ (forall t, ra_type a = Some t -> In t ["analog"; "digital"]).
Proof.
  unfold array_schema, proper_sizes. rewrite !andb_true_iff, !forallb_forall.
  assert (G1 : (forall x, In x (ra_dims a) -> dimension_regex x = true) <-> forall d, In d (ra_dims a) -> dimension_label d) by (split; intros H d I; apply dimension_iff; auto).
  assert (G2 : (forall x, In x (ra_sizes a) -> (0 <=? x) = true) <-> forall n, In n (ra_sizes a) -> 0 <= n) by (split; intros H d I; apply Z.leb_le; auto).
  assert (G3 : match ra_precision a with None => true | Some l => Nat.eqb (length l) 2 end = true <-> forall l, ra_precision a = Some l -> length l = 2%nat).
  { destruct (ra_precision a) as [l|]; [|split; [discriminate|reflexivity]]. rewrite Nat.eqb_eq. split; [intros H l' [= <-]; exact H|auto]. }
  assert (G4 : match ra_type a with None => true | Some t => memb t ["analog"; "digital"] end = true <-> forall t, ra_type a = Some t -> In t ["analog"; "digital"]).
  { destruct (ra_type a) as [t|]; [|split; [discriminate|reflexivity]]. rewrite memb_In. split; [intros H t' [= <-]; exact H|auto]. }
  rewrite G1, G2, G3, G4. intuition.
Qed.

Lemma whole_iff x b : log2_is_whole x = Ok b -> (b = true <-> power_of_two x).
Proof.
  unfold log2_is_whole. destruct (Z.leb_spec x 0) as [|P]; [discriminate|]. intros [= <-]. rewrite Z.eqb_eq. split.
  - intros E. exists (Z.to_nat (Z.log2 x)). rewrite Z2Nat.id by apply Z.log2_nonneg. symmetry. exact E.
  - intros (k & ->). rewrite Z.log2_pow2 by lia. reflexivity.
Qed.
Lemma pow_pos x : power_of_two x -> 0 < x.
Proof. intros (k & ->). apply Z.pow_pos_nonneg; lia. Qed.
Lemma whole_total x : power_of_two x -> log2_is_whole x = Ok true.
Proof.
  intros P. assert (Hp := pow_pos _ P). destruct (log2_is_whole x) as [b|e] eqn:E.
  - f_equal. apply (whole_iff _ _ E). exact P.
  - unfold log2_is_whole in E. destruct (Z.leb_spec x 0); [lia|discriminate].
Qed.

(** the part of [accepted_imc] that is about the array *)
Definition imc_array_ok (a : raw_array) (act weight serial : Z) : Prop :=
  ra_precision a = Some [act; weight] /\ ra_serial a = Some serial /\
  power_of_two act /\ power_of_two weight /\ power_of_two serial /\ serial <= act.
Lemma digital_iff a : negb (match ra_type a with Some t => eqb t "digital" | None => false end &&
            negb (match adc_resolution a with Some r => r =? 0 | None => false end)) = true <-> (ra_type a = Some "digital" -> no_adc a).
Proof.
  rewrite <- no_adc_iff, negb_true_iff. destruct (ra_type a) as [t|]; [|split; [discriminate|reflexivity]].
  destruct (eqb_spec t "digital") as [->|N]; cbn [andb]; [rewrite negb_false_iff; split; auto|].
  split; [intros _ [= X]; congruence|reflexivity].
Qed.
Lemma array_imc_iff a : (forall l, ra_precision a = Some l -> length l = 2%nat) ->
  (validate_array_imc a = Ok true <-> (exists act weight serial, imc_array_ok a act weight serial) /\ (ra_type a = Some "digital" -> no_adc a)).
Proof.
  intros L. unfold validate_array_imc, precision. split.
  - destruct (ra_precision a) as [l|] eqn:Ep; [|discriminate]. specialize (L _ eq_refl). destruct l as [|act [|weight [|]]]; try discriminate L.
    cbn [rbind of_option nth_error]. destruct (ra_serial a) as [serial|] eqn:Es; [|discriminate]. cbn [rbind of_option].
    destruct (log2_is_whole serial) as [b1|] eqn:E1; [|discriminate]. cbn [rbind].
    destruct (log2_is_whole act) as [b2|] eqn:E2; [|discriminate]. cbn [rbind].
    destruct (log2_is_whole weight) as [b3|] eqn:E3; [|discriminate]. cbn [rbind]. intros H.
    assert (H' : forall x y : bool, Ok x = Ok y -> x = y) by congruence. apply H' in H. rewrite !andb_true_iff in H.
    destruct H as ((((H1 & H2) & H3) & H4) & H5). split; [|apply digital_iff; exact H5].
    exists act, weight, serial. split; [exact Ep|]. split; [exact Es|]. apply negb_true_iff, Z.ltb_ge in H1.
    split; [apply (whole_iff _ _ E2); exact H3|]. split; [apply (whole_iff _ _ E3); exact H4|]. split; [apply (whole_iff _ _ E1); exact H2|exact H1].
  - intros ((act & weight & serial & Ep & Es & P1 & P2 & P3 & Le) & D). rewrite Ep, Es. cbn [rbind of_option nth_error].
    rewrite (whole_total _ P3), (whole_total _ P1). cbn [rbind]. rewrite (whole_total _ P2). cbn [rbind].
    apply digital_iff in D. rewrite D. f_equal. rewrite !andb_true_r. apply negb_true_iff, Z.ltb_ge. exact Le.
Qed.
Lemma regular_iff a : validate_array_regular a = true <-> ra_type a = None /\ no_adc a /\ ra_serial a = None.
Proof.
  unfold validate_array_regular. rewrite !andb_true_iff, no_adc_iff. destruct (ra_type a), (ra_serial a); intuition discriminate.
Qed.
Lemma cells_iff f act weight serial : imc_array_ok (rf_array f) act weight serial ->
  (validate_cells f = Ok true <-> exists cells, dget "cells" (rf_memories f) = Some cells /\ rm_operands cells = ["I2"] /\ rm_served cells = [] /\ rm_size cells mod weight = 0).
Proof.
  intros (Ep & _ & _ & Pw & _). unfold validate_cells, dgetr, precision. rewrite Ep. assert (Hw := pow_pos _ Pw). split.
  - destruct (dget "cells" (rf_memories f)) as [c|]; [|discriminate]. cbn [rbind of_option nth_error]. destruct (Z.eqb_spec weight 0); [lia|]. intros H.
    assert (H' : forall x y : bool, Ok x = Ok y -> x = y) by congruence. apply H' in H. rewrite !andb_true_iff, Z.eqb_eq in H. destruct H as ((H1 & H2) & H3).
    exists c. split; [reflexivity|]. split; [|split; [destruct (rm_served c); [reflexivity|discriminate]|exact H3]].
    destruct (rm_operands c) as [|op [|]]; try discriminate H1. destruct (eqb_spec op "I2") as [X|]; [now rewrite X|discriminate].
  - intros (c & -> & E1 & E2 & E3). cbn [rbind of_option nth_error]. destruct (Z.eqb_spec weight 0); [lia|]. rewrite E1, E2, E3. reflexivity.
Qed.

(** [rmap] of the memories *)
Lemma memories_ok f : (forall x, In x (rf_memories f) -> memory_schema (snd x) = true) ->
  exists bs, rmap (fun x => validate_memory (ra_dims (rf_array f)) (snd x)) (rf_memories f) = Ok bs /\
    (forallb (fun b => b) bs = true <-> forall x, In x (rf_memories f) -> proper_memory (ra_dims (rf_array f)) (snd x)).
Proof. intros H. apply rmap_all. intros x I. apply memory_ok. auto. Qed.

Lemma accepts_iff f : validate f = Ok true <-> accepted_regular f \/ accepted_imc f.
Proof.
  assert (K : forall x y : bool, Ok x = Ok y -> x = y) by congruence.
  unfold validate, accepted_regular, accepted_imc, proper_parts. cbv zeta. split.
  - unfold validate_array.
    destruct (if is_imc (rf_array f) then validate_array_imc (rf_array f) else Ok (validate_array_regular (rf_array f))) as [b|] eqn:Ea; [|discriminate]. cbn [rbind].
    destruct (rmap _ _) as [bs|] eqn:Em; [|discriminate]. cbn [rbind].
    destruct (if is_imc (rf_array f) then validate_cells f else Ok true) as [b2|] eqn:Ec; [|discriminate]. cbn [rbind]. intros H. apply K in H.
    unfold schema in H. rewrite !andb_true_iff in H. destruct H as (((((S1 & S2) & S3) & (N & B)) & M) & C).
    rewrite forallb_forall in S1. destruct (memories_ok f S1) as (bs' & Em' & Hm). rewrite Em in Em'. injection Em' as <-. assert (M' := proj1 Hm M). clear M. rename M' into M.
    apply dataflows_iff in S3. apply Nat.eqb_eq in N. destruct (proj1 (array_schema_iff (rf_array f)) (conj N S2)) as (A1 & A2 & A3).
    assert (PP : proper_sizes (rf_array f) /\ (forall x m, In (x, m) (rf_memories f) -> proper_memory (ra_dims (rf_array f)) m) /\ proper_dataflows f)
      by (split; [exact A1|]; split; [intros x m I; exact (M _ I)|exact S3]).
    destruct (is_imc (rf_array f)) eqn:Ei.
    + right. split; [exact PP|]. apply imc_iff in Ei. subst b b2. apply array_imc_iff in Ea; [|exact A2]. destruct Ea as ((act & weight & serial & O) & D).
      split; [exact Ei|]. split; [exact A3|]. split; [exact D|]. apply (cells_iff f _ _ _ O) in Ec. destruct Ec as (cells & Ec).
      exists act, weight, serial, cells. destruct O as (O1 & O2 & O3 & O4 & O5 & O6). tauto.
    + left. split; [exact PP|]. assert (b = validate_array_regular (rf_array f)) as -> by congruence. apply regular_iff in B. destruct B as (B1 & B2 & B3).
      split; [intros X; apply imc_iff in X; congruence|]. split; [exact B1|]. split; [exact B2|]. split; [exact B3|exact A2].
  - assert (G : forall (S0 : proper_sizes (rf_array f)) (M : forall x m, In (x, m) (rf_memories f) -> proper_memory (ra_dims (rf_array f)) m) (D : proper_dataflows f)
        (A2 : forall l, ra_precision (rf_array f) = Some l -> length l = 2%nat) (A3 : forall t, ra_type (rf_array f) = Some t -> In t ["analog"; "digital"]),
        schema f = true /\ Nat.eqb (length (ra_dims (rf_array f))) (length (ra_sizes (rf_array f))) = true /\
        exists bs, rmap (fun x => validate_memory (ra_dims (rf_array f)) (snd x)) (rf_memories f) = Ok bs /\ forallb (fun b => b) bs = true).
    { intros S0 M D A2 A3. destruct (proj2 (array_schema_iff (rf_array f)) (conj S0 (conj A2 A3))) as [N S2].
      assert (S1 : forall x, In x (rf_memories f) -> memory_schema (snd x) = true).
      { intros [x m] I. apply (proper_memory_schema (ra_dims (rf_array f))); [apply S0|exact (M _ _ I)]. }
      split; [unfold schema; rewrite !andb_true_iff, forallb_forall; split; [split; [exact S1|exact S2]|apply dataflows_iff; exact D]|].
      split; [apply Nat.eqb_eq; exact N|]. destruct (memories_ok f S1) as (bs & E & H). exists bs. split; [exact E|]. apply H. intros [x m] I. exact (M _ _ I). }
    intros [((S0 & M & D) & I & B1 & B2 & B3 & A2)|((S0 & M & D) & I & A3 & Di & act & weight & serial & cells & O1 & O2 & O3 & O4 & O5 & O6 & C)].
    + destruct G as (G1 & G2 & bs & G3 & G4); try assumption. { intros t E. congruence. }
      unfold validate_array. destruct (is_imc (rf_array f)) eqn:Ei; [apply imc_iff in Ei; contradiction|]. cbn [rbind]. rewrite G3. cbn [rbind].
      rewrite G1, G2, G4. assert (R : validate_array_regular (rf_array f) = true) by (apply regular_iff; auto). now rewrite R.
    + destruct G as (G1 & G2 & bs & G3 & G4); try assumption. { intros l E. rewrite O1 in E. injection E as <-. reflexivity. }
      assert (O : imc_array_ok (rf_array f) act weight serial) by (repeat split; assumption).
      unfold validate_array. rewrite (proj2 (imc_iff _) I). assert (V : validate_array_imc (rf_array f) = Ok true).
      { apply array_imc_iff; [intros l E; rewrite O1 in E; injection E as <-; reflexivity|]. split; [eauto|exact Di]. }
      rewrite V. cbn [rbind]. rewrite G3. cbn [rbind]. rewrite (proj2 (cells_iff f _ _ _ O) (ex_intro _ cells C)). cbn [rbind]. rewrite G1, G2, G4. reflexivity.
Qed.

(** * The array *)

Lemma items_ok dims : forall sizes, (forall d, In d dims -> dimension_label d) -> length sizes = length dims ->
  dimension_items dims sizes = Ok (combine dims sizes).
Proof.
  induction dims as [|d dims IH]; intros sizes D L; [reflexivity|]. cbn [dimension_items].
  rewrite (proj2 (oa_dimension_iff d d)) by (split; [apply D; now left|reflexivity]). cbn [rbind]. destruct sizes as [|s sizes]; [discriminate L|].
  rewrite IH; [reflexivity|intros x I; apply D; now right|injection L as L; exact L].
Qed.
Lemma sizes_ok a : proper_sizes a -> dimension_sizes a = Ok (dict_of (combine (ra_dims a) (ra_sizes a))).
Proof. intros (D & L & _). unfold dimension_sizes. now rewrite items_ok. Qed.
Lemma combine_fst {A B} (l : list A) (l' : list B) : length l' = length l -> map fst (combine l l') = l.
Proof. revert l'. induction l as [|x l IH]; intros [|y l'] L; try discriminate L; [reflexivity|]. cbn. f_equal. apply IH. injection L as L. exact L. Qed.
Lemma combine_snd {A B} (l : list A) (l' : list B) : length l' = length l -> map snd (combine l l') = l'.
Proof. revert l'. induction l as [|x l IH]; intros [|y l'] L; try discriminate L; [reflexivity|]. cbn. f_equal. apply IH. injection L as L. exact L. Qed.
Lemma sizes_as_ok a k : proper_sizes a ->
  let d := dict_of (combine (ra_dims a) (ra_sizes a)) in sizes_as a (mkArray d (zprod (map snd d)) k).
Proof.
  intros (D & L & _) d. unfold sizes_as. cbn [ar_sizes ar_units]. split; [apply NoDup_dict_of|]. split; [intros x n; apply dict_of_last|].
  intros N. assert (E : d = combine (ra_dims a) (ra_sizes a)) by (apply dict_of_nodup; rewrite combine_fst; assumption).
  split; [exact E|]. rewrite E, combine_snd by exact L. reflexivity.
Qed.

(** * Dataflows *)

Lemma dataflow_fits s : proper_dataflow s -> fits_unrolling s = true.
Proof.
  intros (a & w & -> & Na & Ha & W). apply all_digits_iff in W. destruct W as [Nw W]. destruct (word_total w W Nw) as (n & En).
  assert (U : unrolls (a ++ ", " ++ w)%string (a, n)).
  { exists w. cbn [fst snd]. split; [reflexivity|]. split; [exists a, ""; split; [now rewrite str_app_nil|]; split; [exact Na|]; split; [exact Ha|intros c []]|].
    split; [exact Nw|]. split; [intros c I; apply digit_in; auto|exact En]. }
  exact (proj1 (unrolls_fits _ _ U)).
Qed.
Lemma dataflows_ok f : proper_dataflows f -> exists d, create_dataflows f = Ok d /\
  forall nm ar h areas t, dataflows_as f (mkAccel nm ar h areas t d).
Proof.
  unfold proper_dataflows, create_dataflows, dataflows_as. destruct (rf_dataflows f) as [[user|]|]; [|intros []|intros _; exists None; split; reflexivity].
  intros [_ H]. assert (H' : forall oa texts, In (oa, texts) user -> In oa array_dims /\ forall t, In t texts -> fits_unrolling t = true).
  { intros oa texts I. destruct (H oa texts I) as [I1 I2]. split; [exact I1|]. intros t It. apply dataflow_fits. auto. }
  destruct (rmap_keyed (fun kv => oa <- oa_dimension (fst kv);; d <- mapping_single_oa_dim (snd kv);; Ok (oa, d)) (fun _ _ _ => True) user) as (l & El & _).
  { intros oa texts I. destruct (H' _ _ I) as (Ha & Ht). destruct (single_spec texts Ht) as (l & F & El). exists (dict_of l). cbn [fst snd]. rewrite (oa_valid _ Ha). cbn [rbind]. rewrite El. split; [reflexivity|exact Logic.I]. }
  rewrite El. cbn [rbind]. exists (Some (dict_of l)). split; [reflexivity|]. intros nm ar h areas t. exists (dict_of l). split; [reflexivity|]. intros Nd.
  destruct (spatial_spec (Model_MapFile.mkEntry "" (Some user) [] [] []) user eq_refl Nd H') as (sm & E & Hd). unfold create_spatial_mapping in E. cbn [en_spatial] in E. rewrite El in E. cbn [rbind] in E.
  injection E as <-. exact Hd.
Qed.

(** * Ports and costs *)

Lemma port_type_iff s t : port_type s = Ok t <-> port_kind s t.
Proof.
  unfold port_type. split.
  - repeat match goal with |- context [eqb ?a ?b] => destruct (eqb_spec a b) as [E|_]; [subst; intros [= <-]; constructor|] end. discriminate.
  - intros K. destruct K; reflexivity.
Qed.
Lemma port_fun s t t' : port_kind s t -> port_kind s t' -> t = t'.
Proof. intros K K'. destruct K; inversion K'; reflexivity. Qed.
Lemma create_port_ok p : proper_port p -> exists s, create_port p = Ok s /\ port_as p s.
Proof.
  intros (_ & _ & t & K & A). unfold create_port. rewrite (proj2 (port_type_iff _ _) K). cbn [rbind].
  assert (G : exists al, rmap split_allocation (rp_alloc p) = Ok al /\ Forall2 (fun text x => exists d, says text (fst x) d /\ snd x = direction_name d) (rp_alloc p) al).
  { induction (rp_alloc p) as [|s l IH]; [exists []; split; [reflexivity|constructor]|]. destruct (A s (or_introl eq_refl)) as (op & d & Io & Hs & _).
    destruct IH as (al & E & F); [intros x I; apply A; now right|]. exists ((op, direction_name d) :: al). cbn [rmap]. rewrite (split_says _ _ _ Io Hs). cbn [rbind]. rewrite E.
    split; [reflexivity|]. constructor; [exists d; split; [exact Hs|reflexivity]|exact F]. }
  destruct G as (al & -> & F). cbn [rbind]. eexists. split; [reflexivity|]. unfold port_as. cbn. repeat split; assumption.
Qed.
Lemma create_ports_ok ps : (forall p, In p ps -> proper_port p) -> exists ss, rmap create_port ps = Ok ss /\ Forall2 port_as ps ss.
Proof.
  induction ps as [|p ps IH]; intros H; [exists []; split; [reflexivity|constructor]|]. destruct (create_port_ok p (H p (or_introl eq_refl))) as (s & E & A).
  destruct IH as (ss & El & F); [intros x I; apply H; now right|]. exists (s :: ss). cbn [rmap]. rewrite E. cbn [rbind]. rewrite El. split; [reflexivity|]. constructor; assumption.
Qed.

Lemma find_kind (t : ptype) (s : string) (test : portspec -> bool) ps ss : port_kind s t -> (forall x, test x = true <-> ps_type x = t) -> Forall2 port_as ps ss ->
  match find test ss with
  | Some x => exists p, first_kind s ps p /\ ps_bw_max x = rp_max p
  | None => forall y, In y ps -> rp_type y <> s
  end.
Proof.
  intros K T F. induction F as [|p x ps ss A F IH]; [intros y []|]. cbn [find]. assert (A' := A). destruct A as (_ & Kp & _ & B & _). destruct (test x) eqn:Et.
  - exists p. split; [|exact B]. exists [], ps. split; [reflexivity|]. split; [|intros y []]. apply T in Et. rewrite Et in Kp. destruct K; inversion Kp; reflexivity.
  - assert (N : rp_type p <> s). { intros E. rewrite E in Kp. assert (X := port_fun _ _ _ Kp K). apply T in X. congruence. }
    destruct (find test ss) as [z|].
    + destruct IH as (q & (pre & post & -> & Eq & Hp) & Eb). exists q. split; [|exact Eb]. exists (p :: pre), post. split; [reflexivity|]. split; [exact Eq|]. intros y [<-|I]; auto.
    + intros y [<-|I]; auto.
Qed.
Lemma first_kind_in t ps p : first_kind t ps p -> In p ps /\ rp_type p = t.
Proof. intros (pre & post & -> & E & _). split; [apply in_or_app; right; now left|exact E]. Qed.
Lemma first_kind_fun t ps p p' : first_kind t ps p -> first_kind t ps p' -> p = p'.
Proof.
  intros (pre & post & -> & E & H) (pre' & post' & E2 & E' & H'). revert pre' E2 H'. induction pre as [|x pre IH]; intros [|y pre'] E2 H'; cbn in E2.
  - congruence.
  - injection E2 as -> E2. exfalso. exact (H' y (or_introl eq_refl) E).
  - injection E2 as -> E2. exfalso. exact (H p' (or_introl eq_refl) E').
  - injection E2 as -> E2. apply (IH (fun z I => H z (or_intror I)) pre' E2). intros z I. apply H'. now right.
Qed.
Lemma read_width_fun m bw bw' : read_width m bw -> read_width m bw' -> bw = bw'.
Proof.
  intros (p & -> & H) (p' & -> & H'). f_equal. destruct H as [H|(N & H)], H' as [H'|(N' & H')].
  - exact (first_kind_fun _ _ _ _ H H').
  - exfalso. destruct (first_kind_in _ _ _ H) as [I E]. exact (N' _ I E).
  - exfalso. destruct (first_kind_in _ _ _ H') as [I E]. exact (N _ I E).
  - exact (first_kind_fun _ _ _ _ H H').
Qed.
Lemma asks_fun tech m (q q' : request) : asks tech m q -> asks tech m q' -> q = q'.
Proof.
  intros (A1 & A2 & A3 & A4 & A5 & A6 & A7 & A8) (B1 & B2 & B3 & B4 & B5 & B6 & B7 & B8). assert (W := read_width_fun _ _ _ A3 B3).
  destruct q, q'; cbn in *. congruence.
Qed.
Lemma is_read_iff x : is_read x = true <-> ps_type x = PRead.
Proof. unfold is_read. destruct (ps_type x); split; congruence. Qed.
Lemma is_rw_iff x : is_read_write x = true <-> ps_type x = PReadWrite.
Proof. unfold is_read_write. destruct (ps_type x); split; congruence. Qed.
Lemma request_iff tech m ss q : Forall2 port_as (rm_ports m) ss ->
  (instance_request tech (mem_type m) (rm_size m) ss = Ok q <-> asks tech m q).
Proof.
  intros F. assert (R := find_kind PRead "read" is_read _ _ kind_read is_read_iff F). assert (W := find_kind PReadWrite "read_write" is_read_write _ _ kind_both is_rw_iff F).
  assert (G : forall bw, read_width m bw -> asks tech m (mkRequest (mem_type m) (rm_size m) bw 1 1 0 1 tech)).
  { intros bw Hb. unfold asks. cbn. repeat split. exact Hb. }
  unfold instance_request. destruct (find is_read ss) as [x|].
  - destruct R as (p & Hp & E). assert (Hw : read_width m (ps_bw_max x)) by (exists p; split; [exact E|left; exact Hp]). split; [intros [= <-]; apply G; exact Hw|].
    intros A. f_equal. exact (asks_fun _ _ _ _ (G _ Hw) A).
  - destruct (find is_read_write ss) as [x|].
    + destruct W as (p & Hp & E). assert (Hw : read_width m (ps_bw_max x)) by (exists p; split; [exact E|right; split; [exact R|exact Hp]]). split; [intros [= <-]; apply G; exact Hw|].
      intros A. f_equal. exact (asks_fun _ _ _ _ (G _ Hw) A).
    + split; [discriminate|]. intros (_ & _ & (p & _ & [Hp|(_ & Hp)]) & _); apply first_kind_in in Hp; destruct Hp as [I E]; [destruct (R _ I E)|destruct (W _ I E)].
Qed.

(** costs of one memory *)
Inductive cost (sim : simulator) (tech : Z) (p : pool) (m : raw_memory) : Q * Q * Q -> pool -> Prop :=
| cost_written r w a : ~ automatic m -> rm_read m = Some r -> rm_write m = Some w -> rm_area m = Some a -> cost sim tech p m (r, w, a) p
| cost_extracted q r w a p1 ran : automatic m -> asks tech m q -> get_item sim q p = (Costs r w a, p1, ran) -> cost sim tech p m (r, w, a) p1.
Lemma priced_cons sim tech p m ms c cs p' : priced sim tech p (m :: ms) (c :: cs) p' <-> exists p1, cost sim tech p m c p1 /\ priced sim tech p1 ms cs p'.
Proof.
  split.
  - intros H. inversion H; subst; [exists p; split; [constructor; assumption|assumption]|]. exists p1. split; [econstructor; eassumption|assumption].
  - intros (p1 & C & P). inversion C; subst; [apply priced_written; assumption|]. eapply priced_extracted; eassumption.
Qed.
Lemma priced_nil_inv sim tech p ms p' : priced sim tech p ms [] p' -> ms = [] /\ p' = p.
Proof. intros H. inversion H; auto. Qed.
Lemma costs_ok sim tech m ss p r w a p1 : Forall2 port_as (rm_ports m) ss ->
  (memory_costs sim tech m ss p = Ok (Some r, Some w, Some a, p1) <-> cost sim tech p m (r, w, a) p1).
Proof.
  intros F. unfold memory_costs. destruct (auto_cost m) eqn:Ea.
  - apply auto_iff in Ea. split.
    + intros H. apply rbind_Ok in H. destruct H as (q & Eq & H). destruct (get_item sim q p) as [[ans p2] ran] eqn:G. destruct ans; try discriminate H.
      injection H as <- <- <- <-. apply (request_iff tech m ss q F) in Eq. exact (cost_extracted sim tech p m q read write area p2 ran Ea Eq G).
    + intros C. inversion C as [|q r' w' a' p2 ran A Q G]; subst; [contradiction|]. apply (request_iff tech m ss q F) in Q. rewrite Q. cbn [rbind]. rewrite G. reflexivity.
  - assert (N : ~ automatic m) by (intros X; apply auto_iff in X; congruence). split.
    + intros [= E1 E2 E3 <-]. constructor; assumption.
    + intros C. inversion C; subst; [congruence|contradiction].
Qed.

(** * Memories *)

Lemma served_ok dims l : (forall d, In d dims -> dimension_label d) -> (forall d, In d l -> In d dims) -> rmap oa_dimension l = Ok l.
Proof.
  intros D S0. induction l as [|d l IH]; [reflexivity|]. cbn [rmap]. rewrite (proj2 (oa_dimension_iff d d)) by (split; [apply D, S0; now left|reflexivity]).
  cbn [rbind]. rewrite IH; [reflexivity|intros x I; apply S0; now right].
Qed.
Lemma create_memory_iff sim tech dims h areas p m h' areas' p' : (forall d, In d dims -> dimension_label d) -> proper_memory dims m ->
  (create_memory sim tech (h, areas, p) m = Ok (h', areas', p') <->
   exists c s, cost sim tech p m c p' /\ memory_as m c s /\ add_memory h s = Ok h' /\ areas' = areas ++ [snd c]).
Proof.
  intros D (_ & P & S0 & _). destruct (create_ports_ok _ P) as (ss & Es & F). unfold create_memory. rewrite Es. cbn [rbind]. split.
  - intros H. apply rbind_Ok in H. destruct H as ([[[r w] a] p1] & Ec & H). destruct r as [r|]; [|discriminate H]. destruct w as [w|]; [|discriminate H]. destruct a as [a|]; [|discriminate H].
    rewrite (served_ok dims _ D S0) in H. cbn [rbind] in H. apply rbind_Ok in H. destruct H as (h1 & Ea & H). injection H as <- <- <-.
    apply (costs_ok sim tech m ss p r w a p1 F) in Ec. exists (r, w, a). eexists. split; [exact Ec|]. split; [|split; [exact Ea|reflexivity]].
    unfold memory_as. cbn. repeat split. exact F.
  - intros ([[r w] a] & s & C & A & Ea & ->). apply (costs_ok sim tech m ss p r w a p' F) in C. rewrite C. cbn [rbind]. rewrite (served_ok dims _ D S0). cbn [rbind].
    assert (E : mkMemspec (rm_size m) r w (rm_operands m) ss (rm_served m) = s).
    { destruct A as (A1 & A2 & A3 & A4 & A5 & A6). destruct s as [sz r' w' ops ps sv]. cbn in *. subst. f_equal.
      assert (G : forall (x : raw_port) y z, proper_port x -> port_as x y -> port_as x z -> y = z).
      { intros x y z (_ & _ & tx & _ & Px) (B1 & B2 & B3 & B4 & B5) (C1 & C2 & C3 & C4 & C5). destruct y as [y1 y2 y3 y4 y5], z as [z1 z2 z3 z4 z5]. cbn in *.
        f_equal; try congruence; [exact (port_fun _ _ _ B2 C2)|]. revert z5 C5. revert Px. induction B5 as [|t u l l' Bt B5 IH]; intros Px z5 C5; inversion C5 as [|t' v ? l2 Ct Cl]; subst; [reflexivity|].
        f_equal; [|apply IH; [intros t0 I0; apply Px; now right|exact Cl]]. destruct Bt as (d & Hd & Ed), Ct as (d' & Hd' & Ed'). destruct u as [u1 u2], v as [v1 v2]. cbn in *. subst.
        destruct (Px t (or_introl eq_refl)) as (op & d0 & Io & Hs & _). assert (op = u1) as -> by exact (says_operand _ _ _ _ _ Io Hs Hd).
        assert (u1 = v1) as -> by exact (says_operand _ _ _ _ _ Io Hs Hd'). destruct (says_fun _ _ _ _ _ Io Io Hd Hd') as [_ ->]. reflexivity. }
      clear Es C Ea. revert ps A6 P. induction F as [|x y l l' Fx F IH]; intros ps A6 P; inversion A6 as [|x' z ? l2 Cx Cl]; subst; [reflexivity|].
      f_equal; [apply (G x); [apply P; now left|exact Fx|exact Cx]|]. apply IH; [exact Cl|intros q I; apply P; now right]. }
    rewrite E, Ea. reflexivity.
Qed.

Lemma memories_iff sim tech dims ms : (forall d, In d dims -> dimension_label d) -> (forall m, In m ms -> proper_memory dims m) -> forall h areas p h' areas' p',
  rfold (create_memory sim tech) (h, areas, p) ms = Ok (h', areas', p') <->
  exists cs ss, priced sim tech p ms cs p' /\ Forall2 (fun mc s => memory_as (fst mc) (snd mc) s) (combine ms cs) ss /\ length ss = length ms /\
    rfold add_memory h ss = Ok h' /\ areas' = areas ++ map snd cs.
Proof.
  intros D. induction ms as [|m ms IH]; intros P h areas p h' areas' p'.
  - cbn [rfold]. split.
    + intros [= <- <- <-]. exists [], []. split; [constructor|]. split; [constructor|]. split; [reflexivity|]. split; [reflexivity|]. now rewrite app_nil_r.
    + intros (cs & ss & Hp & F & L & E & ->). inversion Hp; subst. destruct ss; [|discriminate L]. cbn in E. injection E as <-. cbn. now rewrite app_nil_r.
  - assert (Pm : proper_memory dims m) by (apply P; now left). assert (IH' := IH (fun x I => P x (or_intror I))). clear IH. cbn [rfold]. split.
    + destruct (create_memory sim tech (h, areas, p) m) as [[[h1 areas1] p1]|] eqn:E; [|discriminate]. cbn [rbind]. intros H.
      apply (create_memory_iff sim tech dims _ _ _ _ _ _ _ D Pm) in E. destruct E as (c & s & C & A & Ea & ->).
      apply IH' in H. destruct H as (cs & ss & Hp & F & L & Er & ->). exists (c :: cs), (s :: ss). split; [apply priced_cons; eauto|].
      split; [constructor; assumption|]. split; [cbn; congruence|]. split; [cbn [rfold]; rewrite Ea; exact Er|]. cbn [map]. now rewrite <- app_assoc.
    + intros (cs & ss & Hp & F & L & Er & ->). destruct cs as [|c cs]; [inversion Hp|]. apply priced_cons in Hp. destruct Hp as (p1 & C & Hp).
      destruct ss as [|s ss]; [discriminate L|]. inversion F as [|? ? ? ? A F']; subst. cbn [fst snd] in A. cbn [rfold] in Er. destruct (add_memory h s) as [h1|] eqn:Ea; [|discriminate Er].
      rewrite (proj2 (create_memory_iff sim tech dims h areas p m h1 (areas ++ [snd c]) p1 D Pm)) by (exists c, s; split; [exact C|split; [exact A|split; [exact Ea|reflexivity]]]). cbn [rbind]. apply IH'. exists cs, ss.
      split; [exact Hp|]. split; [exact F'|]. split; [injection L as L; exact L|]. split; [exact Er|]. cbn [map]. now rewrite <- app_assoc.
Qed.

(** * Allocations name operands of the memory *)

Lemma one_keys name al : forall acc acc', rfold (allocate_one name) acc al = Ok acc' -> keys acc' = keys acc /\ forall x, In x al -> In (fst x) (keys acc).
Proof.
  induction al as [|a al IH]; intros acc acc' E; [cbn in E; injection E as <-; split; [reflexivity|intros x []]|].
  cbn [rfold] in E. destruct (allocate_one name acc a) as [acc1|] eqn:E1; [|discriminate]. unfold allocate_one in E1.
  apply rbind_Ok in E1. destruct E1 as (d & _ & E1). apply rbind_Ok in E1. destruct E1 as (i & Ei & E1). injection E1 as <-.
  apply dgetr_Ok in Ei. apply dget_Some_key in Ei. destruct (IH _ _ E) as [K1 K2]. rewrite keys_dset_in in K1, K2 by exact Ei.
  split; [exact K1|]. intros x [<-|I]; [exact Ei|auto].
Qed.
Lemma all_keys ps : forall acc acc', rfold (fun acc p => rfold (allocate_one (ps_name p)) acc (ps_alloc p)) acc ps = Ok acc' ->
  keys acc' = keys acc /\ forall p x, In p ps -> In x (ps_alloc p) -> In (fst x) (keys acc).
Proof.
  induction ps as [|p ps IH]; intros acc acc' E; [cbn in E; injection E as <-; split; [reflexivity|intros p x []]|].
  cbn [rfold] in E. destruct (rfold (allocate_one (ps_name p)) acc (ps_alloc p)) as [acc1|] eqn:E1; [|discriminate].
  destruct (one_keys _ _ _ _ E1) as [K1 K2]. destruct (IH _ _ E) as [K3 K4]. rewrite K1 in K3, K4. split; [exact K3|]. intros q x [<-|I] Ix; eauto.
Qed.
Lemma add_own h s h' : add_memory h s = Ok h' -> forall p x, In p (ms_ports s) -> In x (ps_alloc p) -> In (fst x) (ms_operands s).
Proof.
  unfold add_memory. intros E. apply rbind_Ok in E. destruct E as (al & Ea & _). unfold create_port_allocation in Ea. cbv zeta in Ea. apply rbind_Ok in Ea. destruct Ea as (acc & Ea & _).
  destruct (all_keys _ _ _ Ea) as [_ H]. intros p x Ip Ix. assert (G := H p x Ip Ix). destruct (start_table (ms_operands s)) as (_ & K & _). apply K. exact G.
Qed.
Lemma build_own ss : forall h h', rfold add_memory h ss = Ok h' -> forall s p x, In s ss -> In p (ms_ports s) -> In x (ps_alloc p) -> In (fst x) (ms_operands s).
Proof.
  induction ss as [|s ss IH]; intros h h' E; [intros ? ? ? []|]. cbn [rfold] in E. destruct (add_memory h s) as [h1|] eqn:E1; [|discriminate].
  intros s' p x [<-|I] Ip Ix; [exact (add_own _ _ _ E1 p x Ip Ix)|exact (IH _ _ E s' p x I Ip Ix)].
Qed.

Lemma F2_in_l {A B} (R : A -> B -> Prop) l l' x : Forall2 R l l' -> In x l -> exists y, In y l' /\ R x y.
Proof. induction 1 as [|a b l l' H F IH]; intros I; [destruct I|]. destruct I as [<-|I]; [exists b; split; [now left|exact H]|]. destruct (IH I) as (y & Iy & Hy). exists y. split; [now right|exact Hy]. Qed.
Lemma F2_in_r {A B} (R : A -> B -> Prop) l l' y : Forall2 R l l' -> In y l' -> exists x, In x l /\ R x y.
Proof. induction 1 as [|a b l l' H F IH]; intros I; [destruct I|]. destruct I as [<-|I]; [exists a; split; [now left|exact H]|]. destruct (IH I) as (x & Ix & Hx). exists x. split; [now right|exact Hx]. Qed.
Lemma priced_length sim tech p ms cs p' : priced sim tech p ms cs p' -> length cs = length ms.
Proof. induction 1; cbn; congruence. Qed.

(** the two conditions on allocations agree *)
Lemma own_allocated m c s : (forall p, In p (rm_ports m) -> proper_port p) -> memory_as m c s ->
  (forall p text op d, In p (rm_ports m) -> In text (rp_alloc p) -> says text op d -> In op (rm_operands m)) -> well_allocated s.
Proof.
  intros P (_ & _ & _ & O & _ & F) H q op x Iq Ix. destruct (F2_in_r _ _ _ _ F Iq) as (p & Ip & (N & _ & _ & _ & A)).
  destruct (F2_in_r _ _ _ _ A Ix) as (text & It & d & Hs & Ed). cbn [fst snd] in *. rewrite O. split; [exact (H p text op d Ip It Hs)|].
  split; [exists d; exact Ed|]. rewrite N. apply port_label_iff. apply (P p Ip).
Qed.
Lemma allocated_own m c s : (forall p, In p (rm_ports m) -> proper_port p) -> memory_as m c s ->
  (forall p x, In p (ms_ports s) -> In x (ps_alloc p) -> In (fst x) (ms_operands s)) ->
  forall p text op d, In p (rm_ports m) -> In text (rp_alloc p) -> says text op d -> In op (rm_operands m).
Proof.
  intros P (_ & _ & _ & O & _ & F) H p text op d Ip It Hs. destruct (F2_in_l _ _ _ _ F Ip) as (q & Iq & (_ & _ & _ & _ & A)).
  destruct (F2_in_l _ _ _ _ A It) as (x & Ix & d' & Hs' & _). rewrite <- O. assert (G := H q x Iq Ix).
  destruct (P p Ip) as (_ & _ & tp & _ & Pa). destruct (Pa text It) as (op0 & d0 & Io & Hs0 & _).
  assert (op0 = op) as <- by exact (says_operand _ _ _ _ _ Io Hs0 Hs). assert (op0 = fst x) as -> by exact (says_operand _ _ _ _ _ Io Hs0 Hs'). exact G.
Qed.

Lemma tables_total k ms h : build k ms = Ok h -> exists t, accelerator h = Ok t.
Proof. intros E. destruct (sharing_spec k ms h E) as (hd & Eh & _). unfold accelerator. rewrite Eh. eexists. reflexivity. Qed.

(** what the loop over memories and the tables give *)
Lemma memories_built sim tech p f : (forall d, In d (ra_dims (rf_array f)) -> dimension_label d) ->
  (forall x m, In (x, m) (rf_memories f) -> proper_memory (ra_dims (rf_array f)) m) ->
  serves_own f -> forall cs p', priced sim tech p (map snd (rf_memories f)) cs p' ->
  exists h t, rfold (create_memory sim tech) (no_hierarchy 0, [], p) (map snd (rf_memories f)) = Ok (h, map snd cs, p') /\ accelerator h = Ok t /\
    forall nm ar d, memories_as sim tech p f (mkAccel nm ar h (map snd cs) t d) p'.
Proof.
  intros D P H cs p' Hp. assert (P' : forall m, In m (map snd (rf_memories f)) -> proper_memory (ra_dims (rf_array f)) m).
  { intros m I. apply in_map_iff in I. destruct I as ([x m'] & <- & I). exact (P x m' I). }
  assert (Lc := priced_length _ _ _ _ _ _ Hp).
  assert (G : exists ss, Forall2 (fun mc s => memory_as (fst mc) (snd mc) s) (combine (map snd (rf_memories f)) cs) ss /\ length ss = length (map snd (rf_memories f))).
  { clear Hp H. revert cs Lc P'. generalize (map snd (rf_memories f)). clear P. intros l. induction l as [|m l IH]; intros [|c cs] L P'; try discriminate L.
    - exists []. split; [constructor|reflexivity].
    - destruct (IH cs) as (ss & F & Ls); [injection L as L; exact L|intros x I; apply P'; now right|]. destruct (P' m (or_introl eq_refl)) as (_ & Pp & _).
      destruct (create_ports_ok _ Pp) as (ps & _ & Fp). exists (mkMemspec (rm_size m) (fst (fst c)) (snd (fst c)) (rm_operands m) ps (rm_served m) :: ss).
      split; [|cbn; congruence]. constructor; [|exact F]. unfold memory_as. cbn. repeat split. exact Fp. }
  destruct G as (ss & F & Ls).
  assert (W : forall s, In s ss -> well_allocated s).
  { intros s I. destruct (F2_in_r _ _ _ _ F I) as ([m c] & Im & A). cbn [fst snd] in A. apply in_combine_l in Im. assert (Im' := Im). apply in_map_iff in Im'. destruct Im' as ([x m'] & E' & Ix). cbn [snd] in E'. subst m'.
    apply (own_allocated m c s); [apply (P' m Im)|exact A|]. intros q text op d Iq It Hs. exact (H x m q text op d Ix Iq It Hs). }
  destruct (build_total 0 ss W) as (h & Eh). destruct (tables_total 0 ss h Eh) as (t & Et). exists h, t.
  split; [|split; [exact Et|]].
  - apply (memories_iff sim tech _ _ D P'). exists cs, ss. split; [exact Hp|]. split; [exact F|]. split; [exact Ls|]. split; [exact Eh|reflexivity].
  - intros nm ar d. exists cs, ss. cbn. split; [exact Hp|]. split; [exact F|]. split; [rewrite Ls; apply map_length|]. split; [exact Eh|]. split; [reflexivity|exact Et].
Qed.
Lemma memories_inv sim tech p f h areas p' t : (forall d, In d (ra_dims (rf_array f)) -> dimension_label d) ->
  (forall x m, In (x, m) (rf_memories f) -> proper_memory (ra_dims (rf_array f)) m) ->
  rfold (create_memory sim tech) (no_hierarchy 0, [], p) (map snd (rf_memories f)) = Ok (h, areas, p') -> accelerator h = Ok t ->
  serves_own f /\ (exists cs, priced sim tech p (map snd (rf_memories f)) cs p') /\ forall nm ar d, memories_as sim tech p f (mkAccel nm ar h areas t d) p'.
Proof.
  intros D P E Et. assert (P' : forall m, In m (map snd (rf_memories f)) -> proper_memory (ra_dims (rf_array f)) m).
  { intros m I. apply in_map_iff in I. destruct I as ([x m'] & <- & I). exact (P x m' I). }
  apply (memories_iff sim tech _ _ D P') in E. destruct E as (cs & ss & Hp & F & Ls & Eh & ->). cbn [app].
  split; [|split; [eauto|]].
  - intros x m q text op d Ix Iq It Hs. assert (Im : In m (map snd (rf_memories f))) by (apply in_map_iff; exists (x, m); auto).
    assert (G : exists c s, memory_as m c s /\ In s ss).
    { assert (Lc := priced_length _ _ _ _ _ _ Hp). clear - F Im Lc. revert cs Lc ss F. induction (map snd (rf_memories f)) as [|y l IH]; [destruct Im|]. intros [|c cs] L ss F; [discriminate L|].
      inversion F as [|? s ? ss' A F']; subst. destruct Im as [->|Im]; [exists c, s; split; [exact A|now left]|]. destruct (IH Im cs ltac:(injection L as L; exact L) ss' F') as (c' & s' & A' & I'). exists c', s'. split; [exact A'|now right]. }
    destruct G as (c & s & A & Is). apply (allocated_own m c s (proj1 (proj2 (P' m Im))) A (fun q' x' => build_own ss _ _ Eh s q' x' Is) q text op d Iq It Hs).
  - intros nm ar d. exists cs, ss. cbn. split; [exact Hp|]. split; [exact F|]. split; [rewrite Ls; apply map_length|]. split; [exact Eh|]. split; [reflexivity|exact Et].
Qed.

(** * Regular arrays *)

Lemma regular_builds bank adc sim tech p f p' : ~ in_memory (rf_array f) ->
  ((exists a, parse_accelerator bank adc sim tech p f = Ok (a, p')) <->
   accepted_regular f /\ ra_energy (rf_array f) <> None /\ ra_area (rf_array f) <> None /\ serves_own f /\
   exists cs, priced sim tech p (map snd (rf_memories f)) cs p') /\
  forall a, parse_accelerator bank adc sim tech p f = Ok (a, p') -> read_as sim tech p f a p' /\
    exists e u, ra_energy (rf_array f) = Some e /\ ra_area (rf_array f) = Some u /\
      ar_kind (ac_array a) = Multipliers e u (u * inject_Z (ar_units (ac_array a))).
Proof.
  intros N. assert (Ei : is_imc (rf_array f) = false) by (destruct (is_imc (rf_array f)) eqn:E; [apply imc_iff in E; contradiction|reflexivity]).
  assert (M : forall a, parse_accelerator bank adc sim tech p f = Ok (a, p') ->
    (accepted_regular f /\ ra_energy (rf_array f) <> None /\ ra_area (rf_array f) <> None /\ serves_own f /\ exists cs, priced sim tech p (map snd (rf_memories f)) cs p') /\
    read_as sim tech p f a p' /\ exists e u, ra_energy (rf_array f) = Some e /\ ra_area (rf_array f) = Some u /\
      ar_kind (ac_array a) = Multipliers e u (u * inject_Z (ar_units (ac_array a)))).
  { intros a E. unfold parse_accelerator in E. apply rbind_Ok in E. destruct E as (ok & Ev & E). destruct ok; [|discriminate E].
    assert (A : accepted_regular f). { apply accepts_iff in Ev. destruct Ev as [A|A]; [exact A|]. destruct A as (_ & A & _). contradiction. }
    assert (A' := A). destruct A' as ((S0 & P & Df) & _). unfold create, create_array in E. rewrite Ei in E. unfold create_regular in E. rewrite (sizes_ok _ S0) in E.
    destruct (ra_energy (rf_array f)) as [e|] eqn:Ee; [|discriminate E]. destruct (ra_area (rf_array f)) as [u|] eqn:Eu; [|discriminate E]. cbn [rbind of_option] in E.
    destruct (dataflows_ok f Df) as (d & Ed & Hd). rewrite Ed in E. cbn [rbind] in E. apply rbind_Ok in E. destruct E as ([[h areas] p1] & Em & E).
    apply rbind_Ok in E. destruct E as (t & Et & E). injection E as <- ->.
    destruct (memories_inv sim tech p f h areas p' t (proj1 S0) P Em Et) as (Ho & Hc & Hm).
    split; [split; [exact A|]; split; [discriminate|]; split; [discriminate|]; split; [exact Ho|exact Hc]|].
    split; [|exists e, u; repeat split].
    split; [reflexivity|]. split; [cbn [ac_array]; apply (sizes_as_ok _ _ S0)|]. split; [apply Hm|apply Hd]. }
  split; [split|].
  - intros (a & E). exact (proj1 (M a E)).
  - intros (A & Ne & Nu & Ho & cs & Hp). assert (A' := A). destruct A' as ((S0 & P & Df) & _).
    unfold parse_accelerator. rewrite (proj2 (accepts_iff f) (or_introl A)). cbn [rbind]. unfold create, create_array. rewrite Ei. unfold create_regular. rewrite (sizes_ok _ S0).
    destruct (ra_energy (rf_array f)) as [e|]; [|congruence]. destruct (ra_area (rf_array f)) as [u|]; [|congruence]. cbn [rbind of_option].
    destruct (dataflows_ok f Df) as (d & Ed & Hd). rewrite Ed. cbn [rbind]. destruct (memories_built sim tech p f (proj1 S0) P Ho cs p' Hp) as (h & t & Em & Et & Hm).
    rewrite Em. cbn [rbind]. rewrite Et. cbn [rbind]. eexists. reflexivity.
  - intros a E. exact (proj2 (M a E)).
Qed.

(** * In-memory computing *)

Lemma label_lt x y : dimension_label x -> dimension_label y -> (String.ltb x y = true <-> (label_code x < label_code y)%nat).
Proof.
  intros (c & _ & ->) (c' & _ & ->). unfold String.ltb. cbn [String.compare]. replace (Ascii.compare "D" "D") with Eq by reflexivity.
  unfold Ascii.compare, label_code, nat_of_ascii. destruct (N.compare_spec (N_of_ascii c) (N_of_ascii c')) as [E|E|E].
  - rewrite E. split; [discriminate|]. lia.
  - split; [lia|reflexivity].
  - split; [discriminate|lia].
Qed.
Lemma label_inj x y : dimension_label x -> dimension_label y -> label_code x = label_code y -> x = y.
Proof.
  intros (c & _ & ->) (c' & _ & ->). unfold label_code. intros E. f_equal. f_equal. rewrite <- (ascii_nat_embedding c), <- (ascii_nat_embedding c'). now rewrite E.
Qed.
Lemma insert_perm x l : Permutation (x :: l) (insert_dim x l).
Proof. induction l as [|y l IH]; cbn [insert_dim]; [reflexivity|]. destruct (String.ltb y x); [|reflexivity]. rewrite perm_swap. now constructor. Qed.
Lemma insert_sorted x l : (forall y, In y (x :: l) -> dimension_label y) -> ~ In x l ->
  StronglySorted (fun x y => (label_code x < label_code y)%nat) l -> StronglySorted (fun x y => (label_code x < label_code y)%nat) (insert_dim x l).
Proof.
  induction l as [|y l IH]; intros L N H; cbn [insert_dim]; [repeat constructor|]. inversion H as [|? ? H' F]; subst.
  assert (Lx : dimension_label x) by (apply L; now left). assert (Ly : dimension_label y) by (apply L; right; now left).
  destruct (String.ltb y x) eqn:E.
  - apply (label_lt y x Ly Lx) in E. constructor.
    + apply IH; [intros z [<-|I]; [exact Lx|apply L; right; now right]|intros I; apply N; now right|exact H'].
    + apply Forall_forall. intros z I. apply (Permutation_in z (Permutation_sym (insert_perm x l))) in I. destruct I as [<-|I]; [exact E|]. rewrite Forall_forall in F. auto.
  - assert (K : (label_code x < label_code y)%nat).
    { destruct (Nat.lt_trichotomy (label_code x) (label_code y)) as [K|[K|K]]; [exact K| |].
      - exfalso. apply N. left. symmetry. apply label_inj; assumption.
      - apply (label_lt y x Ly Lx) in K. congruence. }
    constructor; [exact H|]. constructor; [exact K|]. rewrite Forall_forall in *. intros z I. specialize (F z I). lia.
Qed.
Lemma sort_numbered l : (forall y, In y l -> dimension_label y) -> NoDup l -> numbered l (sort_dims l).
Proof.
  induction l as [|x l IH]; intros L N; [split; [reflexivity|constructor]|]. inversion N as [|? ? Nx Nl]; subst. destruct IH as [P H]; [intros y I; apply L; now right|exact Nl|].
  cbn [sort_dims fold_right]. fold (sort_dims l). split.
  - exact (Permutation_trans (perm_skip x P) (insert_perm x _)).
  - apply insert_sorted; [|intros I; apply Nx; exact (Permutation_in x (Permutation_sym P) I)|exact H].
    intros y [<-|I]; [apply L; now left|]. apply L. right. exact (Permutation_in y (Permutation_sym P) I).
Qed.
Lemma numbered_fun l : forall a b, numbered l a -> numbered l b -> a = b.
Proof.
  intros a b [Pa Sa] [Pb Sb]. assert (P : Permutation a b) by (now rewrite <- Pa). clear l Pa Pb. revert b P Sb. induction Sa as [|x a Sa IH F]; intros b P Sb.
  - apply Permutation_nil in P. now subst.
  - destruct Sb as [|y b Sb G]; [apply Permutation_sym, Permutation_nil in P; discriminate|].
    assert (x = y) as <-.
    { rewrite Forall_forall in F, G. destruct (Permutation_in x P (or_introl eq_refl)) as [E|I1]; [now symmetry|].
      destruct (Permutation_in y (Permutation_sym P) (or_introl eq_refl)) as [E|I2]; [exact E|]. specialize (F _ I2). specialize (G _ I1). lia. }
    f_equal. apply IH; [exact (Permutation_cons_inv P)|exact Sb].
Qed.

Lemma values_iff (d : dict string Z) : NoDup (keys d) -> forall os ns, rmap (fun o => dgetr o d) os = Ok ns <-> Forall2 (fun o (n : Z) => In (o, n) d) os ns.
Proof.
  intros N. induction os as [|o os IH]; intros ns; cbn [rmap].
  - split; [intros [= <-]; constructor|]. intros F. inversion F. reflexivity.
  - split.
    + intros H. apply rbind_Ok in H. destruct H as (n & E & H). apply rbind_Ok in H. destruct H as (l & El & H). injection H as <-.
      apply dgetr_Ok in E. constructor; [now apply dget_In|now apply IH].
    + intros F. inversion F as [|? n ? ns' I F']; subst. unfold dgetr at 1. rewrite (In_dget _ _ _ N I). cbn [of_option rbind]. apply IH in F'. rewrite F'. reflexivity.
Qed.

Lemma analog_iff (a : raw_array) : (match ra_type a with Some t => eqb t "analog" | None => false end) = true <-> ra_type a = Some "analog".
Proof. destruct (ra_type a) as [t|]; [|split; discriminate]. split; [intros E; destruct (eqb_spec t "analog"); congruence|intros [= ->]; reflexivity]. Qed.
Lemma converters_ok a n : (if (match ra_type a with Some t => eqb t "analog" | None => false end) then of_option TypeError (adc_resolution a) else Ok (default 0 (adc_resolution a))) = Ok n <-> converter_bits a n.
Proof.
  unfold converter_bits, adc_resolution, default. destruct (match ra_type a with Some t => eqb t "analog" | None => false end) eqn:E.
  - apply analog_iff in E. destruct (ra_adc a) as [[k|]|]; cbn [of_option]; split; try congruence. intros [X _]. congruence.
  - assert (N : ra_type a <> Some "analog") by (intros X; apply analog_iff in X; congruence). destruct (ra_adc a) as [[k|]|]; split; try congruence; [intros [= <-]; auto|intros [_ ->]; reflexivity].
Qed.

Definition the_array (f : raw_accel) (i : imc) figures : array :=
  mkArray (combine (ra_dims (rf_array f)) (ra_sizes (rf_array f))) (zprod (ra_sizes (rf_array f))) (InMemory i figures).
Lemma create_imc_iff bank adc f ar : proper_sizes (rf_array f) -> NoDup (ra_dims (rf_array f)) ->
  (forall l, ra_precision (rf_array f) = Some l -> length l = 2%nat) ->
  (create_imc bank adc f = Ok ar <-> exists i figures, parameters_as bank adc f i /\ construct i = Ok figures /\ ar = the_array f i figures).
Proof.
  intros S0 N L2. assert (S0' := S0). destruct S0' as (D & L & S1).
  unfold create_imc. cbv zeta. rewrite (sizes_ok _ S0).
  assert (K : keys (combine (ra_dims (rf_array f)) (ra_sizes (rf_array f))) = ra_dims (rf_array f)) by (unfold keys; now apply combine_fst).
  assert (NK : NoDup (keys (combine (ra_dims (rf_array f)) (ra_sizes (rf_array f))))) by (now rewrite K).
  rewrite (dict_of_nodup _ NK). assert (K2 := combine_snd _ _ L). assert (Hs := sort_numbered _ D N). remember (combine (ra_dims (rf_array f)) (ra_sizes (rf_array f))) as d eqn:Ed.
  split.
  - intros H. apply rbind_Ok in H. destruct H as (act & Eact & H). apply rbind_Ok in H. destruct H as (weight & Ew & H).
    apply rbind_Ok in H. destruct H as (serial & Es & H). cbn [rbind] in H. rewrite K, K2 in H. apply rbind_Ok in H. destruct H as (cells & Ec & H).
    apply rbind_Ok in H. destruct H as (wl & Ewl & H). apply rbind_Ok in H. destruct H as (word & Eword & H).
    apply rbind_Ok in H. destruct H as (bl & Ebl & H). apply rbind_Ok in H. destruct H as (bit & Ebit & H).
    apply rbind_Ok in H. destruct H as (others & Eo & H). apply rbind_Ok in H. destruct H as (area & Ea & H).
    apply rbind_Ok in H. destruct H as (ad & Ead & H). apply rbind_Ok in H. destruct H as (fig & Ef & H). injection H as <-.
    eexists. exists fig. split; [|split; [exact Ef|unfold the_array; rewrite <- Ed; reflexivity]].
    unfold parameters_as. cbn [im_analog im_act im_weight im_serial im_adc im_adc_area im_wordline im_bitline im_banks im_cells im_cells_area].
    split; [apply analog_iff|]. split.
    { unfold precision in Eact, Ew. destruct (ra_precision (rf_array f)) as [l|]; [|discriminate]. specialize (L2 l eq_refl). cbn [of_option rbind] in *.
      destruct l as [|a1 [|a2 [|]]]; try discriminate L2. cbn in Eact, Ew. congruence. }
    split; [destruct (ra_serial (rf_array f)); cbn in Es; congruence|]. split; [now apply converters_ok|]. split; [reflexivity|]. split.
    + exists others. split; [|reflexivity]. destruct (sort_dims (ra_dims (rf_array f))) as [|w [|b os]]; try discriminate Ewl; try discriminate Ebl.
      cbn in Ewl, Ebl. injection Ewl as ->. injection Ebl as ->. cbn [skipn] in Eo. exists wl, bl, os. split; [exact Hs|]. rewrite <- Ed.
      split; [apply dgetr_Ok in Eword; now apply dget_In|]. split; [apply dgetr_Ok in Ebit; now apply dget_In|]. exact (proj1 (values_iff d NK os others) Eo).
    + exists cells. apply dgetr_Ok in Ec. split; [exact Ec|]. split; [reflexivity|]. unfold cells_area_as. cbn. split.
      * intros A. apply auto_iff in A. rewrite A in Ea. apply rbind_Ok in Ea. destruct Ea as (x & Ex & Ea). destruct (Z.eqb_spec word 0) as [|Nw]; [discriminate|]. injection Ea as <-.
        split; [exact Nw|]. exists x. split; [exact Ex|reflexivity].
      * intros A. destruct (auto_cost cells) eqn:A'; [apply auto_iff in A'; contradiction|]. destruct (rm_area cells) as [x|]; [|discriminate]. injection Ea as <-. eauto.
  - intros (i & fig & (Pa & Pp & Ps & Pc & Pd & (others & (w & b & os & Hn & Iw & Ib & Fo) & Pb) & cells & Ec & Pz & Ca1 & Ca2) & Ef & ->). rewrite <- Ed in Iw, Ib, Fo.
    unfold precision. rewrite Pp, Ps. cbn [of_option rbind nth_error]. rewrite K, K2, (numbered_fun _ _ _ Hs Hn). cbn [of_option rbind nth_error]. unfold dgetr at 1. rewrite Ec. cbn [of_option rbind].
    unfold dgetr at 1. rewrite (In_dget _ _ _ NK Iw). cbn [of_option rbind]. unfold dgetr at 1. rewrite (In_dget _ _ _ NK Ib). cbn [of_option rbind skipn].
    rewrite (proj2 (values_iff d NK os others) Fo). cbn [rbind].
    assert (Ea : (if auto_cost cells then x <- bank (im_wordline i) (im_bitline i) (rm_size cells) (im_weight i);;
       (if im_wordline i =? 0 then Err ZeroDivisionError else Ok (x * inject_Z (zprod others))%Q)
       else match rm_area cells with Some x => Ok (inject_Z (zprod (ra_sizes (rf_array f))) * x)%Q | None => Err AssertionError end) = Ok (im_cells_area i)).
    { destruct (auto_cost cells) eqn:A.
      - apply auto_iff in A. destruct (Ca1 A) as (Nw & x & Ex & ->). rewrite Ex. cbn [rbind]. destruct (Z.eqb_spec (im_wordline i) 0); [contradiction|]. now rewrite Pb.
      - destruct Ca2 as (x & Ex & ->); [intros X; apply auto_iff in X; congruence|]. now rewrite Ex. }
    rewrite Ea. cbn [rbind]. rewrite (proj2 (converters_ok _ _) Pc). cbn [rbind].
    assert (Ei : mkImc (match ra_type (rf_array f) with Some t => eqb t "analog" | None => false end) (im_serial i) (im_act i) (im_weight i) (im_adc i) (im_wordline i) (im_bitline i) (zprod others) (rm_size cells) (im_cells_area i) (adc (im_adc i)) = i).
    { assert (Eb : (match ra_type (rf_array f) with Some t => eqb t "analog" | None => false end) = im_analog i).
      { assert (X := analog_iff (rf_array f)). destruct (match ra_type (rf_array f) with Some t => eqb t "analog" | None => false end), (im_analog i); try reflexivity.
        - symmetry. apply Pa, X. reflexivity.
        - apply X, Pa. reflexivity. }
      rewrite Eb, <- Pb, <- Pz, <- Pd. destruct i; reflexivity. }
    rewrite Ei, Ef. cbn [rbind]. unfold the_array. now rewrite <- Ed.
Qed.

Lemma imc_builds bank adc sim tech p f p' : in_memory (rf_array f) -> NoDup (ra_dims (rf_array f)) ->
  ((exists a, parse_accelerator bank adc sim tech p f = Ok (a, p')) <->
   accepted_imc f /\ serves_own f /\ (exists cs, priced sim tech p (map snd (rf_memories f)) cs p') /\
   exists i figures, parameters_as bank adc f i /\ construct i = Ok figures) /\
  forall a, parse_accelerator bank adc sim tech p f = Ok (a, p') -> read_as sim tech p f a p' /\
    exists i figures, ar_kind (ac_array a) = InMemory i figures /\ parameters_as bank adc f i /\ construct i = Ok figures.
Proof.
  intros Im N. assert (Ei := proj2 (imc_iff _) Im).
  assert (M : forall a, parse_accelerator bank adc sim tech p f = Ok (a, p') ->
    (accepted_imc f /\ serves_own f /\ (exists cs, priced sim tech p (map snd (rf_memories f)) cs p') /\ exists i figures, parameters_as bank adc f i /\ construct i = Ok figures) /\
    read_as sim tech p f a p' /\ exists i figures, ar_kind (ac_array a) = InMemory i figures /\ parameters_as bank adc f i /\ construct i = Ok figures).
  { intros a E. unfold parse_accelerator in E. apply rbind_Ok in E. destruct E as (ok & Ev & E). destruct ok; [|discriminate E].
    assert (A : accepted_imc f). { apply accepts_iff in Ev. destruct Ev as [A|A]; [|exact A]. destruct A as (_ & A & _). contradiction. }
    assert (A' := A). destruct A' as ((S0 & P & Df) & _ & _ & _ & act & weight & serial & cells & Ep & _). unfold create, create_array in E. rewrite Ei in E.
    apply rbind_Ok in E. destruct E as (ar & Ear & E). apply (create_imc_iff bank adc f ar S0 N) in Ear; [|intros l El; rewrite Ep in El; injection El as <-; reflexivity].
    destruct Ear as (i & fig & Pi & Ef & ->). destruct (dataflows_ok f Df) as (d & Ed & Hd). rewrite Ed in E. cbn [rbind] in E. apply rbind_Ok in E. destruct E as ([[h areas] p1] & Em & E).
    apply rbind_Ok in E. destruct E as (t & Et & E). injection E as <- ->.
    destruct (memories_inv sim tech p f h areas p' t (proj1 S0) P Em Et) as (Ho & Hc & Hm).
    split; [split; [exact A|]; split; [exact Ho|]; split; [exact Hc|eauto]|].
    split; [|exists i, fig; split; [reflexivity|split; assumption]].
    split; [reflexivity|]. split; [|split; [apply Hm|apply Hd]]. cbn [ac_array]. unfold the_array.
    assert (X := sizes_as_ok (rf_array f) (InMemory i fig) S0). cbv zeta in X. assert (K : keys (combine (ra_dims (rf_array f)) (ra_sizes (rf_array f))) = ra_dims (rf_array f)) by (unfold keys; apply combine_fst; apply S0).
    assert (NK : NoDup (keys (combine (ra_dims (rf_array f)) (ra_sizes (rf_array f))))) by (rewrite K; exact N). rewrite (dict_of_nodup _ NK) in X. rewrite (combine_snd _ _ (proj1 (proj2 S0))) in X. exact X. }
  split; [split|].
  - intros (a & E). exact (proj1 (M a E)).
  - intros (A & Ho & (cs & Hp) & i & fig & Pi & Ef). assert (A' := A). destruct A' as ((S0 & P & Df) & _ & _ & _ & act & weight & serial & cells & Ep & _).
    unfold parse_accelerator. rewrite (proj2 (accepts_iff f) (or_intror A)). cbn [rbind]. unfold create, create_array. rewrite Ei.
    rewrite (proj2 (create_imc_iff bank adc f (the_array f i fig) S0 N ltac:(intros l El; rewrite Ep in El; injection El as <-; reflexivity))) by (exists i, fig; auto). cbn [rbind].
    destruct (dataflows_ok f Df) as (d & Ed & Hd). rewrite Ed. cbn [rbind]. destruct (memories_built sim tech p f (proj1 S0) P Ho cs p' Hp) as (h & t & Em & Et & Hm).
    rewrite Em. cbn [rbind]. rewrite Et. cbn [rbind]. eexists. reflexivity.
  - intros a E. exact (proj2 (M a E)).
Qed.

Lemma workable_parameters bank adc f : accepted_imc f -> workable bank adc f ->
  exists i figures, parameters_as bank adc f i /\ construct i = Ok figures.
Proof.
  intros ((S0 & P & _) & _ & _ & _ & act & weight & serial & cells & Ep & Es & Pa & Pw & Ps & Le & Ec & _).
  intros (N & L2 & S1 & (n & Hn & Nn) & Ha & Hr & Hc). destruct S0 as (D & L & _). destruct (Hc cells Ec) as [Hc1 Hc2].
  assert (Hs := sort_numbered _ D N). assert (L3 := Permutation_length (proj1 Hs)). destruct (sort_dims (ra_dims (rf_array f))) as [|w [|b os]] eqn:Eo; [cbn in L3; lia|cbn in L3; lia|].
  assert (G : forall o, In o (w :: b :: os) -> exists k, In (o, k) (combine (ra_dims (rf_array f)) (ra_sizes (rf_array f))) /\ 1 <= k).
  { intros o I. apply (Permutation_in o (Permutation_sym (proj1 Hs))) in I. rewrite <- (combine_fst _ _ L) in I. apply in_map_iff in I. destruct I as ([o' k] & <- & I).
    exists k. split; [exact I|]. apply S1. exact (in_combine_r _ _ _ _ I). }
  destruct (G w) as (word & Iw & Pw1); [now left|]. destruct (G b) as (bit & Ib & Pb1); [right; now left|].
  assert (Go : exists others, Forall2 (fun o k => In (o, k) (combine (ra_dims (rf_array f)) (ra_sizes (rf_array f)))) os others /\ forall k, In k others -> 1 <= k).
  { assert (G' : forall o, In o os -> exists k, In (o, k) (combine (ra_dims (rf_array f)) (ra_sizes (rf_array f))) /\ 1 <= k) by (intros o I; apply G; right; now right).
    clear - G'. induction os as [|o os IH]; [exists []; split; [constructor|intros k []]|]. destruct IH as (ks & F & Hk); [intros x I; apply G'; now right|].
    destruct (G' o (or_introl eq_refl)) as (k & I & Hk1). exists (k :: ks). split; [constructor; assumption|]. intros x [<-|Ix]; auto. }
  destruct Go as (others & Fo & Ho). assert (Hb : 1 <= zprod others) by (assert (X : 0 < zprod others); [apply zprod_pos; intros k I; specialize (Ho k I); lia|lia]).
  assert (Hu : 0 <= zprod (ra_sizes (rf_array f))) by (assert (X : 0 < zprod (ra_sizes (rf_array f))); [apply zprod_pos; intros k I; specialize (S1 k I); lia|lia]).
  assert (Hl : lines (rf_array f) word bit others) by (exists w, b, os; split; [exact Hs|]; split; [exact Iw|]; split; [exact Ib|exact Fo]).
  assert (Ga : exists area, (0 <= area)%Q /\
     (automatic cells -> word <> 0 /\ exists x, bank word bit (rm_size cells) weight = Ok x /\ area = (x * inject_Z (zprod others))%Q) /\
     (~ automatic cells -> exists x, rm_area cells = Some x /\ area = (inject_Z (zprod (ra_sizes (rf_array f))) * x)%Q)).
  { destruct (auto_cost cells) eqn:A.
    - apply auto_iff in A. destruct (Hc2 A word bit (rm_size cells) weight) as (x & Ex & Px). exists (x * inject_Z (zprod others))%Q. split; [apply Qmul_nonneg; [exact Px|apply inject_nonneg; lia]|].
      split; [intros _; split; [lia|eauto]|intros X; contradiction].
    - assert (NA : ~ automatic cells) by (intros X; apply auto_iff in X; congruence). assert (Icells := dget_In _ _ _ Ec). destruct (P _ _ Icells) as (_ & _ & _ & _ & X).
      destruct (X NA) as (_ & _ & Xa). destruct (rm_area cells) as [x|]; [|congruence]. exists (inject_Z (zprod (ra_sizes (rf_array f))) * x)%Q.
      split; [apply Qmul_nonneg; [now apply inject_nonneg|exact (Hc1 NA x eq_refl)]|]. split; [intros Y; contradiction|intros _; eauto]. }
  destruct Ga as (area & Na & Ga1 & Ga2).
  set (i := mkImc (match ra_type (rf_array f) with Some t => eqb t "analog" | None => false end) serial act weight n word bit (zprod others) (rm_size cells) area (adc n)).
  assert (V : valid i).
  { constructor; subst i; cbn [im_analog im_act im_weight im_serial im_adc im_adc_area im_wordline im_bitline im_banks im_cells im_cells_area]; auto.
    intros An. apply (Hr ltac:(intros X; apply analog_iff in X; congruence) _ _ _ Hl). }
  assert (R : im_analog i = true \/ 2 <= im_bitline i).
  { subst i. cbn [im_analog im_bitline]. destruct (match ra_type (rf_array f) with Some t => eqb t "analog" | None => false end) eqn:An; [now left|right].
    apply (Hr ltac:(intros X; apply analog_iff in X; congruence) _ _ _ Hl). }
  destruct (construct_ok i V R) as (ar & tc & pk & t1 & t2 & t3 & Ef & _). exists i. eexists. split; [|exact Ef].
  split; [apply analog_iff|]. split; [exact Ep|]. split; [exact Es|]. split; [exact Hn|]. split; [reflexivity|]. split; [exists others; split; [exact Hl|reflexivity]|].
  exists cells. split; [exact Ec|]. split; [reflexivity|]. split; assumption.
Qed.

(** * Costs *)

(** what is written is used when nothing is extracted *)
Lemma priced_as_written sim tech ms p : (forall m, In m ms -> ~ automatic m /\ rm_read m <> None /\ rm_write m <> None /\ rm_area m <> None) ->
  exists cs, priced sim tech p ms cs p.
Proof.
  induction ms as [|m ms IH]; intros H; [exists []; constructor|]. destruct IH as (cs & Hp); [intros x I; apply H; now right|].
  destruct (H m (or_introl eq_refl)) as (A & R & W & Ar). destruct (rm_read m) as [r|] eqn:E1; [|congruence]. destruct (rm_write m) as [w|] eqn:E2; [|congruence]. destruct (rm_area m) as [a|] eqn:E3; [|congruence].
  exists ((r, w, a) :: cs). now apply priced_written.
Qed.
(** what is extracted is what CACTI says about the memory *)
Lemma asks_askable tech dims m q : 0 <= tech -> proper_memory dims m -> automatic m -> known_type m -> asks tech m q -> askable q.
Proof.
  intros T (_ & _ & _ & S8 & _) A K (Qt & Qs & _ & _ & _ & _ & Qb & Qk). specialize (S8 A). unfold askable. rewrite Qt, Qs, Qb, Qk. split; [|lia].
  assert (G : exists t, match rm_type m with Some t => t | None => "sram" end = t /\ In t ["sram"; "dram"; "rf"]).
  { destruct K as [->|(t & -> & I)]; [exists "sram"; split; [reflexivity|now left]|exists t; auto]. }
  destruct G as (t & Et & It). rewrite Et. clear Et Qt. destruct It as [<-|[<-|[<-|[]]]].
  - exists "sram", (rm_size m). split; [constructor|exact S8].
  - exists "dram", (rm_size m). split; [constructor|exact S8].
  - exists "sram", (128 * rm_size m). split; [constructor|]. replace (128 * rm_size m) with (0 + (16 * rm_size m) * 8) by lia. rewrite Z_mod_plus_full. reflexivity.
Qed.
Lemma priced_true sim tech dims : honest sim -> 0 <= tech -> forall ms, (forall m, In m ms -> proper_memory dims m /\ (automatic m -> known_type m)) ->
  forall p cs p', well_kept p -> truthful sim p -> priced sim tech p ms cs p' ->
  well_kept p' /\ truthful sim p' /\ Forall2 (fun m c => automatic m -> exists q, asks tech m q /\ costs_asked sim q c) ms cs.
Proof.
  intros H T ms Hm p cs p' W Tr Hp. revert Hm W Tr. induction Hp as [p|p m ms r w a cs p' A R1 R2 R3 Hp IH|p m ms q r w a p1 ran cs p' A Hq G Hp IH]; intros Hm W Tr.
  - split; [exact W|]. split; [exact Tr|constructor].
  - destruct IH as (W' & T' & F); [intros x I; apply Hm; now right|exact W|exact Tr|]. split; [exact W'|]. split; [exact T'|]. constructor; [intros X; contradiction|exact F].
  - destruct (Hm m (or_introl eq_refl)) as [P K]. assert (Q := asks_askable tech dims m q T P A (K A) Hq).
    assert (W1 := well_kept_step sim q p H W Q). assert (T1 := truthful_step sim q p H W Tr Q). assert (C := answer_true sim q p r w a H W Tr Q). rewrite G in W1, T1, C. cbn [fst snd] in *.
    destruct IH as (W' & T' & F); [intros x I; apply Hm; now right|exact W1|exact T1|]. split; [exact W'|]. split; [exact T'|]. constructor; [|exact F]. intros _. exists q. split; [exact Hq|exact (C eq_refl)].
Qed.
Lemma costs_answered bank adc sim tech p f a p' : honest sim -> 0 <= tech -> well_kept p -> truthful sim p ->
  (forall x m, In (x, m) (rf_memories f) -> automatic m -> known_type m) ->
  parse_accelerator bank adc sim tech p f = Ok (a, p') ->
  well_kept p' /\ truthful sim p' /\
  forall cs, priced sim tech p (map snd (rf_memories f)) cs p' ->
    Forall2 (fun m c => automatic m -> exists q, asks tech m q /\ costs_asked sim q c) (map snd (rf_memories f)) cs.
Proof.
  intros H T W Tr K E. unfold parse_accelerator in E. apply rbind_Ok in E. destruct E as (ok & Ev & E). destruct ok; [|discriminate E].
  assert (PP : proper_parts f) by (apply accepts_iff in Ev; destruct Ev as [[PP _]|[PP _]]; exact PP). destruct PP as (S0 & P & Df).
  unfold create in E. apply rbind_Ok in E. destruct E as (ar & _ & E). apply rbind_Ok in E. destruct E as (d & _ & E).
  apply rbind_Ok in E. destruct E as ([[h areas] p1] & Em & E). apply rbind_Ok in E. destruct E as (t & Et & E). injection E as <- ->.
  destruct (memories_inv sim tech p f h areas p' t (proj1 S0) P Em Et) as (_ & (cs & Hp) & _).
  assert (Hm : forall m, In m (map snd (rf_memories f)) -> proper_memory (ra_dims (rf_array f)) m /\ (automatic m -> known_type m)).
  { intros m I. apply in_map_iff in I. destruct I as ([x m'] & <- & I). split; [exact (P x m' I)|exact (K x m' I)]. }
  destruct (priced_true sim tech _ H T _ Hm p cs p' W Tr Hp) as (W' & T' & _). split; [exact W'|]. split; [exact T'|].
  intros cs' Hp'. apply (priced_true sim tech _ H T _ Hm p cs' p' W Tr Hp').
Qed.

(** With every cost written, a description builds exactly when the validator accepts it, unit costs are
    given, and ports only move operands of their memory. *)
Lemma written_builds bank adc sim tech p f : ~ in_memory (rf_array f) -> (forall x m, In (x, m) (rf_memories f) -> ~ automatic m) ->
  ((exists a p', parse_accelerator bank adc sim tech p f = Ok (a, p')) <->
   accepted_regular f /\ ra_energy (rf_array f) <> None /\ ra_area (rf_array f) <> None /\ serves_own f).
Proof.
  intros N A. split.
  - intros (a & p' & E). destruct (proj1 (proj1 (regular_builds bank adc sim tech p f p' N)) (ex_intro _ a E)) as (X1 & X2 & X3 & X4 & _). auto.
  - intros (X1 & X2 & X3 & X4). destruct (priced_as_written sim tech (map snd (rf_memories f)) p) as (cs & Hp).
    { intros m I. apply in_map_iff in I. destruct I as ([x m'] & <- & I). split; [exact (A x m' I)|]. destruct X1 as ((_ & P & _) & _). apply (P x m' I). exact (A x m' I). }
    destruct (proj2 (proj1 (regular_builds bank adc sim tech p f p N))) as (a & E); [split; [exact X1|]; split; [exact X2|]; split; [exact X3|]; split; [exact X4|eauto]|]. eauto.
Qed.

(** * Examples *)

Definition no_bank : Z -> Z -> Z -> Z -> result Q := fun _ _ _ _ => Err RuntimeError.
Definition no_area : Z -> Q := fun _ => 0%Q.
Definition built (f : raw_accel) : result (string * dict string Z * Z * nat) :=
  x <- parse_accelerator no_bank no_area ex_sim 22 [] f ;;
  Ok (ac_name (fst x), ar_sizes (ac_array (fst x)), ar_units (ac_array (fst x)), length (ac_areas (fst x))).
Definition fails_with (f : raw_accel) : option exn :=
  match parse_accelerator no_bank no_area ex_sim 22 [] f with Ok _ => None | Err e => Some e end.
Definition raises (f : raw_accel) : option exn := match validate f with Ok _ => None | Err e => Some e end.

Definition with_array (f : raw_accel) (a : raw_array) : raw_accel := mkRawAccel (rf_name f) (rf_memories f) a (rf_dataflows f).
Definition with_memory (f : raw_accel) (x : string) (m : raw_memory) : raw_accel := mkRawAccel (rf_name f) (dset x m (rf_memories f)) (rf_array f) (rf_dataflows f).
(** tpu_like without "unit_energy" *)
Definition no_energy : raw_accel := with_array tpu_like (mkRawArray ["D1"; "D2"] None [32; 32] None None (Some 1%Q) None None None).
(** tpu_like with dimensions [D1, D1] of sizes [2, 3] *)
Definition repeated_dimension : raw_accel :=
  mkRawAccel "twice" [("dram", mkRawMemory 1024 (Some 1%Q) (Some 1%Q) (Some 1%Q) None None ["I1"; "I2"; "O"] [mkRawPort "rw_port_1" "read_write" 8 8 ["I1, tl"]] ["D1"])]
    (mkRawArray ["D1"; "D1"] None [2; 3] None (Some 1%Q) (Some 1%Q) None None None) None.
(** one memory, with a port that moves outputs that are not stored *)
Definition foreign_port : raw_accel :=
  mkRawAccel "foreign" [("rf", mkRawMemory 1024 (Some 1%Q) (Some 1%Q) (Some 1%Q) None None ["I1"] [mkRawPort "rw_port_1" "read_write" 8 8 ["I1, tl"; "O, tl"]] ["D1"])]
    (mkRawArray ["D1"] None [2] None (Some 1%Q) (Some 1%Q) None None None) None.
(** one automatic memory *)
Definition automatic_memory (type : option string) (port : raw_port) : raw_accel :=
  mkRawAccel "auto" [("sram", mkRawMemory 1024 None None None type (Some true) ["I1"] [port] ["D1"])]
    (mkRawArray ["D1"] None [2] None (Some 1%Q) (Some 1%Q) None None None) None.
Definition write_only : raw_accel := automatic_memory None (mkRawPort "w_port_1" "write" 64 64 ["I1, fh"]).
Definition odd_type : raw_accel := automatic_memory (Some "SRAM") (mkRawPort "rw_port_1" "read_write" 64 64 ["I1, fh"]).
Definition extracted : raw_accel := automatic_memory (Some "rf") (mkRawPort "rw_port_1" "read_write" 64 64 ["I1, fh"]).
(** IMC arrays on aimc's memories *)
Definition imc_memories (f : raw_accel) (served : list string) : dict string raw_memory :=
  map (fun x => (fst x, mkRawMemory (rm_size (snd x)) (rm_read (snd x)) (rm_write (snd x)) (rm_area (snd x)) (rm_type (snd x)) (rm_auto (snd x))
                          (rm_operands (snd x)) (rm_ports (snd x)) (filter (fun d => memb d served) (rm_served (snd x))))) (rf_memories f).
Definition one_dimension : raw_accel :=
  mkRawAccel "one" (imc_memories aimc ["D1"]) (mkRawArray ["D1"] (Some true) [128] (Some [8; 8]) None None (Some "analog") (Some (Some 8)) (Some 2)) None.
Definition null_adc : raw_accel := with_array aimc (mkRawArray ["D1"; "D2"] (Some true) [128; 128] (Some [8; 8]) None None (Some "analog") (Some None) (Some 2)).
Definition odd_rows : raw_accel := with_array dimc (mkRawArray ["D1"; "D2"] (Some true) [128; 96] (Some [8; 8]) None None (Some "digital") None (Some 1)).
Definition untyped : raw_accel := with_array aimc (mkRawArray ["D1"; "D2"] (Some true) [128; 128] (Some [8; 8]) None None None (Some (Some 8)) (Some 2)).
Definition no_precision : raw_accel := with_array dimc (mkRawArray ["D1"; "D2"] (Some true) [128; 128] None None None (Some "digital") None (Some 1)).
Definition no_serial : raw_accel := with_array dimc (mkRawArray ["D1"; "D2"] (Some true) [128; 128] (Some [8; 8]) None None (Some "digital") None None).
Definition zero_precision : raw_accel := with_array dimc (mkRawArray ["D1"; "D2"] (Some true) [128; 128] (Some [0; 8]) None None (Some "digital") None (Some 0)).
Definition no_cells : raw_accel := mkRawAccel "none" (filter (fun x => negb (eqb (fst x) "cells")) (rf_memories dimc)) (rf_array dimc) None.
