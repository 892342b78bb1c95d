(** Proofs for C49: the reported loops. *)
From Coq Require Import Arith Lia.
From Verif Require Import Base Model_Alloc Model_Temporal Model_Report Spec_Alloc Spec_Temporal Spec_Report Proof_AllocSearch Proof_AllocRun Proof_TemporalRun.
Open Scope string_scope.
Open Scope list_scope.
Open Scope nat_scope.
Local Open Scope result_scope.

(** The levels without their [k] innermost loops. *)
Fixpoint drop (k : nat) (levels : tmlevels) : tmlevels :=
  match levels with [] => [] | l :: r => skipn k l :: drop (k - length l) r end.

Lemma drop_0 levels : drop 0 levels = levels.
Proof. induction levels as [|l r IH]; [reflexivity|]. cbn. now rewrite IH. Qed.

Lemma loop_eqb_refl x : loop_eqb x x = true.
Proof. unfold loop_eqb. now rewrite eqb_refl, Z.eqb_refl. Qed.

Lemma skipn_nth {A} (l : list A) k x : nth_error l k = Some x -> skipn k l = x :: skipn (S k) l.
Proof.
  revert k. induction l as [|y l IH]; intros [|k] H; try discriminate.
  - cbn in H. injection H as ->. reflexivity.
  - cbn in H. cbn [skipn]. rewrite (IH _ H). reflexivity.
Qed.

Lemma drop_step levels : forall k x, nth_error (concat levels) k = Some x ->
  exists lv, level_with x (drop k levels) = Ok lv /\ pop_loop x lv (drop k levels) = Ok (drop (S k) levels) /\ lies_in lv k levels.
Proof.
  induction levels as [|l r IH]; intros k x H; [destruct k; discriminate|]. cbn [concat] in H.
  destruct (le_lt_dec (length l) k) as [G|G].
  - rewrite nth_error_app2 in H by exact G. destruct (IH _ _ H) as (lv & E1 & E2 & L & L'). exists (S lv).
    cbn [drop level_with]. rewrite (skipn_all2 l) by lia. cbn [loop_in existsb]. rewrite E1. cbn [rbind].
    split; [reflexivity|]. split.
    + cbn [pop_loop]. rewrite E2. cbn [rbind]. rewrite (skipn_all2 l) by lia. replace (S k - length l) with (S (k - length l)) by lia. reflexivity.
    + unfold lies_in, below in *. cbn [firstn concat length]. rewrite !app_length. split; [lia|]. cbn [firstn concat] in L'. lia.
  - rewrite nth_error_app1 in H by exact G. exists 0. cbn [drop level_with]. rewrite (skipn_nth _ _ _ H). cbn [loop_in existsb].
    rewrite loop_eqb_refl. cbn [orb]. split; [reflexivity|]. split.
    + cbn [pop_loop py_remove]. rewrite loop_eqb_refl. cbn [rbind]. replace (k - length l) with (S k - length l) by lia. reflexivity.
    + unfold lies_in, below. cbn [firstn concat length app]. rewrite app_nil_r. lia.
Qed.

Section Report.
  Variables (links : list (string * string)) (names : dict string (list string)) (tm : dict string tmlevels) (ordering : list tloop).
  Hypothesis once : NoDup (map fst links).
  Hypothesis ok : levels_of ordering links names tm.

  (** [tm'] is [tm] without the first loops, as many as [n] says per operand. *)
  Definition without (n : string -> nat) (tm' : dict string tmlevels) : Prop :=
    forall lop mop levels, In (lop, mop) links -> dget lop tm = Some levels -> dget lop tm' = Some (drop (n lop) levels).

  Lemma operands_spec k x : nth_error ordering k = Some x -> forall todo done tm' mems, links = done ++ todo ->
    without (fun o => if memb o (map fst done) then S k else k) tm' ->
    exists tm'' mems', rfold (report_operand names x) (tm', mems) todo = Ok (tm'', mems ++ mems') /\
      without (fun _ => S k) tm'' /\
      Forall2 (fun link name => exists levels memories lv, dget (fst link) tm = Some levels /\ dget (snd link) names = Some memories /\
        lies_in lv k levels /\ nth_error memories lv = Some name) todo mems'.
  Proof.
    intros Ex. induction todo as [|[lop mop] todo IH]; intros done tm' mems E W.
    - exists tm', []. cbn [rfold]. rewrite app_nil_r. split; [reflexivity|]. split; [|constructor].
      intros lop mop levels I D. rewrite (W _ _ _ I D). rewrite app_nil_r in E. subst done.
      assert (memb lop (map fst links) = true) as -> by (apply memb_In; apply (List.in_map fst) in I; exact I). reflexivity.
    - assert (I : In (lop, mop) links) by (rewrite E; apply in_or_app; right; now left).
      destruct (ok _ _ I) as (levels & memories & D & M & C & Len).
      assert (F : memb lop (map fst done) = false).
      { apply memb_not_In. intros N. rewrite E, map_app in once. cbn [map fst] in once. apply NoDup_remove_2 in once. apply once, in_or_app. now left. }
      assert (D' := W _ _ _ I D). cbv beta in D'. rewrite F in D'.
      assert (Ex' : nth_error (concat levels) k = Some x) by (rewrite C; exact Ex).
      destruct (drop_step _ _ _ Ex') as (lv & E1 & E2 & L).
      destruct (nth_error memories lv) as [name|] eqn:En; [|apply nth_error_None in En; destruct L; lia].
      cbn [rfold]. unfold report_operand at 1. cbn [fst snd]. unfold dgetr. rewrite D'. cbn [of_option rbind]. rewrite E1. cbn [rbind]. rewrite E2. cbn [rbind].
      rewrite M. cbn [of_option rbind]. rewrite En. cbn [of_option rbind].
      destruct (IH (done ++ [(lop, mop)]) (dset lop (drop (S k) levels) tm') (mems ++ [name])) as (tm'' & mems' & R & W' & F2).
      + rewrite <- app_assoc. exact E.
      + intros lop' mop' levels' I' Dl. rewrite map_app. cbn [map fst].
        destruct (eqb_spec lop' lop) as [Q|Q].
        * subst lop'. rewrite dget_dset_eq. rewrite D in Dl. injection Dl as <-.
          assert (memb lop (map fst done ++ [lop]) = true) as -> by (apply memb_In, in_or_app; right; now left). reflexivity.
        * rewrite dget_dset_neq by congruence. rewrite (W _ _ _ I' Dl).
          assert (memb lop' (map fst done ++ [lop]) = memb lop' (map fst done)) as ->; [|reflexivity].
          destruct (memb lop' (map fst done)) eqn:Em.
          -- apply memb_In in Em. apply memb_In, in_or_app. now left.
          -- apply memb_not_In in Em. apply memb_not_In. intros N. apply in_app_or in N. destruct N as [N|[N|[]]]; congruence.
      + exists tm'', (name :: mems'). rewrite R, <- app_assoc. split; [reflexivity|]. split; [exact W'|]. constructor; [|exact F2].
        cbn [fst snd]. exists levels, memories, lv. auto.
  Qed.

  Lemma loops_spec : forall todo done tm' out, ordering = done ++ todo -> without (fun _ => length done) tm' ->
    exists tm'' out', rfold (report_loop links names) (tm', out) todo = Ok (tm'', out ++ out') /\ map fst out' = todo /\ forall i l, nth_error out' i = Some l -> held_in links names tm (length done + i) (snd l).
  Proof.
    induction todo as [|x todo IH]; intros done tm' out E W.
    - exists tm', []. cbn [rfold]. rewrite app_nil_r. split; [reflexivity|]. split; [reflexivity|]. intros [|i] l H; discriminate.
    - assert (Ex : nth_error ordering (length done) = Some x) by (rewrite E, nth_error_app2, Nat.sub_diag by lia; reflexivity).
      destruct (operands_spec _ _ Ex links [] tm' [] eq_refl) as (tm1 & mems & R & W1 & F2); [intros lop mop levels I D; exact (W _ _ _ I D)|].
      cbn [rfold]. unfold report_loop at 1. cbn [fst snd]. rewrite R. cbn [rbind fst snd app].
      destruct (IH (done ++ [x]) tm1 (out ++ [(x, mems)])) as (tm2 & out' & R' & Em & Hh).
      + rewrite <- app_assoc. exact E.
      + intros lop mop levels I D. rewrite app_length, Nat.add_comm. exact (W1 _ _ _ I D).
      + exists tm2, ((x, mems) :: out'). rewrite R', <- app_assoc. split; [reflexivity|]. split; [cbn [map fst]; now rewrite Em|].
        intros [|i] l H.
        * cbn in H. injection H as <-. cbn [snd]. rewrite Nat.add_0_r. exact F2.
        * cbn [nth_error] in H. specialize (Hh _ _ H). rewrite app_length in Hh. cbn [length] in Hh. replace (length done + S i) with (length done + 1 + i) by lia. exact Hh.
  Qed.

  Lemma report_spec : In "O" (map fst links) ->
    exists loops, report_temporal links names tm = Ok loops /\ map fst loops = ordering /\ forall k l, nth_error loops k = Some l -> held_in links names tm k (snd l).
  Proof.
    intros I. apply in_map_iff in I. destruct I as ([lop mop] & E & I). cbn [fst] in E. subst lop.
    destruct (ok _ _ I) as (levels & memories & D & M & C & Len).
    unfold report_temporal, dgetr. rewrite D. cbn [of_option rbind]. rewrite C.
    destruct (loops_spec ordering [] tm [] eq_refl) as (tm'' & out & R & Em & Hh).
    { intros lop' mop' levels' I' D'. cbn [length]. rewrite drop_0. exact D'. }
    rewrite R. cbn [rbind snd app]. exists out. split; [reflexivity|]. split; [exact Em|]. exact Hh.
  Qed.
End Report.

Lemma print_loops_spec step keyword : forall loops indent, (forall l, In l loops -> 3 <= length (snd l)) ->
  exists lines, print_loops step keyword indent loops = Ok (lines, indent + step * length loops) /\
    Forall2 (fun l p => exists d s mems, l = Loop (indent + step * snd p) keyword d s (firstn 3 mems) /\ fst p = ((d, s), mems))
      lines (combine loops (seq 0 (length loops))).
Proof.
  assert (G : forall loops indent from, (forall l, In l loops -> 3 <= length (snd l)) ->
    exists lines, print_loops step keyword (indent + step * from) loops = Ok (lines, indent + step * (from + length loops)) /\
    Forall2 (fun l p => exists d s mems, l = Loop (indent + step * snd p) keyword d s (firstn 3 mems) /\ fst p = ((d, s), mems))
      lines (combine loops (seq from (length loops)))).
  { induction loops as [|[[d s] mems] loops IH]; intros indent from H.
    - exists []. cbn [print_loops length]. rewrite Nat.add_0_r. split; [reflexivity|]. constructor.
    - assert (L := H _ (or_introl eq_refl)). cbn [snd] in L. cbn [print_loops]. destruct (Nat.ltb_spec (length mems) 3) as [B|B]; [lia|].
      replace (indent + step * from + step) with (indent + step * S from) by lia.
      destruct (IH indent (S from)) as (lines & R & F); [intros l I; apply H; now right|]. rewrite R. cbn [rbind fst snd].
      exists (Loop (indent + step * from) keyword d s (firstn 3 mems) :: lines). cbn [length seq combine]. split.
      + do 2 f_equal. lia.
      + constructor; [|exact F]. cbn [fst snd]. exists d, s, mems. auto. }
  intros loops indent H. destruct (G loops indent 0 H) as (lines & R & F). rewrite Nat.mul_0_r, Nat.add_0_r in R. exists lines. auto.
Qed.

Lemma held_length links names tm k mems : held_in links names tm k mems -> length mems = length links.
Proof. intros H. induction H; cbn; congruence. Qed.

Lemma nth_rev {A} (l : list A) i x : nth_error (rev l) i = Some x -> i < length l /\ nth_error l (length l - 1 - i) = Some x.
Proof.
  intros H. assert (L : i < length (rev l)) by (apply nth_error_Some; congruence). rewrite rev_length in L. split; [exact L|].
  rewrite (nth_error_nth' (rev l) x) in H by (rewrite rev_length; exact L). rewrite rev_nth in H by exact L.
  rewrite (nth_error_nth' l x) by lia. replace (length l - 1 - i) with (length l - S i) by lia. exact H.
Qed.

Lemma combine_seq_nth {A} (l : list A) : forall from i p, nth_error (combine l (seq from (length l))) i = Some p -> nth_error l i = Some (fst p) /\ snd p = from + i.
Proof.
  induction l as [|x l IH]; intros from [|i] p H; try discriminate.
  - cbn in H. injection H as <-. cbn. split; [reflexivity|lia].
  - cbn [length seq combine nth_error] in H. destruct (IH _ _ _ H) as (A1 & A2). cbn [nth_error]. split; [exact A1|lia].
Qed.

Lemma F2_nth_l {A B} (R : A -> B -> Prop) l l' i x : Forall2 R l l' -> nth_error l i = Some x -> exists y, nth_error l' i = Some y /\ R x y.
Proof.
  intros F. revert i. induction F; intros [|i] H1; try discriminate.
  - cbn in *. injection H1 as <-. eauto.
  - cbn in *. eauto.
Qed.
Lemma F2_len' {A B} (R : A -> B -> Prop) l l' : Forall2 R l l' -> length l = length l'.
Proof. induction 1; cbn; congruence. Qed.

Lemma print_spec step links names tm ordering spatial : NoDup (map fst links) -> levels_of ordering links names tm ->
  In "O" (map fst links) -> length links = 3 -> ordering <> [] ->
  exists T P, print_mapping step links names tm spatial =
      Ok (Heading "Temporal Loops" (map fst links) :: T ++ Heading "Spatial Loops" [""; ""; ""] :: P) /\
    length T = length ordering /\ length P = length (concat spatial) /\
    (forall i l, nth_error T i = Some l -> exists d s mems, l = Loop (step * i) "for" d s mems /\
       nth_error ordering (length ordering - 1 - i) = Some (d, s) /\ held_in links names tm (length ordering - 1 - i) mems) /\
    (forall i l, nth_error P i = Some l -> exists d s, l = Loop (step * length ordering) "parfor" d s [""; ""; ""] /\
       nth_error (concat spatial) (length (concat spatial) - 1 - i) = Some (d, s)).
Proof.
  intros Nd Ok' Io L3 Ne. destruct (report_spec links names tm ordering Nd Ok' Io) as (loops & E & Em & Hh).
  assert (Ll : length loops = length ordering) by (rewrite <- Em, map_length; reflexivity).
  assert (Lm : forall l, In l loops -> length (snd l) = 3).
  { intros l I. apply In_nth_error in I. destruct I as (k & I). rewrite (held_length _ _ _ _ _ (Hh _ _ I)). exact L3. }
  destruct (print_loops_spec step "for" (rev loops) 0) as (T & ET & FT). { intros l I. apply in_rev in I. rewrite (Lm _ I). lia. }
  destruct (print_loops_spec 0 "parfor" (report_spatial spatial) (0 + step * length (rev loops))) as (P & EP & FP).
  { intros l I. unfold report_spatial in I. apply in_rev, in_map_iff in I. destruct I as (x & <- & _). cbn. lia. }
  exists T, P. unfold print_mapping. rewrite E. cbn [rbind]. split.
  - destruct loops as [|l0 loops0]; [destruct ordering; [congruence|discriminate]|]. rewrite L3. cbn [Nat.eqb negb]. rewrite ET. cbn [rbind snd]. rewrite EP. reflexivity.
  - split; [|split; [|split]].
    + rewrite (F2_len' _ _ _ FT), combine_length, seq_length, rev_length. lia.
    + rewrite (F2_len' _ _ _ FP), combine_length, seq_length. unfold report_spatial. rewrite rev_length, map_length. lia.
    + intros i l H. destruct (F2_nth_l _ _ _ _ _ FT H) as (p & Hp & d & s & mems & -> & Ep). apply combine_seq_nth in Hp. destruct Hp as (Hp & Es).
      apply nth_rev in Hp. destruct Hp as (Li & Hp). rewrite Ep in Hp. rewrite Ll in *. cbn [plus] in *. exists d, s, (firstn 3 mems). rewrite Es. split; [reflexivity|].
      assert (Hx := Hh _ _ Hp). cbn [snd] in Hx. rewrite (firstn_all2 mems) by (rewrite (held_length _ _ _ _ _ Hx); lia). split; [|exact Hx].
      assert (X := map_nth_error fst _ _ Hp). rewrite Em in X. exact X.
    + intros i l H. destruct (F2_nth_l _ _ _ _ _ FP H) as (p & Hp & d & s & mems & -> & Ep). apply combine_seq_nth in Hp. destruct Hp as (Hp & Es).
      unfold report_spatial in Hp. apply nth_rev in Hp. destruct Hp as (Li & Hp). rewrite map_length in *. rewrite Ep in Hp. rewrite rev_length, Ll. cbn [plus].
      rewrite Nat.mul_0_l, Nat.add_0_r. exists d, s.
      destruct (nth_error (concat spatial) (length (concat spatial) - 1 - i)) as [x|] eqn:Ex.
      * rewrite (map_nth_error _ _ _ Ex) in Hp. injection Hp as -> <-. split; reflexivity.
      * apply nth_error_None in Ex. lia.
Qed.

Lemma print_empty step links names tm spatial : NoDup (map fst links) -> levels_of [] links names tm -> In "O" (map fst links) ->
  print_mapping step links names tm spatial = Err ValueError.
Proof.
  intros Nd Ok' Io. destruct (report_spec links names tm [] Nd Ok' Io) as (loops & E & Em & Hh). unfold print_mapping. rewrite E.
  destruct loops; [reflexivity|discriminate].
Qed.

Lemma F2_dget {V W} (R : string -> V -> W -> Prop) (m : dict string V) (m' : dict string W) k v :
  Forall2 (fun kv kv' => fst kv' = fst kv /\ R (fst kv) (snd kv) (snd kv')) m m' -> dget k m = Some v -> exists w, dget k m' = Some w /\ R k v w.
Proof.
  induction 1 as [|[a x] [b y] m m' (E & H) F IH]; intros D; [discriminate|]. cbn [fst snd] in *. subst b. cbn [dget] in *.
  destruct (eqb_spec k a) as [Q|Q]; [subst a; injection D as ->; eauto|auto].
Qed.

Lemma allocated_levels ly spatial mtype tops ordering : NoDup (map snd (l_links ly)) -> NoDup (map fst (l_links ly)) ->
  forall nodes tm names, (forall n, In n nodes -> NoDup (m_operands n)) ->
  (forall lop mop, In (lop, mop) (l_links ly) -> In lop (keys (l_ir ly)) /\
     (exists n, In n nodes /\ In mop (m_operands n) /\ dget mop tops = Some (m_id n)) /\
     exists memories, dget mop names = Some memories /\ length memories = storing mop nodes) ->
  allocator_run ly spatial mtype tops ordering nodes = Ok tm ->
  forall fuel, passes_bound tm <= fuel ->
  exists st mac, merge_down (l_ir ly) fuel tm = Ok (st, mac) /\ levels_of ordering (l_links ly) names st.
Proof.
  intros N1 N2 nodes tm names Hnd Hall E fuel Hf. assert (Hk := run_keys ly spatial mtype tops ordering N1 nodes tm Hnd E).
  destruct (merge_down_total (l_ir ly) tm fuel Hf) as (st & mac & Em & _ & F & _).
  { intros op I. rewrite Hk in I. apply in_map_iff in I. destruct I as ([l m] & <- & I). now apply (Hall l m). }
  exists st, mac. split; [exact Em|]. intros lop mop I. destruct (Hall _ _ I) as (_ & Hn & memories & Dm & Lm).
  destruct (run_keeps_loops ly spatial mtype tops ordering N1 N2 nodes tm Hnd E lop mop I Hn) as (levels & D & C & L).
  destruct (F2_dget (fun op a b => merged_down (reuse_dims (l_ir ly) op) a b) tm st lop levels F D) as (levels' & D' & M1 & M2 & _).
  exists levels', memories. split; [exact D'|]. split; [exact Dm|]. split; [congruence|lia].
Qed.

Definition ex_links : list (string * string) := [("O", "O"); ("W", "I2"); ("I", "I1")].
Definition ex_names : dict string (list string) :=
  [("O", ["reg_O"; "sram"; "dram"]); ("I2", ["sram"; "dram"]); ("I1", ["sram"; "dram"])].
Definition ex_tm : dict string tmlevels :=
  [("O", [[("FX", 3%Z)]; [("OX", 4%Z)]; [("K", 8%Z); ("OX", 4%Z)]]);
   ("W", [[("FX", 3%Z); ("OX", 4%Z)]; [("K", 8%Z); ("OX", 4%Z)]]);
   ("I", [[("FX", 3%Z); ("OX", 4%Z); ("K", 8%Z); ("OX", 4%Z)]; []])].
