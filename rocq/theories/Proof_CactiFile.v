(** Proofs about configuration files (C89). *)
From Coq Require Import Lia Ascii.
From Verif Require Import Base Model_CactiFile Spec_CactiFile Proof_AllocSearch Spec_Cme Proof_Cme.
Local Open Scope string_scope.
Local Open Scope list_scope.

Lemma append_comparable (a b x y : string) : (a ++ x = b ++ y)%string -> extends a b \/ extends b a.
Proof.
  revert b. induction a as [|c a IH]; intros [|d b] E; cbn in E.
  - left. now exists "".
  - left. now exists (String d b).
  - right. now exists (String c a).
  - assert (c = d) by congruence. subst d. assert (E' : (a ++ x = b ++ y)%string) by congruence.
    destruct (IH b E') as [(s & ->)|(s & ->)]; [left|right]; now exists s.
Qed.
Lemma prefix_self a x : String.prefix a (a ++ x) = true.
Proof. apply prefix_extends. now exists x. Qed.
Lemma other_label a b x : String.prefix a b = false -> String.prefix b a = false -> String.prefix a (b ++ x) = false.
Proof.
  intros N M. destruct (String.prefix a (b ++ x)) eqn:E; [|reflexivity]. apply prefix_extends in E. destruct E as (y & E).
  apply append_comparable in E. destruct E as [E|E]; apply prefix_extends in E; congruence.
Qed.

(** A file with a line for each option *)
Lemma lines_set (t : dict string setting) (value : string * setting -> string) : separate t ->
  forall name s, In (name, s) t -> sets (map (fun x => line (snd x) (value x)) t) s (value (name, s)).
Proof.
  intros (N & L). unfold sets, about.
  assert (G : forall u, (forall x, In x u -> In x t) -> NoDup (keys u) -> forall name s, In (name, s) t ->
    filter (String.prefix (st_label s)) (map (fun x => line (snd x) (value x)) u) = if memb name (keys u) then [line s (value (name, s))] else []).
  { induction u as [|(n, s') u IH]; intros Su Nu name s I; [reflexivity|].
    apply NoDup_cons_iff in Nu. destruct Nu as (Nn & Nu). cbn [map filter snd].
    rewrite (IH (fun x Ix => Su x (or_intror Ix)) Nu name s I). cbn [keys map fst memb existsb].
    destruct (eqb_spec name n) as [->|D].
    - assert (s' = s) by (assert (In (n, s') t) by (apply Su; now left); apply (In_dget n) in I; [|exact N]; apply (In_dget n) in H; [|exact N]; congruence).
      subst s'. unfold line at 1. rewrite prefix_self. destruct (memb n (keys u)) eqn:M; [exfalso; apply Nn; now apply memb_In|]. cbn. unfold keys in *. 
      destruct (eqb_spec n n) as [_|Z]; [reflexivity|now contradiction Z].
    - unfold line at 1. rewrite other_label.
      + cbn. destruct (eqb_spec name n) as [Z|_]; [contradiction|]. reflexivity.
      + apply (L name s n s' I); [apply Su; now left|exact D].
      + apply (L n s' name s); [apply Su; now left|exact I|congruence]. }
  intros name s I. rewrite (G t (fun x Ix => Ix) N name s I).
  destruct (memb name (keys t)) eqn:M; [reflexivity|]. exfalso. assert (H : In name (keys t)) by (unfold keys; apply (List.in_map fst) in I; exact I).
  apply memb_In in H. congruence.
Qed.

Theorem default_file t : separate t -> exists file, cacti_auto t Default = Ok [file] /\ length file = length t /\
  forall name s, dget name t = Some s -> sets file s (st_default s).
Proof.
  intros S. eexists. split; [reflexivity|]. split; [apply map_length|]. intros name s E. apply dget_In in E.
  exact (lines_set t (fun x => st_default (snd x)) S name s E).
Qed.

Lemma index_first name names : In name names -> nth_error names (index name names) = Some name /\ forall j, (j < index name names)%nat -> nth_error names j <> Some name.
Proof.
  induction names as [|n names IH]; intros I; [destruct I|]. cbn [index]. destruct (eqb_spec n name) as [->|D]; [split; [reflexivity|lia]|].
  destruct I as [I|I]; [contradiction|]. destruct (IH I) as (E & F). split; [exact E|]. intros [|j] L; cbn; [congruence|]. apply F. lia.
Qed.

Definition single_value (names values : list string) (x : string * setting) : string :=
  if memb (fst x) names then nth (index (fst x) names) values "" else st_default (snd x).
Theorem single_file t names values : separate t -> (length names <= length values)%nat ->
  exists file, cacti_auto t (Single names values) = Ok [file] /\ length file = length t /\
  forall name s, dget name t = Some s -> (forall v, given names values name v -> sets file s v) /\ (~ In name names -> sets file s (st_default s)).
Proof.
  intros S L. exists (map (fun x => line (snd x) (single_value names values x)) t). split; [|split; [apply map_length|]].
  - unfold cacti_auto.
    assert (E : rmap (fun x => if memb (fst x) names then rbind (at_index values (index (fst x) names)) (fun v => Ok (line (snd x) v)) else Ok (line (snd x) (st_default (snd x)))) t
      = Ok (map (fun x => line (snd x) (single_value names values x)) t)).
    { clear S. induction t as [|x t IH]; [reflexivity|]. cbn [rmap map]. rewrite IH. unfold single_value at 2.
      destruct (memb (fst x) names) eqn:M; [|reflexivity]. apply memb_In in M. apply index_first in M. destruct M as (M & _).
      assert (K : (index (fst x) names < length values)%nat) by (assert (nth_error names (index (fst x) names) <> None) by congruence; apply nth_error_Some in H; lia).
      unfold at_index. rewrite (nth_error_nth' values "" K). reflexivity. }
    rewrite E. reflexivity.
  - intros name s E. apply dget_In in E. assert (H := lines_set t (single_value names values) S name s E). split.
    + intros v (i & En & Ev & F). replace v with (single_value names values (name, s)); [exact H|].
      unfold single_value. cbn [fst snd]. assert (I : In name names) by (apply nth_error_In in En; exact En).
      replace (memb name names) with true by (symmetry; now apply memb_In).
      apply index_first in I. destruct I as (Ei & Fi). assert (index name names = i) as ->.
      { destruct (lt_eq_lt_dec (index name names) i) as [[C|C]|C]; [exfalso; now apply (F _ C)|exact C|exfalso; now apply (Fi _ C)]. }
      now apply nth_error_nth.
    + intros N. replace (st_default s) with (single_value names values (name, s)); [exact H|]. unfold single_value. cbn [fst snd].
      destruct (memb name names) eqn:M; [|reflexivity]. apply memb_In in M. contradiction.
Qed.

(** A missing value is an error; an unknown name is not. *)
Theorem single_short t names values name s : dget name t = Some s -> In name names -> (length values <= index name names)%nat ->
  cacti_auto t (Single names values) = Err IndexError.
Proof.
  intros E I L. apply dget_In in E. unfold cacti_auto.
  assert (H : rmap (fun x => if memb (fst x) names then rbind (at_index values (index (fst x) names)) (fun v => Ok (line (snd x) v)) else Ok (line (snd x) (st_default (snd x)))) t = Err IndexError).
  { induction t as [|x t IH]; [destruct E|]. cbn [rmap].
    assert (X : forall (r : result string), (r = Err IndexError \/ exists y, r = Ok y) -> (r = Err IndexError \/ In (name, s) t) ->
       match r with Ok y => match rmap (fun x => if memb (fst x) names then rbind (at_index values (index (fst x) names)) (fun v => Ok (line (snd x) v)) else Ok (line (snd x) (st_default (snd x)))) t with Ok ys => Ok (y :: ys) | Err e => Err e end | Err e => Err e end = Err IndexError).
    { intros r [->|(y & ->)] [C|C]; try reflexivity; [discriminate C|]. now rewrite IH. }
    apply X.
    - destruct (memb (fst x) names); [|right; eauto]. unfold at_index. destruct (nth_error values (index (fst x) names)); cbn; [right; eauto|now left].
    - destruct E as [->|E]; [left|now right]. cbn [fst]. replace (memb name names) with true by (symmetry; now apply memb_In).
      unfold at_index. replace (nth_error values (index name names)) with (@None string) by (symmetry; now apply nth_error_None). reflexivity. }
  rewrite H. reflexivity.
Qed.

(** One option swept *)
Theorem sweep_files t name s : separate t -> dget name t = Some s ->
  exists files, cacti_auto t (Sweep [name]) = Ok files /\ length files = length (st_values s) /\
  Forall2 (fun v file => sets file s v /\ forall other s', dget other t = Some s' -> other <> name -> sets file s' (st_default s')) (st_values s) files.
Proof.
  intros S E. unfold cacti_auto. cbn [rmap]. unfold dgetr. rewrite E. cbn [of_option rbind concat]. rewrite app_nil_r, map_map. eexists. split; [reflexivity|].
  split; [apply map_length|].
  assert (R : forall x : string * setting, negb (memb (fst x) [name]) = negb (eqb (fst x) name)) by (intros x; cbn; now rewrite Bool.orb_false_r).
  set (rest := filter (fun x : string * setting => negb (memb (fst x) [name])) t).
  assert (G : forall v o s', dget o t = Some s' ->
    sets ((line s v) :: map (fun x => line (snd x) (st_default (snd x))) rest) s' (if eqb o name then v else st_default s')).
  { intros v o s' Eo.
    set (value := fun x : string * setting => if eqb (fst x) name then v else st_default (snd x)).
    assert (Sr : separate ((name, s) :: rest)).
    { destruct S as (N & L). apply dget_In in E.
      assert (Sub : forall x, In x ((name, s) :: rest) -> In x t) by (intros x [<-|I]; [exact E|]; apply filter_In in I; tauto).
      constructor.
      - cbn [keys map fst]. constructor.
        + intros I. apply in_map_iff in I. destruct I as (x & Ex & I). apply filter_In in I. destruct I as (_ & I). rewrite R in I.
          destruct (eqb_spec (fst x) name); [discriminate I|contradiction].
        + unfold rest. clear -N. induction t as [|x t IH]; [constructor|]. apply NoDup_cons_iff in N. destruct N as (Nx & N).
          cbn [filter]. destruct (negb _); [|auto]. cbn [map]. constructor; [|auto]. intros I. apply Nx. apply in_map_iff in I.
          destruct I as (y & Ey & I). apply filter_In in I. apply in_map_iff. exists y. tauto.
      - intros a sa b sb Ia Ib. apply (L a sa b sb); auto. }
    assert (Io : In (o, s') ((name, s) :: rest)).
    { destruct (eqb_spec o name) as [->|D]; [left; congruence|]. right. apply filter_In. split; [now apply dget_In|]. rewrite R. cbn [fst].
      destruct (eqb_spec o name); [contradiction|reflexivity]. }
    assert (H := lines_set ((name, s) :: rest) value Sr o s' Io).
    replace (map (fun x => line (snd x) (value x)) ((name, s) :: rest)) with (line s v :: map (fun x => line (snd x) (st_default (snd x))) rest) in H; [exact H|].
    cbn [map snd]. f_equal.
    - unfold value. cbn [fst]. destruct (eqb_spec name name) as [_|Z]; [reflexivity|now contradiction Z].
    - apply map_ext_in. intros x I. apply filter_In in I. destruct I as (_ & I). rewrite R in I. unfold value. destruct (eqb (fst x) name); [discriminate I|reflexivity]. }
  induction (st_values s) as [|v vs IH]; cbn [map]; constructor; [|exact IH]. cbn [app]. split.
  - specialize (G v name s E). destruct (eqb_spec name name) as [_|Z]; [exact G|now contradiction Z].
  - intros o s' Eo D. specialize (G v o s' Eo). destruct (eqb_spec o name); [contradiction|exact G].
Qed.

(** Names that are not in the table change nothing. *)
Theorem unknown_ignored t names values : (forall name, In name names -> ~ In name (keys t)) -> cacti_auto t (Single names values) = cacti_auto t Default.
Proof.
  intros H. unfold cacti_auto.
  assert (E : rmap (fun x => if memb (fst x) names then rbind (at_index values (index (fst x) names)) (fun v => Ok (line (snd x) v)) else Ok (line (snd x) (st_default (snd x)))) t
    = Ok (map (fun x => line (snd x) (st_default (snd x))) t)).
  { assert (G : forall u, (forall x, In x u -> In (fst x) (keys t)) ->
      rmap (fun x => if memb (fst x) names then rbind (at_index values (index (fst x) names)) (fun v => Ok (line (snd x) v)) else Ok (line (snd x) (st_default (snd x)))) u
      = Ok (map (fun x => line (snd x) (st_default (snd x))) u)).
    { induction u as [|x u IH]; intros Su; [reflexivity|]. cbn [rmap map]. rewrite IH by (intros y I; apply Su; now right).
      destruct (memb (fst x) names) eqn:M; [|reflexivity]. apply memb_In in M. exfalso. apply (H _ M). apply Su. now left. }
    apply G. intros x I. unfold keys. now apply List.in_map. }
  rewrite E. reflexivity.
Qed.

(** * Changed defaults *)

Lemma changed_steps names values : forall i t t', separate t -> change_default_value names values i t = Ok t' ->
  separate t' /\ keys t' = keys t /\ forall name s, dget name t = Some s -> exists s', dget name t' = Some s' /\ st_label s' = st_label s /\ st_values s' = st_values s /\
    (~ In name names -> st_default s' = st_default s) /\
    forall k v, nth_error names k = Some name -> nth_error values (i + k) = Some v -> (forall j, (k < j)%nat -> nth_error names j <> Some name) -> st_default s' = v.
Proof.
  induction names as [|n names IH]; intros i t t' Sep E.
  - cbn in E. assert (t' = t) by congruence. subst t'. split; [exact Sep|]. split; [reflexivity|]. intros name s Es. exists s. repeat split; auto.
    intros [|k] v X; discriminate X.
  - cbn [change_default_value] in E. apply rbind_Ok in E. destruct E as (v & Ev & E). apply rbind_Ok in E. destruct E as (s0 & Es0 & E).
    unfold at_index in Ev. destruct (nth_error values i) as [v0|] eqn:Env; [|discriminate Ev]. cbn in Ev. assert (v0 = v) by congruence. subst v0.
    unfold dgetr in Es0. destruct (dget n t) as [s1|] eqn:En; [|discriminate Es0]. cbn in Es0. assert (s1 = s0) by congruence. subst s1.
    assert (K : keys (dset n (mkSetting (st_label s0) (st_values s0) v) t) = keys t) by (apply keys_dset_in; apply dget_In in En; apply (List.in_map fst) in En; exact En).
    assert (Sep' : separate (dset n (mkSetting (st_label s0) (st_values s0) v) t)).
    { destruct Sep as (N & L). constructor; [rewrite K; exact N|].
      assert (G : forall a s, In (a, s) (dset n (mkSetting (st_label s0) (st_values s0) v) t) -> exists s', In (a, s') t /\ st_label s' = st_label s).
      { intros a s I. apply In_dget in I; [|rewrite K; exact N]. destruct (string_dec a n) as [->|D].
        - rewrite dget_dset_eq in I. exists s0. split; [now apply dget_In|]. replace s with (mkSetting (st_label s0) (st_values s0) v) by congruence. reflexivity.
        - rewrite dget_dset_neq in I by exact D. exists s. split; [now apply dget_In|reflexivity]. }
      intros a s b s' Ia Ib D. destruct (G a s Ia) as (sa & Ja & <-). destruct (G b s' Ib) as (sb & Jb & <-). now apply (L a sa b sb). }
    destruct (IH _ _ _ Sep' E) as (St & Kt & G). split; [exact St|]. split; [now rewrite Kt|].
    intros name s Es. destruct (string_dec name n) as [->|D].
    + assert (s = s0) by congruence. subst s. destruct (G n (mkSetting (st_label s0) (st_values s0) v)) as (s' & Es' & L1 & L2 & L3 & L4); [apply dget_dset_eq|].
      exists s'. split; [exact Es'|]. split; [exact L1|]. split; [exact L2|]. split; [intros X; exfalso; apply X; now left|].
      intros [|k] w Ek Ew F.
      * rewrite L3; [cbn; rewrite Nat.add_0_r in Ew; congruence|]. intros I. apply In_nth_error in I. destruct I as (j & Ej). apply (F (S j)); [lia|exact Ej].
      * apply (L4 k w); [exact Ek|replace (S i + k)%nat with (i + S k)%nat by lia; exact Ew|]. intros j Lj. apply (F (S j)). lia.
    + destruct (G name s) as (s' & Es' & L1 & L2 & L3 & L4); [rewrite dget_dset_neq by exact D; exact Es|].
      exists s'. split; [exact Es'|]. split; [exact L1|]. split; [exact L2|]. split; [intros X; apply L3; intros I; apply X; now right|].
      intros [|k] w Ek Ew F; [cbn in Ek; congruence|].
      apply (L4 k w); [exact Ek|replace (S i + k)%nat with (i + S k)%nat by lia; exact Ew|]. intros j Lj. apply (F (S j)). lia.
Qed.
Theorem changed_defaults t names values t' : separate t -> change_default_value names values 0 t = Ok t' ->
  separate t' /\ keys t' = keys t /\ forall name s, dget name t = Some s -> exists s', dget name t' = Some s' /\ st_label s' = st_label s /\ st_values s' = st_values s /\
    (~ In name names -> st_default s' = st_default s) /\
    forall k v, nth_error names k = Some name -> nth_error values k = Some v -> (forall j, (k < j)%nat -> nth_error names j <> Some name) -> st_default s' = v.
Proof. apply changed_steps. Qed.

(** * The options of the code *)

Lemma options_separate : separate config_options.
Proof.
  constructor.
  - assert (H : (if List.list_eq_dec string_dec (nodup string_dec (keys config_options)) (keys config_options) then true else false) = true) by (vm_compute; reflexivity).
    destruct (List.list_eq_dec _ _ _) as [<-|_] in H; [|discriminate H]. apply NoDup_nodup.
  - assert (H : forallb (fun x => forallb (fun y => eqb (fst x) (fst y) || negb (String.prefix (st_label (snd x)) (st_label (snd y)))) config_options) config_options = true) by (vm_compute; reflexivity).
    intros a s b s' Ia Ib D. rewrite forallb_forall in H. specialize (H _ Ia). rewrite forallb_forall in H. specialize (H _ Ib). cbn [fst snd] in H.
    destruct (eqb_spec a b); [contradiction|]. now destruct (String.prefix (st_label s) (st_label s')).
Qed.

Theorem run_file mem_type size width rd wr rw banks technology :
  exists file, cacti_auto config_options (run_order mem_type size width rd wr rw banks technology) = Ok [file] /\ length file = 11%nat /\
    forall label v, In (label, v) [("-size (bytes) ", size); ("-block size (bytes) ", width); ("-output/input bus width ", width); ("-associativity ", "1");
      ("-read-write port ", rw); ("-exclusive read port ", rd); ("-exclusive write port ", wr); ("-single ended read ports ", "0"); ("-UCA bank count ", banks);
      ("-technology (u) ", technology); ("-cache type ", if eqb mem_type "sram" then """ram""" else """main memory""")] ->
    about label file = [(label ++ v ++ String "010"%char "")%string].
Proof.
  unfold run_order. match goal with |- context [Single ?n ?v] => destruct (single_file config_options n v options_separate) as (file & E & L & H); [cbn; lia|] end.
  exists file. split; [exact E|]. split; [exact L|].
  assert (G : forall i name s v names values, file = file -> dget name config_options = Some s ->
    names = ["mem_type"; "cache_size"; "IO_bus_width"; "ex_rd_port"; "ex_wr_port"; "rd_wr_port"; "bank_count"; "technology"; "line_size"] ->
    values = [if eqb mem_type "sram" then """ram""" else """main memory"""; size; width; rd; wr; rw; banks; technology; width] ->
    nth_error names i = Some name -> nth_error values i = Some v -> existsb (eqb name) (firstn i names) = false -> sets file s v).
  { intros i name s v names values _ Es -> -> En Ev F. apply (H name s Es). exists i. split; [exact En|]. split; [exact Ev|].
    intros k Lk Ek. assert (I : In name (firstn i ["mem_type"; "cache_size"; "IO_bus_width"; "ex_rd_port"; "ex_wr_port"; "rd_wr_port"; "bank_count"; "technology"; "line_size"])).
    { apply (nth_error_In _ k). rewrite <- Ek. clear -Lk. revert k Lk. generalize ["mem_type"; "cache_size"; "IO_bus_width"; "ex_rd_port"; "ex_wr_port"; "rd_wr_port"; "bank_count"; "technology"; "line_size"].
      induction i as [|i IH]; intros l k Lk; [lia|]. destruct l as [|x l]; [now destruct k|]. destruct k as [|k]; [reflexivity|]. cbn. apply IH. lia. }
    assert (existsb (eqb name) (firstn i ["mem_type"; "cache_size"; "IO_bus_width"; "ex_rd_port"; "ex_wr_port"; "rd_wr_port"; "bank_count"; "technology"; "line_size"]) = true).
    { apply existsb_exists. exists name. split; [exact I|]. destruct (eqb_spec name name) as [_|Z]; [reflexivity|now contradiction Z]. }
    congruence. }
  assert (D : forall name s, dget name config_options = Some s ->
    memb name ["mem_type"; "cache_size"; "IO_bus_width"; "ex_rd_port"; "ex_wr_port"; "rd_wr_port"; "bank_count"; "technology"; "line_size"] = false -> sets file s (st_default s)).
  { intros name s Es M. apply (H name s Es). intros I. apply memb_In in I. congruence. }
  match goal with |- forall label v, In (label, v) ?l -> _ =>
    assert (F : Forall (fun x => about (fst x) file = [(fst x ++ snd x ++ String "010"%char "")%string]) l) end.
  { repeat apply Forall_cons; [| | | | | | | | | | |apply Forall_nil].
    - exact (G 1%nat "cache_size" _ _ _ _ eq_refl eq_refl eq_refl eq_refl eq_refl eq_refl eq_refl).
    - exact (G 8%nat "line_size" _ _ _ _ eq_refl eq_refl eq_refl eq_refl eq_refl eq_refl eq_refl).
    - exact (G 2%nat "IO_bus_width" _ _ _ _ eq_refl eq_refl eq_refl eq_refl eq_refl eq_refl eq_refl).
    - exact (D "associativity" _ eq_refl eq_refl).
    - exact (G 5%nat "rd_wr_port" _ _ _ _ eq_refl eq_refl eq_refl eq_refl eq_refl eq_refl eq_refl).
    - exact (G 3%nat "ex_rd_port" _ _ _ _ eq_refl eq_refl eq_refl eq_refl eq_refl eq_refl eq_refl).
    - exact (G 4%nat "ex_wr_port" _ _ _ _ eq_refl eq_refl eq_refl eq_refl eq_refl eq_refl eq_refl).
    - exact (D "single_rd_port" _ eq_refl eq_refl).
    - exact (G 6%nat "bank_count" _ _ _ _ eq_refl eq_refl eq_refl eq_refl eq_refl eq_refl eq_refl).
    - exact (G 7%nat "technology" _ _ _ _ eq_refl eq_refl eq_refl eq_refl eq_refl eq_refl eq_refl).
    - exact (G 0%nat "mem_type" _ _ _ _ eq_refl eq_refl eq_refl eq_refl eq_refl eq_refl eq_refl). }
  intros label v I. rewrite Forall_forall in F. exact (F (label, v) I).
Qed.

Lemma two_swept : exists files, cacti_auto config_options (Sweep ["technology"; "bank_count"]) = Ok files /\ length files = 11%nat /\
  forall file, In file files -> length file = 10%nat /\ (about "-technology (u) " file = [] \/ about "-UCA bank count " file = []).
Proof.
  eexists. split; [vm_compute; reflexivity|]. split; [reflexivity|]. intros file I. cbn [In] in I.
  repeat (destruct I as [<-|I]; [split; [reflexivity|]; first [left; vm_compute; reflexivity|right; vm_compute; reflexivity]|]). destruct I.
Qed.
