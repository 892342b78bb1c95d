(** Proofs about the costs of a cell array from CACTI. *)
From Coq Require Import QArith Ascii Lqa.
From Verif Require Import Base Model_MapFile Model_Decouple Model_SpatialInt Model_Mapping Model_ImcCacti Spec_ImcCacti Spec_SpatialInt
  Proof_AllocSearch Proof_SpatialInt Proof_MappingProps.
Local Open Scope string_scope.
Local Open Scope list_scope.
Local Open Scope Q_scope.

(** * The table *)
Section Table.
  Variable to_float : string -> option Q.
  Variable first : string.
  Let attrs := split ","%char first.
  Definition present (acc : dict string (list Q)) : Prop := forall a, In a attrs -> exists l, dget a acc = Some l.

  Definition given (ps : list string) (n i : nat) : list Q :=
    if Nat.leb n i then match nth_error ps (i - n) with Some c => match to_float c with Some x => [x] | None => [] end | None => [] end else [].

  Lemma row_read name i : column first name i -> (forall j, column first name j -> j = i) ->
    forall ps n acc l, (forall j c, nth_error ps j = Some c -> (n + j < length attrs)%nat -> exists x, to_float c = Some x) ->
    present acc -> dget name acc = Some l ->
    exists acc', rfold (fun acc jv =>
             match nth_error attrs (fst jv) with
             | None => Ok acc
             | Some a => rbind (dgetr a acc) (fun old => rbind (of_option ValueError (to_float (snd jv))) (fun x => Ok (dset a (old ++ [x]) acc)))
             end) acc (combine (seq n (length ps)) ps) = Ok acc' /\ present acc' /\ dget name acc' = Some (l ++ given ps n i).
  Proof.
    intros Ci Cu. induction ps as [|c ps IH]; intros n acc l Fl Pr Dn; cbn [length seq combine rfold].
    - exists acc. split; [reflexivity|]. split; [exact Pr|]. unfold given. destruct (Nat.leb n i); [|now rewrite app_nil_r].
      destruct (i - n)%nat; now rewrite app_nil_r.
    - assert (Rest : forall acc1 l1, present acc1 -> dget name acc1 = Some l1 ->
        exists acc', rfold (fun acc jv =>
             match nth_error attrs (fst jv) with
             | None => Ok acc
             | Some a => rbind (dgetr a acc) (fun old => rbind (of_option ValueError (to_float (snd jv))) (fun x => Ok (dset a (old ++ [x]) acc)))
             end) acc1 (combine (seq (S n) (length ps)) ps) = Ok acc' /\ present acc' /\ dget name acc' = Some (l1 ++ given ps (S n) i)).
      { intros acc1 l1. apply IH. intros j c' Hj Hn. apply (Fl (S j) c' Hj). lia. }
      assert (Later : i <> n -> given (c :: ps) n i = given ps (S n) i).
      { intros N. unfold given. destruct (Nat.leb_spec n i) as [L|L], (Nat.leb_spec (S n) i) as [L'|L']; try lia; [|reflexivity].
        replace (i - n)%nat with (S (i - S n)) by lia. reflexivity. }
      cbn [fst snd]. destruct (nth_error attrs n) as [a|] eqn:Ea.
      + destruct (Pr a (nth_error_In _ _ Ea)) as (la & Da). unfold dgetr. rewrite Da. cbn [of_option rbind].
        assert (Hn : (n < length attrs)%nat) by (apply nth_error_Some; congruence).
        destruct (Fl 0%nat c eq_refl ltac:(lia)) as (x & Ex). rewrite Ex. cbn [of_option rbind].
        assert (Pr1 : present (dset a (la ++ [x]) acc)).
        { intros b Hb. destruct (eqb_spec b a) as [->|N]; [rewrite dget_dset_eq; now eexists|]. rewrite dget_dset_neq by exact N. now apply Pr. }
        destruct (eqb_spec name a) as [->|N].
        * assert (n = i) by now apply Cu. subst n. assert (la = l) by congruence. subst la.
          destruct (Rest _ (l ++ [x]) Pr1 ltac:(now rewrite dget_dset_eq)) as (acc' & E & P' & D'). exists acc'. split; [exact E|]. split; [exact P'|].
          rewrite D'. f_equal. unfold given. rewrite Nat.leb_refl, Nat.sub_diag. cbn [nth_error]. rewrite Ex.
          destruct (Nat.leb_spec (S i) i); [lia|]. now rewrite app_nil_r.
        * destruct (Rest _ l Pr1 ltac:(rewrite dget_dset_neq by exact N; exact Dn)) as (acc' & E & P' & D'). exists acc'. split; [exact E|].
          split; [exact P'|]. rewrite D'. rewrite Later; [reflexivity|]. intros ->. unfold column in Ci. fold attrs in Ci. congruence.
      + cbn [rbind]. destruct (Rest _ l Pr Dn) as (acc' & E & P' & D'). exists acc'. split; [exact E|]. split; [exact P'|]. rewrite D'.
        rewrite Later; [reflexivity|]. intros ->. unfold column in Ci. fold attrs in Ci. congruence.
  Qed.

  Lemma rows_read name i : column first name i -> (forall j, column first name j -> j = i) ->
    forall rows acc l, (forall r, In r rows -> readable to_float first r) -> present acc -> dget name acc = Some l ->
    exists acc', rfold (read_row to_float attrs) acc rows = Ok acc' /\ present acc' /\
      dget name acc' = Some (l ++ concat (map (fun r => given (split ","%char r) 0 i) rows)).
  Proof.
    intros Ci Cu. induction rows as [|r rows IH]; intros acc l R Pr Dn; cbn [rfold].
    - exists acc. split; [reflexivity|]. split; [exact Pr|]. now rewrite app_nil_r.
    - destruct (row_read name i Ci Cu (split ","%char r) 0%nat acc l) as (acc1 & E1 & P1 & D1); [|exact Pr|exact Dn|].
      { intros j c Hj Hn. exact (R r (or_introl eq_refl) j c Hn Hj). }
      unfold read_row at 1. cbv zeta. rewrite E1. cbn [rbind].
      destruct (IH acc1 _ (fun r' Hr => R r' (or_intror Hr)) P1 D1) as (acc' & E & P' & D'). exists acc'. split; [exact E|]. split; [exact P'|].
      rewrite D'. cbn [map concat]. now rewrite app_assoc.
  Qed.

  Lemma start_present : forall l d, (forall a, dget a (fold_left (fun (d : dict string (list Q)) a => dset a [] d) l d) = if existsb (eqb a) l then Some [] else dget a d).
  Proof.
    induction l as [|x l IH]; intros d a; cbn [fold_left existsb]; [reflexivity|]. rewrite IH.
    destruct (existsb (eqb a) l); [now rewrite orb_true_r|]. rewrite orb_false_r. destruct (eqb_spec a x) as [->|N].
    - now rewrite dget_dset_eq.
    - now rewrite dget_dset_neq.
  Qed.

  Lemma table_last rows row name x : (forall r, In r rows -> readable to_float first r) -> readable to_float first row ->
    one_column first name -> reads to_float first row name x ->
    exists d, read_table to_float (first :: rows ++ [row]) = Ok d /\ last_of d name = Ok x.
  Proof.
    intros R Rr (i & Ci & Cu) (j & cell & Cj & Hc & Hx). assert (j = i) by now apply Cu. subst j.
    set (acc := fold_left (fun (d : dict string (list Q)) a => dset a [] d) attrs []).
    assert (Pr : present acc).
    { intros a Ha. exists []. unfold acc. rewrite start_present.
      assert (X : existsb (eqb a) attrs = true) by (apply existsb_exists; exists a; split; [exact Ha|]; destruct (eqb_spec a a); congruence). now rewrite X. }
    destruct (rows_read name i Ci Cu (rows ++ [row]) acc []) as (d & E & _ & D).
    - intros r Hr. apply in_app_or in Hr. destruct Hr as [Hr|[<-|[]]]; [now apply R|exact Rr].
    - exact Pr.
    - unfold acc. rewrite start_present. assert (X : existsb (eqb name) attrs = true).
      { apply existsb_exists. exists name. split; [exact (nth_error_In _ _ Ci)|]. destruct (eqb_spec name name); congruence. }
      now rewrite X.
    - exists d. split; [exact E|]. unfold last_of, dgetr. rewrite D. cbn [of_option rbind app].
      rewrite map_app, concat_app, rev_app_distr. cbn [map concat]. rewrite app_nil_r.
      assert (G : given (split ","%char row) 0 i = [x]).
      { unfold given. cbn [Nat.leb]. rewrite Nat.sub_0_r, Hc, Hx. reflexivity. }
      rewrite G. reflexivity.
  Qed.
End Table.

(** * The request *)
Lemma same_value_refl v : same_value v v.
Proof. destruct v; cbn; reflexivity. Qed.

Lemma settings_ok node mem_type kind size bw asked s bits k line :
  technology_as node asked s -> kind_of mem_type kind -> row_parts bw bits k line ->
  exists cfg s', settings node mem_type size bw = Ok (cfg, s') /\ s' == s /\
    same_config cfg (array_config asked kind (size * 8 / bw) bits line).
Proof.
  intros T K (Pb & Pl1 & Pl2 & W). unfold settings.
  assert (Km : (if eqb mem_type "dram" then Ok """main memory""" else if eqb mem_type "sram" then Ok """ram""" else Err ValueError) = Ok kind).
  { destruct K as [(-> & ->)|(-> & ->)]; reflexivity. }
  cbv zeta. rewrite Km. cbn [rbind]. unfold pdiv.
  assert (N0 : qis0 bw = false).
  { unfold qis0. destruct (Qeq_bool bw 0) eqn:E; [apply Qeq_bool_iff in E; rewrite E in Pb; now apply Qlt_irrefl in Pb|reflexivity]. }
  rewrite N0. cbn [rbind]. do 2 eexists. split; [reflexivity|].
  assert (Tt : exists b, Qeq_bool node (28 # 1000) = b /\ (if b then (32 # 1000) else node) == asked /\ (if b then ((9 # 10) * (9 # 10)) else 1) == s).
  { destruct (Qeq_bool node (28 # 1000)) eqn:E; eexists; (split; [reflexivity|]); destruct T as [(T1 & T2 & T3)|(T1 & T2 & T3)].
    - split; [now symmetry|]. rewrite T3. reflexivity.
    - apply Qeq_bool_iff in E. now destruct T1.
    - apply Qeq_bool_neq in E. now destruct E.
    - split; symmetry; assumption. }
  destruct Tt as (b & Eb & Ta & Ts). rewrite Eb. split; [exact Ts|].
  unfold single_config, config_options, array_config. cbn [map fst snd].
  assert (Wd : exists v, negb (Qle_bool bw 32) = v /\
     (if v then ((size * 8 / bw) * 32 / 8) else size) == (size * 8 / bw) * bits / 8 /\
     (if v then 4 else py_int (bw / 8))%Z = line /\ (if v then 32 else bw) == bits).
  { destruct W as [(W1 & W2 & _)|(W1 & W2 & _)].
    - exists false. assert (L : Qle_bool bw 32 = true) by now apply Qle_bool_iff. rewrite L. split; [reflexivity|]. split; [|split; [|now symmetry]].
      + rewrite W2. field. intros Q. rewrite Q in Pb. now apply Qlt_irrefl in Pb.
      + rewrite py_int_floor.
        * assert (A1 := Qfloor_le (bw / 8)). assert (A2 := Qlt_floor (bw / 8)). rewrite inject_Z_plus in A2. change (inject_Z 1) with 1 in A2. rewrite W2 in Pl1, Pl2. set (y := bw / 8) in *.
          assert (B1 : (line < Qfloor y + 1)%Z) by (rewrite Zlt_Qlt, inject_Z_plus; change (inject_Z 1) with 1; lra).
          assert (B2 : (Qfloor y < line + 1)%Z) by (rewrite Zlt_Qlt, inject_Z_plus; change (inject_Z 1) with 1; lra). lia.
        * apply Qle_shift_div_l; [reflexivity|]. lra.
    - exists true. assert (L : Qle_bool bw 32 = false). { destruct (Qle_bool bw 32) eqn:E; [apply Qle_bool_iff in E; lra|reflexivity]. }
      rewrite L. split; [reflexivity|]. split; [|split; [|now symmetry]].
      + rewrite W2. reflexivity.
      + rewrite W2 in Pl1, Pl2. assert (A1 : inject_Z line <= inject_Z 4) by (eapply Qle_trans; [exact Pl1|]; vm_compute; discriminate).
        assert (A2 : inject_Z 4 < inject_Z (line + 1)).
        { rewrite inject_Z_plus. change (inject_Z 1) with 1. eapply Qle_lt_trans; [|exact Pl2]. vm_compute. discriminate. }
        rewrite <- Zle_Qle in A1. rewrite <- Zlt_Qlt in A2. lia. }
  destruct Wd as (v & Ev & V1 & V2 & V3). rewrite Ev. unfold same_config.
  repeat (constructor; [split; [reflexivity|]; cbn; first [reflexivity|exact V1|exact V3|exact Ta|rewrite V2; reflexivity]|]). constructor.
Qed.

Lemma round_within q u : 0 < u -> rounded (1 / u) (inject_Z (py_round (q * u)) / u) q.
Proof.
  intros U. assert (N := py_round_nearest (q * u)). unfold nearest in N. unfold rounded.
  set (z := inject_Z (py_round (q * u))) in *. destruct N as ((N1 & N2) & _).
  assert (E : z == z / u * u) by (field; intros Q; rewrite Q in U; now apply Qlt_irrefl in U).
  assert (E' : 1 / u / 2 * u == 1 # 2) by (field; intros Q; rewrite Q in U; now apply Qlt_irrefl in U).
  split; apply (Qmult_le_r _ _ u U).
  - rewrite <- E. setoid_replace ((q - 1 / u / 2) * u) with (q * u - 1 / u / 2 * u) by ring. now rewrite E'.
  - rewrite <- E. setoid_replace ((q + 1 / u / 2) * u) with (q * u + 1 / u / 2 * u) by ring. now rewrite E'.
Qed.

Lemma rounded_comp u u' x y y' : u == u' -> y == y' -> rounded u x y -> rounded u' x y'.
Proof. unfold rounded. intros Eu E. now rewrite Eu, E. Qed.

Lemma costs_ok s s' bw bits k line t a r w : row_parts bw bits k line -> s' == s ->
  exists c, right_costs s k t a r w c /\
    forall d, last_of d " Access time (ns)" = Ok t -> last_of d " Area (mm2)" = Ok a ->
    last_of d " Dynamic read energy (nJ)" = Ok r -> last_of d " Dynamic write energy (nJ)" = Ok w -> costs s' bw d = Ok c.
Proof.
  intros (_ & _ & _ & W) Es.
  assert (X : exists v, negb (Qle_bool bw 32) = v /\ if v then k == bw / 32 else k == 1).
  { destruct W as [(W1 & _ & W2)|(W1 & _ & W2)].
    - exists false. assert (L : Qle_bool bw 32 = true) by now apply Qle_bool_iff. rewrite L. now split.
    - exists true. assert (L : Qle_bool bw 32 = false). { destruct (Qle_bool bw 32) eqn:E; [apply Qle_bool_iff in E; lra|reflexivity]. } rewrite L. now split. }
  destruct X as (v & Ev & Ek). eexists. split; [|intros d Ht Ha Hr Hw; unfold costs; rewrite Ht, Ha, Hr, Hw; cbn [rbind]; rewrite Ev; reflexivity].
  unfold right_costs.
  split; [now rewrite Es|]. split; [|split].
  - destruct v.
    + refine (rounded_comp _ _ _ _ _ _ _ (round_within (s' * a * 2 * bw / 32) 10000000 eq_refl)); [reflexivity|]. rewrite Es, Ek. field.
    + refine (rounded_comp _ _ _ _ _ _ _ (round_within (s' * a * 2) 10000000 eq_refl)); [reflexivity|]. rewrite Es, Ek. ring.
  - destruct v; rewrite Es, Ek; field.
  - destruct v; rewrite Es, Ek; field.
Qed.

(** * Calls *)
Section Call.
  Variables (to_float : string -> option Q) (resolve : string -> string -> option string).
  Variables (first : string) (answer : config -> option string).
  Hypothesis Cols : named_columns first.
  Hypothesis Ans : same_answers answer.

  Lemma call_ok node mem_type kind size bw asked s bits k line row t a r w :
    technology_as node asked s -> kind_of mem_type kind -> row_parts bw bits k line ->
    answer (array_config asked kind (size * 8 / bw) bits line) = Some row -> says to_float first row t a r w ->
    exists c, right_costs s k t a r w c /\
      forall path wd dir, good_world to_float first wd -> resolve (wd_cwd wd) path = Some dir ->
      exists wd', get_cacti_cost to_float resolve (cacti first answer) path node mem_type size bw wd = (Returned c, wd') /\
        wd_cwd wd' = wd_cwd wd /\ good_world to_float first wd'.
  Proof.
    intros T K P An (Rr & St & Sa & Sr & Sw). unfold get_cacti_cost.
    destruct (settings_ok node mem_type kind size bw asked s bits k line T K P) as (cfg & s' & Es & Ess & Sc).
    destruct (costs_ok s s' bw bits k line t a r w P Ess) as (c & Rc & Ec). exists c. split; [exact Rc|]. intros path wd dir Gw Rs.
    rewrite Rs, Es. unfold cacti. rewrite (Ans _ _ Sc), An.
    assert (F : exists rows, match dget dir (wd_out wd) with None => [first; row] | Some ls => ls ++ [row] end = first :: rows ++ [row] /\
                forall x, In x rows -> readable to_float first x).
    { destruct (dget dir (wd_out wd)) as [ls|] eqn:D.
      - destruct (Gw dir ls D) as (rows & -> & Hr). exists rows. split; [reflexivity|exact Hr].
      - exists []. split; [reflexivity|]. intros x []. }
    destruct F as (rows & Er & Hr). rewrite Er. destruct Cols as (C1 & C2 & C3 & C4).
    destruct (table_last to_float first rows row _ t Hr Rr C1 St) as (d & Ed & H1).
    destruct (table_last to_float first rows row _ a Hr Rr C2 Sa) as (d2 & Ed2 & H2). assert (d2 = d) by congruence. subst d2.
    destruct (table_last to_float first rows row _ r Hr Rr C3 Sr) as (d3 & Ed3 & H3). assert (d3 = d) by congruence. subst d3.
    destruct (table_last to_float first rows row _ w Hr Rr C4 Sw) as (d4 & Ed4 & H4). assert (d4 = d) by congruence. subst d4.
    rewrite Ed. cbn [rbind]. rewrite (Ec d H1 H2 H3 H4).
    eexists. split; [reflexivity|]. split; [reflexivity|].
    intros dir' ls'. cbn [wd_out]. destruct (eqb_spec dir' dir) as [->|N].
    - rewrite dget_dset_eq. intros Q. injection Q as <-. exists (rows ++ [row]). split; [reflexivity|].
      intros x Hx. apply in_app_or in Hx. destruct Hx as [Hx|[<-|[]]]; [now apply Hr|exact Rr].
    - rewrite dget_dset_neq by exact N. apply Gw.
  Qed.

  Lemma config_same asked asked' kind rows rows' bits bits' line : asked == asked' -> rows * bits == rows' * bits' -> bits == bits' ->
    answer (array_config asked kind rows bits line) = answer (array_config asked' kind rows' bits' line).
  Proof.
    intros Ea Er Eb. apply Ans. unfold array_config, same_config.
    repeat (constructor; [split; [reflexivity|]; cbn; first [reflexivity|exact Ea|exact Eb|now rewrite Er]|]). constructor.
  Qed.

  (** wider arrays of the same rows *)
  Lemma wide_ok node mem_type kind size asked s n row t a r w :
    technology_as node asked s -> kind_of mem_type kind -> 1 < n ->
    answer (array_config asked kind (size * 8 / 32) 32 4) = Some row -> says to_float first row t a r w ->
    exists c c', right_costs s 1 t a r w c /\ right_costs s n t a r w c' /\
      forall path wd dir, good_world to_float first wd -> resolve (wd_cwd wd) path = Some dir ->
      exists wd1 wd2, get_cacti_cost to_float resolve (cacti first answer) path node mem_type size 32 wd = (Returned c, wd1) /\
        get_cacti_cost to_float resolve (cacti first answer) path node mem_type (n * size) (n * 32) wd1 = (Returned c', wd2).
  Proof.
    intros T K Hn An Sy.
    assert (P1 : row_parts 32 32 1 4). { unfold row_parts. repeat split; try (vm_compute; congruence). left. repeat split; vm_compute; congruence. }
    assert (P2 : row_parts (n * 32) 32 n 4).
    { unfold row_parts. split; [lra|]. split; [vm_compute; congruence|]. split; [vm_compute; congruence|]. right. split; [lra|]. split; [reflexivity|]. field. }
    destruct (call_ok node mem_type kind size 32 asked s 32 1 4 row t a r w T K P1 An Sy) as (c & Rc & Hc).
    assert (An' : answer (array_config asked kind (n * size * 8 / (n * 32)) 32 4) = Some row).
    { rewrite <- An. apply config_same; try reflexivity. field. intros Q. rewrite Q in Hn. discriminate Hn. }
    destruct (call_ok node mem_type kind (n * size) (n * 32) asked s 32 n 4 row t a r w T K P2 An' Sy) as (c' & Rc' & Hc').
    exists c, c'. split; [exact Rc|]. split; [exact Rc'|]. intros path wd dir Gw Rs.
    destruct (Hc path wd dir Gw Rs) as (wd1 & E1 & Ew & G1). exists wd1.
    destruct (Hc' path wd1 dir G1 ltac:(rewrite Ew; exact Rs)) as (wd2 & E2 & _). exists wd2. now split.
  Qed.

  (** writing one weight *)
  Lemma weight_ok path node wordline bitline depth pres asked s bits k line row t a r w wd dir :
    technology_as node asked s -> 0 < wordline -> 0 < pres -> row_parts (wordline * pres) bits k line ->
    answer (array_config asked """ram""" (bitline * depth) bits line) = Some row -> says to_float first row t a r w ->
    good_world to_float first wd -> resolve (wd_cwd wd) path = Some dir ->
    exists x wd', w_cost_per_weight to_float resolve (cacti first answer) path node wordline bitline depth pres wd = (Returned x, wd') /\
      rounded (1 # 1000) x (1000 * s * w * k / wordline) /\ wd_cwd wd' = wd_cwd wd.
  Proof.
    intros T Hw Hp P An Sy Gw Rs.
    assert (Nw : ~ wordline == 0) by (intros Q; rewrite Q in Hw; now apply Qlt_irrefl in Hw).
    assert (Np : ~ pres == 0) by (intros Q; rewrite Q in Hp; now apply Qlt_irrefl in Hp).
    assert (An' : answer (array_config asked """ram""" (wordline * bitline * depth * pres / 8 * 8 / (wordline * pres)) bits line) = Some row).
    { rewrite <- An. apply config_same; try reflexivity. field. now split. }
    destruct (call_ok node "sram" """ram""" _ _ asked s bits k line row t a r w T (or_introl (conj eq_refl eq_refl)) P An' Sy) as (c & Rc & Hc).
    destruct (Hc path wd dir Gw Rs) as (wd' & E & Ew & _). unfold w_cost_per_weight. cbv zeta. rewrite E.
    destruct c as (((t' & a') & r') & w'). destruct Rc as (_ & _ & _ & Rw).
    unfold pdiv. assert (N0 : qis0 (wordline * pres) = false).
    { unfold qis0. destruct (Qeq_bool (wordline * pres) 0) eqn:B; [|reflexivity]. apply Qeq_bool_iff, Qmult_integral in B. now destruct B. }
    rewrite N0. do 2 eexists. split; [reflexivity|]. split; [|exact Ew].
    unfold py_round3. refine (rounded_comp _ _ _ _ _ _ _ (round_within (w' * pres / (wordline * pres)) 1000 eq_refl)); [reflexivity|].
    rewrite Rw. field. now split.
  Qed.
  (** the cells of one array *)
  Lemma array_ok node wordline bitline cells pres asked s bits k line row t a r w :
    technology_as node asked s -> 0 < wordline -> 0 < pres -> row_parts (wordline * pres) bits k line ->
    answer (array_config asked """ram""" (bitline * cells / pres) bits line) = Some row -> says to_float first row t a r w ->
    exists c, right_costs s k t a r w c /\ forall wd dir, good_world to_float first wd -> resolve (wd_cwd wd) "zigzag/cacti/cacti_master" = Some dir ->
    exists wd', cell_array_cost to_float resolve (cacti first answer) node wordline bitline cells pres wd = (Returned c, wd') /\ wd_cwd wd' = wd_cwd wd.
  Proof.
    intros T Hw Hp P An Sy.
    assert (Nw : ~ wordline == 0) by (intros Q; rewrite Q in Hw; now apply Qlt_irrefl in Hw).
    assert (Np : ~ pres == 0) by (intros Q; rewrite Q in Hp; now apply Qlt_irrefl in Hp).
    assert (An' : answer (array_config asked """ram""" (wordline * bitline * cells / 8 * 8 / (wordline * pres)) bits line) = Some row).
    { rewrite <- An. apply config_same; try reflexivity. field. now split. }
    destruct (call_ok node "sram" """ram""" _ _ asked s bits k line row t a r w T (or_introl (conj eq_refl eq_refl)) P An' Sy) as (c & Rc & Hc).
    exists c. split; [exact Rc|]. intros wd dir Gw Rs. destruct (Hc _ wd dir Gw Rs) as (wd' & E & Ew & _). exists wd'. now split.
  Qed.
End Call.
