From Coq Require Import QArith Lia Lqa ZArith.
From Verif Require Import Base Model_Cme Model_HwOpt Spec_Cme Spec_HwOpt Proof_AllocSearch Proof_Reduce.
Local Open Scope string_scope.
Local Open Scope list_scope.
Local Open Scope Z_scope.

Lemma offered_iff l1 a : In (l1, a) configurations <-> offered l1 a.
Proof.
  unfold offered. destruct a as [[x y] z]. split.
  - intros I. unfold configurations in I. apply in_flat_map in I. destruct I as (l & Il & I).
    apply in_map_iff in I. destruct I as (b & E & I). injection E as -> ->. split; [exact Il|].
    unfold array_combinations in I. apply in_flat_map in I. destruct I as (p & Ip & I).
    apply in_flat_map in I. destruct I as (q & Iq & I). apply in_map_iff in I. destruct I as (r & E & Ir).
    injection E as -> -> ->. auto.
  - intros (Il & Ix & Iy & Iz). unfold configurations. apply in_flat_map. exists l1. split; [exact Il|].
    apply in_map_iff. exists (x, y, z). split; [reflexivity|]. unfold array_combinations.
    apply in_flat_map. exists x. split; [exact Ix|]. apply in_flat_map. exists y. split; [exact Iy|].
    apply in_map_iff. exists z. split; [reflexivity|exact Iz].
Qed.
Lemma configurations_once : NoDup configurations.
Proof. vm_compute. repeat (constructor; [intros I; repeat (destruct I as [I|I]; [discriminate I|]); exact I|]). constructor. Qed.

(** * The description *)

Lemma size_bounds l1 : let s := Qfloor (inject_Z (l1 * 1024 * 8) * (8 # 10)) in 10 * s <= 8 * (l1 * 1024 * 8) < 10 * (s + 1).
Proof.
  cbv zeta. set (n := l1 * 1024 * 8). unfold Qfloor, inject_Z, Qmult. cbn [Qnum Qden]. change (Z.pos (1 * 10)) with 10.
  pose proof (Z.div_mod (n * 8) 10). pose proof (Z.mod_pos_bound (n * 8) 10). lia.
Qed.

(** the document, whatever configurations were tried before *)
Definition alike {R} (h0 h : hardware R) : Prop :=
  hw_rest h = hw_rest h0 /\ map fst (hw_ports h) = map fst (hw_ports h0) /\ skipn 3 (hw_ports h) = skipn 3 (hw_ports h0).

Lemma set_first name bw b (ps : list (string * Z)) : set_port 0 name bw ((name, b) :: ps) = Ok ((name, bw) :: ps).
Proof. unfold set_port. cbn [nth_error of_option rbind fst]. now rewrite eqb_refl. Qed.
Lemma set_second name bw x b (ps : list (string * Z)) : set_port 1 name bw (x :: (name, b) :: ps) = Ok (x :: (name, bw) :: ps).
Proof. unfold set_port. cbn [nth_error of_option rbind fst]. now rewrite eqb_refl. Qed.
Lemma set_third name bw x y b (ps : list (string * Z)) : set_port 2 name bw (x :: y :: (name, b) :: ps) = Ok (x :: y :: (name, bw) :: ps).
Proof. unfold set_port. cbn [nth_error of_option rbind fst]. now rewrite eqb_refl. Qed.

Lemma set_port_names i name bw ps ps' : set_port i name bw ps = Ok ps' -> (i < 3)%nat ->
  nth_error (map fst ps) i = Some name /\ map fst ps' = map fst ps /\ skipn 3 ps' = skipn 3 ps.
Proof.
  unfold set_port. destruct (nth_error ps i) as [[n b]|] eqn:E; [|discriminate]. cbn [of_option rbind fst].
  destruct (eqb_spec n name) as [En|]; [|discriminate]. subst n. intros G L. injection G as <-.
  split; [now rewrite nth_error_map, E|].
  destruct i as [|[|[|]]]; [| | |lia]; destruct ps as [|p [|q [|r ps]]]; cbn in E; try discriminate; injection E as ->; split; reflexivity.
Qed.

Lemma three_alike {R} (h0 h : hardware R) : alike h0 h -> three_ports h <-> three_ports h0.
Proof.
  intros (_ & N & T). unfold three_ports. split; intros (b1 & b2 & b3 & l & E); rewrite E in *; cbn [map fst] in N.
  - destruct (hw_ports h0) as [|[? c1] [|[? c2] [|[? c3] m]]]; try discriminate. cbn [map fst] in N. injection N as -> -> -> N. eauto 8.
  - destruct (hw_ports h) as [|[? c1] [|[? c2] [|[? c3] m]]]; try discriminate. cbn [map fst] in N. injection N as -> -> -> N. eauto 8.
Qed.

Definition new_hardware {R} (h : hardware R) (l1 r : Z) (a : Z * Z * Z) (l : list (string * Z)) : hardware R :=
  let '(x, y, z) := a in
  mkHardware (Qfloor (inject_Z (l1 * 1024 * 8) * (8 # 10))) (inject_Z r) ((12 # 10) * inject_Z r)
    (("rw_port_1", x * y * 8) :: ("rw_port_2", y * z * 8) :: ("rw_port_3", x * z * 32) :: l) [x; y; z] (hw_rest h).

Lemma cost_read l1 r : dgetr l1 l1_read_costs = Ok r -> read_cost l1 r.
Proof. unfold dgetr. destruct (dget l1 l1_read_costs) as [v|] eqn:E; [|discriminate]. intros G. injection G as <-. exact (dget_In _ _ _ E). Qed.
Lemma cost_known l1 a : offered l1 a -> exists r, dgetr l1 l1_read_costs = Ok r.
Proof. intros [I _]. cbn in I. decompose [or] I; try contradiction; subst l1; eexists; reflexivity. Qed.

Definition update_hardware {R} (h : hardware R) (x : Z * (Z * Z * Z)) : result (hardware R) :=
  rbind (update_l1_size h (fst x)) (fun h => update_bandwidths (update_array_size h (snd x)) (snd x)).

Lemma update_hardware_ok {R} (h0 h : hardware R) l1 a : alike h0 h -> offered l1 a -> three_ports h0 ->
  exists h', update_hardware h (l1, a) = Ok h' /\ configured h0 l1 a h' /\ alike h0 h'.
Proof.
  intros L O P. pose proof (proj2 (three_alike _ _ L) P) as (b1 & b2 & b3 & l & E). destruct P as (c1 & c2 & c3 & l0 & E0).
  destruct (cost_known l1 a O) as [r Er]. unfold update_hardware, update_l1_size. cbn [fst snd]. rewrite Er. cbn [rbind].
  destruct a as [[x y] z]. unfold update_array_size, update_bandwidths. cbn [hw_ports hw_size hw_read hw_write hw_rest hw_array].
  rewrite E, set_first. cbn [rbind]. rewrite set_second. cbn [rbind]. rewrite set_third. cbn [rbind].
  eexists. split; [reflexivity|]. destruct L as (L1 & L2 & L3). rewrite E, E0 in L3. cbn [skipn] in L3. subst l0. split.
  - unfold configured. cbn [hw_ports hw_size hw_read hw_write hw_rest hw_array]. split; [apply size_bounds|].
    split; [exists r; split; [exact (cost_read _ _ Er)|]; split; [reflexivity|lra]|]. split; [reflexivity|]. split; [exact L1|].
    exists c1, c2, c3, l. split; [exact E0|reflexivity].
  - unfold alike. cbn [hw_rest hw_ports]. rewrite E0. split; [exact L1|]. split; reflexivity.
Qed.

Lemma update_hardware_ports {R} (h h' : hardware R) x : update_hardware h x = Ok h' -> three_ports h.
Proof.
  unfold update_hardware. destruct x as [l1 [[x y] z]]. cbn [fst snd]. unfold update_l1_size. destruct (dgetr l1 l1_read_costs); [|discriminate]. cbn [rbind].
  unfold update_array_size, update_bandwidths. cbn [hw_ports]. 
  destruct (set_port 0 _ _ (hw_ports h)) as [p1|] eqn:E1; [|discriminate]. cbn [rbind].
  destruct (set_port 1 _ _ p1) as [p2|] eqn:E2; [|discriminate]. cbn [rbind].
  destruct (set_port 2 _ _ p2) as [p3|] eqn:E3; [|discriminate]. intros _.
  destruct (set_port_names _ _ _ _ _ E1) as (N1 & M1 & _); [lia|]. destruct (set_port_names _ _ _ _ _ E2) as (N2 & M2 & _); [lia|].
  destruct (set_port_names _ _ _ _ _ E3) as (N3 & _); [lia|]. rewrite M2, M1 in N3. rewrite M1 in N2. unfold three_ports.
  destruct (hw_ports h) as [|[? c1] [|[? c2] [|[? c3] m]]]; try discriminate. cbn in N1, N2, N3.
  injection N1 as ->. injection N2 as ->. injection N3 as ->. eauto 8.
Qed.

(** * The mapping *)

Lemma size_side a o s : In o ["D1"; "D2"; "D3"] -> size_at a o = Ok s <-> side a o s.
Proof.
  destruct a as [[x y] z]. intros [<-|[<-|[<-|[]]]]; (split; [intros E; cbn in E; injection E as <-|intros E; inversion E; subst; reflexivity]).
  - exact (side1 (x, y, z)).
  - exact (side2 (x, y, z)).
  - exact (side3 (x, y, z)).
Qed.

Lemma update_fold layer a : forall l acc m, rfold (update_one layer a) acc l = Ok m ->
  (forall o, In o (keys l) -> In o ["D1"; "D2"; "D3"]) -> NoDup (keys l) -> (forall o, In o (keys l) -> In o (keys acc)) ->
  keys m = keys acc /\ (forall o, ~ In o (keys l) -> dget o m = dget o acc) /\
  forall o v, In (o, v) l -> exists d u rest size n, v = (d, u) :: rest /\ side a o size /\ dget d layer = Some n /\ (size | n) /\
    dget o m = Some [(d, inject_Z size)].
Proof.
  induction l as [|[o v] l IH]; intros acc m E N D K.
  - injection E as <-. split; [reflexivity|]. split; [reflexivity|]. intros ? ? [].
  - cbn [rfold] in E. unfold update_one in E at 1. cbn [fst snd] in E.
    destruct (size_at a o) as [size|] eqn:Es; [|discriminate]. cbn [rbind] in E.
    destruct v as [|[d u] rest]; [discriminate|]. unfold dgetr in E. destruct (dget d layer) as [n|] eqn:En; [|discriminate]. cbn [of_option rbind] in E.
    destruct (n mod size =? 0) eqn:Em; [|discriminate]. cbn [rbind] in E.
    assert (Hs : side a o size) by (apply (size_side a o size); [apply N; now left|exact Es]).
    cbn [keys map fst] in D. apply NoDup_cons_iff in D. destruct D as [D1 D2].
    assert (Ko : In o (keys acc)) by (apply K; now left).
    destruct (IH _ _ E) as (K' & U & S').
    + intros o' I. apply N. now right.
    + exact D2.
    + intros o' I. apply In_keys_dset. right. apply K. now right.
    + rewrite (keys_dset_in _ _ _ Ko) in K'. split; [exact K'|]. split.
      * intros o' I. rewrite U; [|intros J; apply I; now right]. apply dget_dset_neq. intros ->. apply I. now left.
      * intros o' v' [I|I]; [|exact (S' o' v' I)]. injection I as <- <-. exists d, u, rest, size, n.
        split; [reflexivity|]. split; [exact Hs|]. split; [exact En|]. split.
        -- apply Z.eqb_eq in Em. destruct (Z.eq_dec size 0) as [->|Nz]; [rewrite Zmod_0_r in Em; subst n; apply Z.divide_refl|now apply Z.mod_divide].
        -- rewrite U by exact D1. apply dget_dset_eq.
Qed.

Lemma update_mapping_spread layer original a m : over_array original -> update_mapping layer original a = Ok m -> spread layer original a m.
Proof.
  intros [D N] E. destruct (update_fold layer a original original m E N D (fun o I => I)) as (K & _ & S'). split; [exact K|].
  intros o I. destruct (key_dget _ _ I) as [v G]. destruct (S' o v (dget_In _ _ _ G)) as (d & u & rest & size & n & -> & H2 & H3 & H4 & H5).
  exists d, u, rest, size, n. auto.
Qed.

Lemma update_fold_ok layer a : forall l acc,
  (forall o v, In (o, v) l -> exists d u rest size n, v = (d, u) :: rest /\ size_at a o = Ok size /\ dget d layer = Some n /\ n mod size = 0) ->
  exists m, rfold (update_one layer a) acc l = Ok m.
Proof.
  induction l as [|[o v] l IH]; intros acc H; [now exists acc|]. destruct (H o v (or_introl eq_refl)) as (d & u & rest & size & n & -> & Es & En & Em).
  cbn [rfold]. unfold update_one at 1. cbn [fst snd]. rewrite Es. cbn [rbind]. unfold dgetr. rewrite En. cbn [of_option rbind].
  rewrite (proj2 (Z.eqb_eq _ _) Em). cbn [rbind]. apply IH. intros o' v' I. apply H. now right.
Qed.


Lemma side_total a o : In o ["D1"; "D2"; "D3"] -> exists s, side a o s.
Proof. intros [<-|[<-|[<-|[]]]]; eexists; constructor. Qed.
Lemma side_offered l1 a o s : offered l1 a -> side a o s -> s = 8 \/ s = 16.
Proof.
  destruct a as [[x y] z]. intros (_ & Ix & Iy & Iz) H. cbn in Ix, Iy, Iz. inversion H; subst; cbn; intuition.
Qed.

Lemma update_mapping_ok layer original l1 a : over_array original -> divisible layer original 16 -> offered l1 a ->
  exists m, update_mapping layer original a = Ok m.
Proof.
  intros [D N] V O. unfold update_mapping. apply update_fold_ok. intros o v I.
  assert (Io : In o (keys original)) by (apply in_map_iff; exists (o, v); auto).
  pose proof (In_dget o v original D I) as G. destruct (V o Io) as (d & u & rest & n & G' & En & Dv). pose proof (eq_trans (eq_sym G) G') as G2. injection G2 as ->.
  destruct (side_total a o (N o Io)) as [s Hs]. exists d, u, rest, s, n. split; [reflexivity|].
  split; [apply size_side; [now apply N|exact Hs]|]. split; [exact En|].
  destruct Dv as [q ->]. destruct (side_offered _ _ _ _ O Hs) as [-> | ->].
  - replace (q * 16) with (q * 2 * 8) by ring. apply Z.mod_mul. lia.
  - apply Z.mod_mul. lia.
Qed.

(** * The search *)

Lemma keep_best l : match fold_left keep l None with None => l = [] | Some b => first_best latency_le l b end.
Proof.
  assert (G : forall (l : list eval), (exists e x, In (e, x) (map (fun e : eval => (e, tt)) l) /\ forall i, ev_layers e <> inl i) \/ True) by (right; exact I).
  clear G. induction l as [|e l IH] using rev_ind; [reflexivity|]. rewrite fold_left_app. cbn [fold_left].
  assert (R : forall a, latency_le a a) by (intros a; right; split; lra).
  unfold keep at 1. destruct (fold_left keep l None) as [b|] eqn:F.
  - change (improves e (Some b)) with (less_latency e b). destruct IH as (l1 & l2 & E & B1 & B2). destruct (less_latency e b) eqn:L.
    + apply latency_spec in L. exists l, []. split; [reflexivity|]. split.
      * intros e' He. apply in_app_or in He. destruct He as [He|[<-|[]]]; [|apply R].
        destruct (lex_total (ev_l2 e) (ev_l2 b) (ev_energy e) (ev_energy b)) as [Q'|Q']; [|now destruct L].
        exact (lex_trans _ _ _ _ _ _ Q' (B1 e' He)).
      * intros e' He Hle. apply L. exact (lex_trans _ _ _ _ _ _ (B1 e' He) Hle).
    + assert (Lb : latency_le b e). { destruct (lex_dec (ev_l2 b) (ev_l2 e) (ev_energy b) (ev_energy e)) as [Q'|Q']; [exact Q'|]. apply latency_spec in Q'. congruence. }
      exists l1, (l2 ++ [e]). split; [rewrite E, <- app_assoc; reflexivity|]. split; [|exact B2].
      intros e' He. apply in_app_or in He. destruct He as [He|[<-|[]]]; [now apply B1|exact Lb].
  - subst l. cbn. exists [], []. split; [reflexivity|]. split; [intros e' [<-|[]]; apply R|intros e' []].
Qed.

Section Search.
  Context {R : Type} (evaluate : hardware R -> dict string (dict string Q) -> result (list eval)).
  Variables (layer : dict string Z) (original : dict string (dict string Q)) (h0 : hardware R).
  Hypothesis OA : over_array original.

  Lemma try_split s x s' : try_configuration evaluate layer original s x = Ok s' ->
    exists h m cs, update_hardware (se_hw s) x = Ok h /\ update_mapping layer original (snd x) = Ok m /\ evaluate h m = Ok cs /\
      s' = mkSearching h m (fold_left keep cs (se_best s)) (se_all s ++ cs).
  Proof.
    unfold try_configuration, update_hardware. destruct (update_l1_size (se_hw s) (fst x)) as [h1|]; [|discriminate]. cbn [rbind].
    destruct (update_bandwidths _ (snd x)) as [h|]; [|discriminate]. cbn [rbind].
    destruct (update_mapping layer original (snd x)) as [m|]; [|discriminate]. cbn [rbind].
    destruct (evaluate h m) as [cs|] eqn:Ev; [|discriminate]. cbn [rbind]. intros E. injection E as <-. exists h, m, cs. auto.
  Qed.

  Lemma search_runs : forall cfgs s s', (forall x, In x cfgs -> offered (fst x) (snd x)) -> alike h0 (se_hw s) ->
    se_best s = fold_left keep (se_all s) None ->
    rfold (try_configuration evaluate layer original) s cfgs = Ok s' ->
    exists ys, Forall2 (tried evaluate layer original h0) cfgs ys /\ se_all s' = se_all s ++ concat (map snd ys) /\ se_best s' = fold_left keep (se_all s') None /\
      se_map s' = last (map (fun y => snd (fst y)) ys) (se_map s).
  Proof.
    induction cfgs as [|x cfgs IH]; intros s s' O L B E.
    - injection E as <-. exists []. split; [constructor|]. cbn. rewrite app_nil_r. auto.
    - cbn [rfold] in E. destruct (try_configuration evaluate layer original s x) as [s1|] eqn:E1; [|discriminate]. cbn [rbind] in E.
      destruct (try_split _ _ _ E1) as (h & m & cs & Eh & Em & Ec & ->).
      pose proof (O x (or_introl eq_refl)) as Ox. destruct x as [l1 a]. cbn [fst snd] in *.
      pose proof (proj1 (three_alike _ _ L) (update_hardware_ports _ _ _ Eh)) as P3.
      destruct (update_hardware_ok h0 (se_hw s) l1 a L Ox P3) as (h' & Eh' & Ch & Lh).
      rewrite Eh in Eh'. injection Eh' as <-. eapply IH in E; [|intros y Iy; apply O; now right|exact Lh|].
      + destruct E as (ys & F & A & Bs & Mp). exists ((h, m, cs) :: ys). split.
        * constructor; [|exact F]. split; [exact Ch|]. split; [now apply update_mapping_spread|exact Ec].
        * cbn [se_all map concat snd fst] in *. split; [rewrite A, <- app_assoc; reflexivity|]. split; [exact Bs|]. rewrite Mp. cbn [se_map].
          clear -ys. destruct ys as [|y ys]; [reflexivity|]. cbn [map]. revert y. induction ys as [|z ys IH]; intros y; [reflexivity|]. exact (IH z).
      + cbn [se_best se_all]. rewrite fold_left_app, <- B. reflexivity.
  Qed.

  Lemma search_total : three_ports h0 -> divisible layer original 16 ->
    (forall h m, exists cs, evaluate h m = Ok cs) ->
    forall cfgs s, (forall x, In x cfgs -> offered (fst x) (snd x)) -> alike h0 (se_hw s) ->
    exists s', rfold (try_configuration evaluate layer original) s cfgs = Ok s'.
  Proof.
    intros P3 V T. induction cfgs as [|x cfgs IH]; intros s O L; [now exists s|].
    pose proof (O x (or_introl eq_refl)) as Ox. destruct x as [l1 a]. cbn [fst snd] in Ox.
    destruct (update_hardware_ok h0 (se_hw s) l1 a L Ox P3) as (h & Eh & Ch & Lh).
    destruct (update_mapping_ok layer original l1 a OA V Ox) as [m Em]. destruct (T h m) as [cs Ec].
    cbn [rfold]. unfold try_configuration at 1. unfold update_hardware in Eh. cbn [fst snd] in *.
    destruct (update_l1_size (se_hw s) l1) as [h1|]; [|discriminate]. cbn [rbind] in *. rewrite Eh. cbn [rbind]. rewrite Em. cbn [rbind].
    rewrite Ec. cbn [rbind]. apply IH; [intros y Iy; apply O; now right|exact Lh].
  Qed.
End Search.

Lemma F2_last {A B} (R : A -> B -> Prop) l l' d d' : Forall2 R l l' -> l <> [] -> R (last l d) (last l' d').
Proof.
  induction 1 as [|x y l l' H F IH]; [easy|]. intros _. destruct F as [|x' y' l l' H' F]; [exact H|]. apply IH. discriminate.
Qed.

Lemma optimize_best {R} evaluate layer original (h : hardware R) b left : over_array original ->
  optimize evaluate true [("Gemm", layer, original)] h = Ok (b, left) ->
  exists runs, Forall2 (tried evaluate layer original h) configurations runs /\ first_best latency_le (concat (map snd runs)) b /\
    spread layer original (16, 16, 16) left.
Proof.
  intros OA E. unfold optimize in E. cbn [negb] in E. change (eqb "Gemm" "Gemm") with true in E. cbn [negb] in E.
  destruct (rfold (try_configuration evaluate layer original) (mkSearching h original None []) configurations) as [s|] eqn:F; [|discriminate]. cbn [rbind] in E.
  destruct (se_best s) as [b'|] eqn:B; [|discriminate]. injection E as -> <-.
  eapply (search_runs evaluate layer original h OA) in F; [| |split; [reflexivity|split; reflexivity]|reflexivity].
  - destruct F as (ys & T & A & Bs & Mp). exists ys. split; [exact T|]. split.
    + cbn [se_all app] in A. rewrite A in Bs. pose proof (keep_best (concat (map snd ys))) as K. rewrite <- Bs, B in K. exact K.
    + rewrite Mp. cbn [se_map]. pose proof (F2_last _ _ _ (0, (0, 0, 0)) (h, original, []) T) as H. specialize (H ltac:(discriminate)).
      change (last configurations (0, (0, 0, 0))) with (512, (16, 16, 16)) in H. unfold tried in H.
      assert (X : last (map (fun y : hardware R * dict string (dict string Q) * list eval => snd (fst y)) ys) original = snd (fst (last ys (h, original, [])))).
      { clear. induction ys as [|y [|z ys] IH]; try reflexivity. exact IH. }
      rewrite X. destruct (last ys (h, original, [])) as [[h' m'] cs']. cbn [fst snd]. apply H.
  - intros [l1 a] I. now apply offered_iff.
Qed.

Lemma optimize_total {R} evaluate layer original (h : hardware R) : over_array original -> three_ports h -> divisible layer original 16 ->
  (forall h m, exists c cs, evaluate h m = Ok (c :: cs)) ->
  exists b left, optimize evaluate true [("Gemm", layer, original)] h = Ok (b, left).
Proof.
  intros OA P V T. unfold optimize. cbn [negb]. change (eqb "Gemm" "Gemm") with true. cbn [negb].
  assert (T' : forall h m, exists cs, evaluate h m = Ok cs) by (intros h' m; destruct (T h' m) as (c & cs & E); eauto).
  destruct (search_total evaluate layer original h OA P V T' configurations (mkSearching h original None [])) as [s F].
  { intros [l1 a] I. now apply offered_iff. } { split; [reflexivity|split; reflexivity]. }
  rewrite F. cbn [rbind]. eapply (search_runs evaluate layer original h OA) in F; [| |split; [reflexivity|split; reflexivity]|reflexivity].
  - destruct F as (ys & Ft & A & Bs & Mp). destruct (se_best s) as [b|] eqn:B; [eauto|]. exfalso.
    cbn [se_all app] in A. rewrite A in Bs. pose proof (keep_best (concat (map snd ys))) as K. rewrite <- Bs in K.
    inversion Ft as [|x [[h' m'] cs'] cfgs ys' Hx Fy Ex Ey]; subst ys. destruct Hx as (_ & _ & Ev). destruct (T h' m') as (c & cs & Ec). rewrite Ec in Ev. injection Ev as <-. discriminate.
  - intros [l1 a] I. now apply offered_iff.
Qed.

(** a layer that 16 does not divide stops the search *)
Lemma optimize_indivisible {R} evaluate layer original (h : hardware R) : over_array original -> ~ divisible layer original 16 ->
  forall r, optimize evaluate true [("Gemm", layer, original)] h <> Ok r.
Proof.
  intros OA V [b left] E. destruct (optimize_best _ _ _ _ _ _ OA E) as (_ & _ & _ & _ & H).
  apply V. intros o I. destruct (H o I) as (d & u & rest & size & n & G & S' & En & Dv & _).
  exists d, u, rest, n. split; [exact G|]. split; [exact En|]. inversion S'; subst; exact Dv.
Qed.

(** * Example *)
Definition ex_hardware : hardware unit :=
  mkHardware 943718 118 (1416 # 10) [("rw_port_1", 512); ("rw_port_2", 512); ("rw_port_3", 2048); ("rw_port_4", 512)] [8; 8; 8] tt.
Definition ex_layer : dict string Z := [("B", 1); ("C", 32); ("D", 48); ("K", 64)].
Definition ex_mapping : dict string (dict string Q) := [("D1", [("D", 8%Q)]); ("D2", [("C", 8%Q)]); ("D3", [("K", 8%Q)])].
(** evaluations in which a smaller array is faster *)
Definition ex_evaluate (h : hardware unit) (m : dict string (dict string Q)) : result (list eval) :=
  Ok [mkEval [] [] [] 0 0 (hw_read h) 0 0 0 0 0 0 (qprod (map snd (concat (map snd m)))) None (inl 0%nat) None].
Lemma ex_over : over_array ex_mapping.
Proof. split; [repeat (constructor; [cbn; intuition discriminate|]); constructor|]. intros o I. cbn in I |- *. tauto. Qed.
Lemma ex_divisible : divisible ex_layer ex_mapping 16.
Proof.
  intros o [<-|[<-|[<-|[]]]].
  - exists "D", 8%Q, [], 48. split; [reflexivity|]. split; [reflexivity|]. now exists 3.
  - exists "C", 8%Q, [], 32. split; [reflexivity|]. split; [reflexivity|]. now exists 2.
  - exists "K", 8%Q, [], 64. split; [reflexivity|]. split; [reflexivity|]. now exists 4.
Qed.
