(** Workload descriptions: a check of sensible layers, the descriptions that come with the project, and
    descriptions that are accepted though they cannot be built. *)
From Coq Require Import Ascii.
From Verif Require Import Base Model_Text Model_Graph Model_Pr Model_Layer Model_MapFile Model_Workload Model_WorkFile Shipped_Workload
  Spec_Pr Spec_Loma Spec_Layer Spec_MapFile Spec_Workload Spec_WorkFile Proof_Text Proof_MapFile Proof_Relevancy Proof_Elements Proof_WorkFile.
Open Scope string_scope.
Open Scope list_scope.
Open Scope Z_scope.

(** * A check *)

Definition text_in (set s : string) : bool := forallb (fun c => existsb (Ascii.eqb c) (characters set)) (characters s).
Lemma text_in_spec set s : text_in set s = true -> forall c, In c (characters s) -> In c (characters set).
Proof.
  unfold text_in. rewrite forallb_forall. intros H c I. specialize (H c I). apply existsb_exists in H. destruct H as (x & Ix & E). apply Ascii.eqb_eq in E. now subst x.
Qed.
Definition letters : string := "abcdefghijklmnopqrstuvwxyzABCDEFGHIJKLMNOPQRSTUVWXYZ0123456789".
Definition plain_b (s : string) : bool := text_in letters s.
Definition wordlike_b (s : string) : bool := text_in (letters ++ "_") s.
Definition blank_b (s : string) : bool := text_in (String " " (String "009" (String "010" ""))) s.
Lemma plain_b_spec s : plain_b s = true -> plain s.
Proof. intros H c I. exact (text_in_spec _ _ H c I). Qed.
Lemma wordlike_b_spec s : wordlike_b s = true -> wordlike s.
Proof. intros H c I. exact (text_in_spec _ _ H c I). Qed.
Lemma blank_b_spec s : blank_b s = true -> blank s.
Proof. intros H c I. destruct (text_in_spec _ _ H c I) as [<-|[<-|[<-|[]]]]; auto. Qed.

Fixpoint nodup_b (l : list string) : bool := match l with [] => true | x :: l => negb (memb x l) && nodup_b l end.
Lemma nodup_b_spec l : nodup_b l = true -> NoDup l.
Proof.
  induction l as [|x l IH]; cbn [nodup_b]; [constructor|]. intros H. apply andb_prop in H. destruct H as (H1 & H2). constructor; [|now apply IH].
  intros I. apply memb_In in I. rewrite I in H1. discriminate.
Qed.
Definition same_b (a b : list string) : bool := if list_eq_dec string_dec a b then true else false.
Lemma same_b_spec a b : same_b a b = true -> a = b.
Proof. unfold same_b. destruct (list_eq_dec string_dec a b); congruence. Qed.

Definition operand_b (w : written) : bool := plain_b (wr_name w) && negb (eqb (wr_name w) "") && forallb plain_b (wr_subs w).
Definition factor_b (f : factor) : bool := blank_b (fa_before f) && blank_b (fa_after f) && (eqb (fa_op f) "*" || eqb (fa_op f) "+").
Definition equation_b (e : written_equation) : bool :=
  forallb operand_b (operands_of e) && blank_b (we_gap1 e) && blank_b (we_gap2 e) && blank_b (we_end e) &&
  (eqb (we_assign e) "=" || eqb (we_assign e) "+=") && forallb factor_b (we_rest e).
Lemma eqb_true (a b : string) : eqb a b = true -> a = b.
Proof. destruct (eqb_spec a b); congruence. Qed.
Lemma neqb_true (a b : string) : negb (eqb a b) = true -> a <> b.
Proof. destruct (eqb_spec a b); [discriminate|auto]. Qed.
Lemma equation_b_spec e : equation_b e = true -> plain_equation e.
Proof.
  unfold equation_b, operand_b, factor_b. rewrite !Bool.andb_true_iff, !forallb_forall. intros (((((Ho & G1) & G2) & G3) & Ha) & Hf).
  split; [|split; [now apply blank_b_spec|split; [now apply blank_b_spec|split; [now apply blank_b_spec|split]]]].
  - intros w I. specialize (Ho w I). rewrite !Bool.andb_true_iff, forallb_forall in Ho. destruct Ho as ((A & B) & C). split; [now apply plain_b_spec|]. split; [now apply neqb_true|]. intros s Is. apply plain_b_spec. now apply C.
  - apply orb_prop in Ha. destruct Ha as [H|H]; apply eqb_true in H; auto.
  - intros f I. specialize (Hf f I). rewrite !Bool.andb_true_iff in Hf. destruct Hf as ((A & B) & C). split; [now apply blank_b_spec|]. split; [now apply blank_b_spec|]. apply orb_prop in C. destruct C as [H|H]; apply eqb_true in H; auto.
Qed.

Definition term_b (t : written_term) : bool :=
  wordlike_b (wt_dim t) && negb (eqb (wt_dim t) "") && match wt_coef t with None => true | Some (k, g1, g2) => (0 <=? k) && blank_b g1 && blank_b g2 end.
Definition relation_b (w : written_relation) : bool :=
  wordlike_b (wl_1 w) && negb (eqb (wl_1 w) "") && blank_b (wl_g1 w) && blank_b (wl_g2 w) && blank_b (wl_g3 w) && blank_b (wl_g4 w) && term_b (wl_2 w) && term_b (wl_3 w).
Lemma term_b_spec t : term_b t = true -> good_term t.
Proof.
  unfold term_b. rewrite !Bool.andb_true_iff. intros ((A & B) & C). split; [now apply wordlike_b_spec|]. split; [now apply neqb_true|].
  destruct (wt_coef t) as [[[k g1] g2]|]; [|exact Logic.I]. rewrite !Bool.andb_true_iff in C. destruct C as ((C & D) & E). split; [lia|]. split; now apply blank_b_spec.
Qed.
Lemma relation_b_spec w : relation_b w = true -> good_relation w.
Proof.
  unfold relation_b. rewrite !Bool.andb_true_iff. intros (((((((A & B) & C) & D) & E) & F) & G) & H).
  repeat split; try (now apply blank_b_spec); try (now apply wordlike_b_spec); try (now apply neqb_true); now apply term_b_spec.
Qed.

Definition sensible_b (rels : list relation) (ds : list string) : bool :=
  nodup_b (map rel_1 rels) &&
  forallb (fun r => (0 <? rel_coef_2 r) && (0 <? rel_coef_3 r) && negb (memb (rel_1 r) ds) && memb (rel_2 r) ds && memb (rel_3 r) ds) rels.
Lemma sensible_b_spec rels ds : sensible_b rels ds = true -> sensible rels ds.
Proof.
  unfold sensible_b. rewrite Bool.andb_true_iff, forallb_forall. intros (A & B). split; [now apply nodup_b_spec|]. intros r I. specialize (B r I). rewrite !Bool.andb_true_iff, !memb_In in B. destruct B as ((((B1 & B2) & B3) & B4) & B5).
  split; [lia|]. split; [lia|]. split; [|split; assumption]. intros X. apply memb_In in X. rewrite X in B3. discriminate.
Qed.
Definition operand_sensible_b (rels : list relation) (loops : list (string * Z)) (w : written) : bool :=
  (forallb (fun r => memb (rel_1 r) (dims_of w)) rels || forallb (fun r => negb (memb (rel_1 r) (dims_of w))) rels) &&
  nodup_b (flat_map (loops_of rels) (dims_of w)) && forallb (fun d => memb d (map fst loops)) (flat_map (loops_of rels) (dims_of w)).
Lemma operand_sensible_b_spec rels loops w : operand_sensible_b rels loops w = true -> all_or_none rels (dims_of w) /\ separate rels (dims_of w) loops.
Proof.
  unfold operand_sensible_b. rewrite !Bool.andb_true_iff. intros ((A & B) & C). split.
  - apply orb_prop in A. destruct A as [A|A]; rewrite forallb_forall in A; [left|right]; intros r I; specialize (A r I); [now apply memb_In|]. intros X. apply memb_In in X. rewrite X in A. discriminate.
  - split; [now apply nodup_b_spec|]. rewrite forallb_forall in C. intros d I. apply memb_In. now apply C.
Qed.

(** For layers without named derived dimensions *)
Definition layer_b (r : raw_layer) (e : written_equation) (ws : list written_relation) (loops : list (string * Z)) : bool :=
  let dims := default [] (rl_dims r) in let sizes := default [] (rl_sizes r) in let rels := map relation_of ws in
  eqb (default "" (rl_equation r)) (equation_text e) && equation_b e && nodup_b (map wr_name (operands_of e)) &&
  same_b (default [] (rl_relations r)) (map relation_text ws) && forallb relation_b ws &&
  Nat.eqb (length sizes) (length dims) && same_b (map fst loops) (map upper dims) && nodup_b (map upper dims) && forallb (fun n => 0 <? n) sizes &&
  sensible_b rels (map fst loops) && forallb (operand_sensible_b rels loops) (operands_of e) &&
  forallb (fun w => memb (wr_name w) (keys (default [] (rl_precision r)))) (operands_of e) &&
  match rl_pr_dims r, rl_pr_sizes r with None, None => true | _, _ => false end &&
  forallb (fun x => 0 <? indices_of loops (relation_of x)) ws.
Lemma layer_b_spec r e ws loops : proper_layer r -> rl_dims r <> None -> rl_sizes r <> None -> loops = combine (map upper (default [] (rl_dims r))) (default [] (rl_sizes r)) ->
  layer_b r e ws loops = true -> sensible_layer r e ws loops.
Proof.
  intros P Nd Ns El. unfold layer_b. cbn zeta. rewrite !Bool.andb_true_iff. intros (((((((((((((H1 & H2) & H3) & H4) & H5) & H6) & H7) & H8) & H9) & H10) & H11) & H12) & H13) & H14).
  rewrite forallb_forall in H5, H9, H11, H12, H14.
  constructor.
  - destruct (pl_equation r P) as (e' & Ee & _). rewrite Ee in H1. cbn [default] in H1. apply eqb_true in H1. rewrite Ee, H1. split; [reflexivity|]. split; [now apply equation_b_spec|now apply nodup_b_spec].
  - split; [|intros w I; apply relation_b_spec; now apply H5]. apply same_b_spec in H4. unfold field. destruct (rl_relations r) as [l|]; cbn [default] in H4; [left|right]; now rewrite H4.
  - destruct (rl_dims r) as [dims|]; [|congruence]. destruct (rl_sizes r) as [sizes|]; [|congruence]. cbn [default] in *. exists dims, sizes. split; [reflexivity|]. split; [reflexivity|]. split; [now apply Nat.eqb_eq|]. split; [exact El|].
    split; [now apply nodup_b_spec|]. intros n I. specialize (H9 n I). lia.
  - now apply sensible_b_spec.
  - intros w I. apply operand_sensible_b_spec. now apply H11.
  - intros w d I Ed. specialize (H12 w I). rewrite Ed in H12. now apply memb_In in H12.
  - intros ds Ed. rewrite Ed in H13. discriminate.
  - right. destruct (rl_pr_dims r) as [|] eqn:Dr; [discriminate|]. destruct (rl_pr_sizes r) as [|]; [discriminate|]. split; [discriminate|].
    intros x I. specialize (H14 x I). unfold padding_at. rewrite Dr. cbn [fst snd]. lia.
Qed.

(** * The descriptions that come with the project *)

Definition conv_we : written_equation := conv_equation.
Definition pool_we : written_equation :=
  mkWE (mkWritten "O" ["b"; "g"; "oy"; "ox"]) "" "+=" "" (mkWritten "W" ["fx"; "fy"]) [mkFactor "" "*" "" (mkWritten "I" ["b"; "g"; "iy"; "ix"])] "".
Definition add_we : written_equation :=
  mkWE (mkWritten "O" ["b"; "g"; "oy"; "ox"]) "" "=" "" (mkWritten "W" ["b"; "g"; "oy"; "ox"]) [mkFactor "" "+" "" (mkWritten "I" ["b"; "g"; "oy"; "ox"])] "".
Definition gemm_we : written_equation :=
  mkWE (mkWritten "O" ["d0"; "d1"]) "" "+=" "" (mkWritten "I" ["d0"; "d2"]) [mkFactor "" "*" "" (mkWritten "W" ["d2"; "d1"])] "".
Definition strided (k : Z) : list written_relation :=
  [mkWR "ix" "" "" (mkTerm (Some (k, "", "")) "ox") "" "" (mkTerm (Some (1, "", "")) "fx");
   mkWR "iy" "" "" (mkTerm (Some (k, "", "")) "oy") "" "" (mkTerm (Some (1, "", "")) "fy")].
Definition meaning_of (r : raw_layer) : meaning :=
  let q := default "" (rl_equation r) in
  let e := if eqb q (equation_text conv_we) then conv_we else if eqb q (equation_text pool_we) then pool_we else if eqb q (equation_text add_we) then add_we else gemm_we in
  let ws := match rl_relations r with Some ("ix=2*ox+1*fx" :: _) => strided 2 | Some ("ix=1*ox+1*fx" :: _) => strided 1 | _ => [] end in
  (e, ws, combine (map upper (default [] (rl_dims r))) (default [] (rl_sizes r))).

Definition shipped_b (r : raw_layer) : bool :=
  let m := meaning_of r in
  layer_schema (normalise_layer r) && match validate_layer (normalise_layer r) with Ok b => b | Err _ => false end &&
  match rl_dims r, rl_sizes r with Some _, Some _ => true | _, _ => false end && layer_b r (fst (fst m)) (snd (fst m)) (snd m).
Lemma shipped_b_spec r : shipped_b r = true -> proper_layer r /\ sensible_layer r (fst (fst (meaning_of r))) (snd (fst (meaning_of r))) (snd (meaning_of r)).
Proof.
  unfold shipped_b. cbn zeta. rewrite !Bool.andb_true_iff. intros (((A & B) & C) & D).
  assert (P : proper_layer r) by (apply proper_iff; split; [exact A|]; destruct (validate_layer (normalise_layer r)); [congruence|discriminate]). split; [exact P|].
  apply layer_b_spec; try assumption; [destruct (rl_dims r); congruence|destruct (rl_dims r); [destruct (rl_sizes r); congruence|discriminate]|reflexivity].
Qed.
Lemma shipped_checked : forallb (forallb shipped_b) shipped_workloads = true.
Proof. vm_compute. reflexivity. Qed.

Definition entry_b (r : raw_entry) : bool :=
  match rw_spatial r with Some (Some m) => nodup_b (keys m) | _ => true end && match rw_hint r with Some m => nodup_b (keys m) | None => true end &&
  match rw_links r with Some m => nodup_b (keys m) | None => true end.
Lemma entries_proper f : forallb entry_b f = true -> proper_file f.
Proof.
  rewrite forallb_forall. intros H r I. specialize (H r I). unfold entry_b in H. rewrite !Bool.andb_true_iff in H. destruct H as ((A & B) & C).
  split; [intros m E; rewrite E in A; now apply nodup_b_spec|]. split; [intros m E; rewrite E in B; now apply nodup_b_spec|intros m E; rewrite E in C; now apply nodup_b_spec].
Qed.
Lemma mappings_checked : forallb (fun f => forallb entry_b f && match parse_mapping f with Ok _ => true | Err _ => false end) shipped_mappings = true.
Proof. vm_compute. reflexivity. Qed.

(** Sources are earlier layers. *)
Definition earlier_b (ls : list layerspec) : bool :=
  forallb (fun x => forallb (fun s => eqb (snd s) (ls_id (snd x)) || existsb (fun l => eqb (ls_id l) (snd s)) (firstn (fst x) ls)) (ls_source (snd x))) (combine (seq 0 (length ls)) ls).
Lemma earlier_b_spec ls : earlier_b ls = true -> sources_earlier ls.
Proof.
  unfold earlier_b. rewrite forallb_forall. intros H v lv op s Ev Is Ns.
  assert (L : (v < length ls)%nat) by (apply nth_error_Some; congruence).
  assert (Iv : In (v, lv) (combine (seq 0 (length ls)) ls)).
  { apply (nth_error_In _ v). clear -Ev. assert (G : forall (l : list layerspec) k v, nth_error l v = Some lv -> nth_error (combine (seq k (length l)) l) v = Some ((k + v)%nat, lv)).
    { induction l as [|a l IH]; intros k [|i] E; try discriminate; cbn [length seq combine nth_error] in *; [injection E as ->; do 2 f_equal; lia|]. rewrite (IH (S k) i E). do 2 f_equal. lia. }
    exact (G ls 0%nat v Ev). }
  specialize (H _ Iv). cbn [fst snd] in H. rewrite forallb_forall in H. specialize (H _ Is). cbn [snd] in H. apply orb_prop in H. destruct H as [H|H]; [destruct (eqb_spec s (ls_id lv)); [congruence|discriminate]|].
  apply existsb_exists in H. destruct H as (lu & Iu & E). destruct (eqb_spec (ls_id lu) s) as [E'|]; [|discriminate]. apply In_nth_error in Iu. destruct Iu as (u & Eu).
  assert (Lu : (u < length (firstn v ls))%nat) by (apply nth_error_Some; congruence). rewrite firstn_length in Lu. exists u, lu. split; [lia|]. split; [|exact E'].
  rewrite <- (firstn_skipn v ls). rewrite nth_error_app1 by (rewrite firstn_length; lia). exact Eu.
Qed.
Lemma sources_checked : forallb (fun f => earlier_b (described f)) shipped_workloads = true.
Proof. vm_compute. reflexivity. Qed.

Lemma shipped_built order file mapping : (forall l, Permutation (order l) l) -> In file shipped_workloads -> In mapping shipped_mappings ->
  exists ls g, parse_workload order file mapping = Ok (ls, g) /\ length ls = length file /\
    (forall i r l, nth_error file i = Some r -> nth_error ls i = Some l -> exists e ws loops, sensible_layer r e ws loops /\ layer_as order mapping r e ws loops l) /\
    forall u v, In (u, v) (g_edges g) <-> names (described file) u v.
Proof.
  intros Op If Im. assert (C := proj1 (forallb_forall _ _) shipped_checked file If). cbv beta in C. rewrite forallb_forall in C.
  assert (M := proj1 (forallb_forall _ _) mappings_checked mapping Im). cbv beta in M. apply andb_prop in M. destruct M as (M1 & M2).
  assert (So := proj1 (forallb_forall _ _) sources_checked file If). cbv beta in So.
  destruct (workload_built order mapping file (map meaning_of file) Op (entries_proper _ M1)) as (ls & g & E & Hl & Ll & _ & He).
  - destruct (parse_mapping mapping) as [d|]; [eauto|discriminate].
  - intros r I. now apply shipped_b_spec, C.
  - clear -C. induction file as [|r l IH]; [constructor|]. cbn [map]. constructor; [apply shipped_b_spec, C; now left|]. apply IH. intros x I. apply C. now right.
  - now apply earlier_b_spec.
  - exists ls, g. split; [exact E|]. split; [exact Ll|]. split; [|exact He]. intros i r l Er El.
    destruct (Hl i r (meaning_of r) Er) as (l' & El' & A); [rewrite nth_error_map, Er; reflexivity|]. rewrite El in El'. injection El' as <-.
    exists (fst (fst (meaning_of r))), (snd (fst (meaning_of r))), (snd (meaning_of r)). split; [|exact A]. apply shipped_b_spec, C. now apply nth_error_In in Er.
Qed.

(** * Descriptions that are accepted but make no sense *)

Definition odd_layer (equation : string) (relations : option (list string)) (dims : option (list string)) (sizes : option (list Z)) : raw_layer :=
  mkRawLayer None None (Some "Gemm") (Some equation) relations dims sizes (Some [("W", 8); ("I", 8); ("O", 32); ("O_final", 8)]) None None None None.
Definition gemm_text : string := "O[d0][d1]+=I[d0][d2]*W[d2][d1]".
(** Without loops, with fewer sizes than loops, with a name that has no precision, with an underscore,
    with the assignment in two pieces; with a coefficient that is no number; with a loop of size zero *)
Definition missing_parts : list (raw_layer * exn) :=
  [(odd_layer gemm_text None None None, KeyError); (odd_layer gemm_text None (Some ["D0"; "D1"; "D2"]) (Some [4; 4]), KeyError);
   (odd_layer "O[d0][d1]+=A[d0][d2]*W[d2][d1]" None (Some ["D0"; "D1"; "D2"]) (Some [4; 4; 4]), KeyError);
   (odd_layer "O[d_0][d1]+=I[d_0][d2]*W[d2][d1]" None (Some ["D_0"; "D1"; "D2"]) (Some [4; 4; 4]), KeyError);
   (odd_layer "O[d0][d1]+ =I[d0][d2]*W[d2][d1]" None (Some ["D0"; "D1"; "D2"]) (Some [4; 4; 4]), KeyError);
   (odd_layer "O[d0]+=I[x]*W[d2]" (Some ["x=a*d0+d2"]) (Some ["D0"; "D2"]) (Some [4; 4]), ValueError);
   (odd_layer gemm_text None (Some ["D0"; "D1"; "D2"]) (Some [4; 4; 0]), ZeroDivisionError)].
Definition ex_raw : raw_layer :=
  mkRawLayer (Some 3) (Some None) (Some "Conv") (Some "O[b][k][oy][ox] +=  W[k][c][fy][fx] * I[b][c][iy][ix] ") (Some ["ix = 2 * ox + fx"; "iy=2*oy+1*fy"])
    (Some ["b"; "K"; "c"; "OY"; "OX"; "FY"; "FX"]) (Some [1; 16; 4; 8; 8; 3; 3])
    (Some [("W", 8); ("I", 8); ("O", 16); ("O_final", 8)]) (Some [("I", 3); ("W", 3)]) (Some (Some ["ix"; "iy"])) None (Some (Some [[1; 0]; [1; 0]])).
Definition ex_we : written_equation :=
  mkWE (mkWritten "O" ["b"; "k"; "oy"; "ox"]) " " "+=" "  " (mkWritten "W" ["k"; "c"; "fy"; "fx"])
       [mkFactor " " "*" " " (mkWritten "I" ["b"; "c"; "iy"; "ix"])] " ".
Definition ex_ws : list written_relation :=
  [mkWR "ix" " " " " (mkTerm (Some (2, " ", " ")) "ox") " " " " (mkTerm None "fx");
   mkWR "iy" "" "" (mkTerm (Some (2, "", "")) "oy") "" "" (mkTerm (Some (1, "", "")) "fy")].
Definition ex_loops : list (string * Z) := [("B", 1); ("K", 16); ("C", 4); ("OY", 8); ("OX", 8); ("FY", 3); ("FX", 3)].
Lemma ex_proper : proper_layer ex_raw.
Proof. apply proper_iff. split; vm_compute; reflexivity. Qed.
Lemma ex_sensible : sensible_layer ex_raw ex_we ex_ws ex_loops.
Proof.
  constructor.
  - split; [reflexivity|]. split; [apply equation_b_spec; vm_compute; reflexivity|]. apply nodup_b_spec. vm_compute. reflexivity.
  - split; [left; vm_compute; reflexivity|]. intros w I. apply relation_b_spec. destruct I as [<-|[<-|[]]]; vm_compute; reflexivity.
  - do 2 eexists. split; [reflexivity|]. split; [reflexivity|]. split; [reflexivity|]. split; [vm_compute; reflexivity|]. split; [apply nodup_b_spec; vm_compute; reflexivity|].
    intros n I. cbn in I. repeat (destruct I as [<-|I]; [lia|]). destruct I.
  - apply sensible_b_spec. vm_compute. reflexivity.
  - intros w I. apply operand_sensible_b_spec. destruct I as [<-|[<-|[<-|[]]]]; vm_compute; reflexivity.
  - intros w d I E. injection E as <-. destruct I as [<-|[<-|[<-|[]]]]; cbn; auto.
  - intros ds E. injection E as <-. apply nodup_b_spec. vm_compute. reflexivity.
  - right. split; [discriminate|]. intros x [<-|[<-|[]]]; vm_compute; reflexivity.
Qed.
