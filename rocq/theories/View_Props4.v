(** * Mapping a function over a view *)
From Verif Require Import Py Dict NdArray_Model NdArray_Spec NdArray_Proofs Dataset_Model Dataset_Spec Dataset_Proofs Dataset_Props2 Assemble_Proofs
  Meta_Model PartPath_Model PartPath_Proofs Split_Spec FS_Model FS_Proofs Pool_Model Pool_Proofs
  Storage_Model Storage_Spec Storage_Proofs
  Listing_Model Listing_Spec Listing_Proofs Collection_Model Collection_Spec Collection_Proofs Collection_State Collection_Select Collection_Load
  Collection_Example Update_Model Update_Spec Update_Example Overlap_Proofs Validate_Proofs Map_Props
  View_Model View_Spec View_State View_Proofs View_Sync View_Example View_Vars View_Props2 View_Load View_Example2 View_Props3 View_Map.

Section map.
  Context (v : venv) (w : view) (M : list Z -> option dataset) (I : option dataset) (V : list Z -> option vpart) (s : store).
  Local Notation c := (w_ref w).
  Local Notation keys := (p_keys (c_part c)).
  Local Notation kd := (key_dirs (c_part c)).
  Local Notation dim := (c_dim c).
  Context (Hw : viewable v w) (Hs : represents c M I s) (Hu : uniform c M I) (Hmo : forall x ds, M x = Some ds -> made_of c ds) (Hv : holds_view v w V s).
  Context (Hag : forall x ds p, M x = Some ds -> V x = Some p -> agrees ds p) (Hvar : md_vars (w_meta w) <> []).
  Context (delayed : bool) (sel : option (list str)) (Hcov : covers w sel).
  Context (filt : filter) (P : list Z -> Prop) (Hf : filt = NoFilter \/ filterable c) (HP : forall x, is_Some (M x) -> says (c_part c) filt x (P x)).

  Lemma have_variables : assert_have_variables w = Ok tt.
  Proof using Hvar. unfold assert_have_variables. by destruct (md_vars (w_meta w)). Qed.

(** The function is called once on the data of each partition of the view that
    satisfies the filter; the results come with the keys of the partitions, in
    order. Nothing is written. If a call raises, so does [map]. *)
Theorem C71_map {B} (f : callback B) : exists vs r,
  StronglySorted row_lt vs /\ (forall x, x ∈ vs <-> is_Some (M x) /\ is_Some (V x) /\ P x) /\
  exec (view_map v w f delayed filt sel) s = (r, s) /\
  match r with
  | Ok out => Forall2 (fun x kb => kb.1 = zip keys x /\ exists old ds, data_at M V x = Some old /\ seen delayed sel None old ds /\ cb_call f ds None = Ok kb.2) vs out
  | Raise ex => exists x old ds, x ∈ vs /\ data_at M V x = Some old /\ seen delayed sel None old ds /\ cb_call f ds None = Raise ex
  end.
Proof using All.
  destruct (load_list_ok v w M I V s Hw Hs Hmo Hv Hag delayed sel Hcov filt P Hf HP) as (vs & olds & os & Sv & Hvs & Hl & Ho & Hop & E).
  unfold view_map. rewrite exec_bind. cbn [exec]. rewrite have_variables, exec_bind, E. cbn [exec]. clear E.
  eexists vs, _. split; [done|]. split; [done|]. split; [reflexivity|]. clear Sv Hvs.
  revert olds os Ho Hop. induction vs as [|x vs IH]; intros olds os Ho Hop; inversion Ho as [|? old ? olds' Hx Ho']; subst; inversion Hop as [|? o ? os' Hox Hop']; subst; [constructor|].
  cbn [map zip zip_with traverse fst snd]. rewrite (parse_key v w Hw x (Hl x ltac:(left))). cbn [rbind].
  destruct (cb_call f o None) as [b|ex] eqn:Eb; cbn [rbind].
  2:{ exists x, old, o. split; [left|]. split; [done|]. split; [by apply opens_seen|done]. }
  specialize (IH (fun y Hy => Hl y ltac:(by right)) _ _ Ho' Hop'). cbv beta zeta in IH.
  match type of IH with match ?t with _ => _ end => change (match (do ys <- t; Ok ((zip keys x, b) :: ys)) with Ok out => Forall2 (fun x kb => kb.1 = zip keys x /\ exists old ds, data_at M V x = Some old /\ seen delayed sel None old ds /\ cb_call f ds None = Ok kb.2) (x :: vs) out
    | Raise ex => exists y old ds, y ∈ x :: vs /\ data_at M V y = Some old /\ seen delayed sel None old ds /\ cb_call f ds None = Raise ex end); destruct t as [out|ex] end; cbn [rbind].
  - constructor; [|done]. split; [done|]. exists old, o. split; [done|]. split; [by apply opens_seen|done].
  - destruct IH as (y & d & ds & Hy & H). exists y, d, ds. split; [by right|done].
Qed.

(** The function is called once for each selected partition, on the data of the
    partition together with those of its [depth] predecessors and successors
    among the selected partitions, fewer at the ends; the range given designates
    the records of the partition itself. It holds if at least two partitions are
    selected and the depth is not zero. *)
Theorem C39_map_overlap {B} (f : callback B) (depth : nat) : 0 < depth -> exists vs r,
  StronglySorted row_lt vs /\ (forall x, x ∈ vs <-> is_Some (M x) /\ is_Some (V x) /\ P x) /\
  exec (view_map_overlap v w f delayed (Z.of_nat depth) filt sel) s = (r, s) /\
  let called x pre post y := exists before old after ds range,
    Forall2 (fun x d => data_at M V x = Some d) (drop (length pre - depth) pre) before /\ data_at M V x = Some old /\
    Forall2 (fun x d => data_at M V x = Some d) (take depth post) after /\
    seen_around dim delayed sel before old after ds range /\
    cb_call f ds (if cb_info f then Some (dim, range) else None) = y in
  (length vs <> 1 ->
   match r with
   | Ok out => length out = length vs /\ forall pre x post i kb, vs = pre ++ x :: post -> i = length pre -> out !! i = Some kb ->
       kb.1 = zip keys x /\ called x pre post (Ok kb.2)
   | Raise ex => exists pre x post, vs = pre ++ x :: post /\ called x pre post (Raise ex)
   end).
Proof using All.
  intros Hpos. destruct (load_list_ok v w M I V s Hw Hs Hmo Hv Hag delayed sel Hcov filt P Hf HP) as (vs & olds & os & Sv & Hvs & Hl & Ho & Hop & E).
  unfold view_map_overlap. rewrite (proj2 (Z.ltb_ge _ _)) by lia. rewrite exec_bind. cbn [exec]. rewrite have_variables, exec_bind, E. cbn [exec]. clear E.
  eexists vs, _. split; [done|]. split; [done|]. split; [reflexivity|]. cbv zeta. intros Hne.
  set (called := fun x pre post y => exists before old after ds range,
    Forall2 (fun x d => data_at M V x = Some d) (drop (length pre - depth) pre) before /\ data_at M V x = Some old /\
    Forall2 (fun x d => data_at M V x = Some d) (take depth post) after /\
    seen_around dim delayed sel before old after ds range /\
    cb_call f ds (if cb_info f then Some (dim, range) else None) = y).
  assert (Hnd : NoDup vs) by (by apply sorted_nodup_rows).
  assert (L1 : length vs = length olds) by (by eapply Forall2_length). assert (L2 : length olds = length os) by (by eapply Forall2_length).
  set (l := zip (map (zip keys) vs) (zip os (map kd vs))).
  assert (Esnd : map snd l = zip os (map kd vs)). { unfold l. change (map snd ?l) with (l.*2). rewrite snd_zip; [done|]. rewrite zip_with_length, !map_length. lia. }
  assert (Hcase : forall pre x post e, vs = pre ++ x :: post -> l !! length pre = Some e ->
    match (do di <- select_overlap w (Z.of_nat depth) (map snd l) e.2.2; do k <- p_parse (c_part c) (join_with (lit "/") e.2.2); do b <- call_with f di.1 (dim, di.2); Ok (k, b)) with
    | Ok kb => kb.1 = zip keys x /\ called x pre post (Ok kb.2)
    | Raise ex => called x pre post (Raise ex)
    end).
  { intros pre x post e Evs He. rewrite Esnd.
    assert (Hx : vs !! length pre = Some x) by (rewrite Evs; by apply list_lookup_middle).
    assert (e.2.2 = kd x) as Ee.
    { unfold l in He. apply lookup_zip_with_Some in He as (k & oq & -> & _ & Hoq). apply lookup_zip_with_Some in Hoq as (o & q & -> & _ & Hq). cbn [snd].
      change (map kd vs) with (kd <$> vs) in Hq. rewrite list_lookup_fmap, Hx in Hq. by injection Hq. }
    rewrite Ee. clear Ee He. rewrite (parse_key v w Hw x). 2:{ apply Hl. rewrite Evs. apply elem_of_app. right. left. }
    rewrite Evs in Ho. apply Forall2_app_inv_l in Ho as (pres & posts' & Hpre & Hpost & ->). inversion Hpost as [|? old ? posts Hxo Hpost']; subst posts'. subst.
    apply Forall2_app_inv_l in Hop as (obs & oas' & Hob & Hoa & ->). inversion Hoa as [|? o ? oas Hoo Hoa']; subst.
    destruct (select_overlap_ok v w M I V s Hw Hs Hu Hmo Hv Hag delayed sel Hcov depth pre x post pres old posts obs o oas) as (ds & range & Es & Hsee); try done.
    { destruct pre; [|by left]. destruct post; [done|by right]. }
    rewrite Es. cbn [rbind fst snd]. unfold call_with.
    assert (Hb : Forall2 (fun x d => data_at M V x = Some d) (drop (length pre - depth) pre) (drop (length pre - depth) pres)) by (by apply Forall2_drop).
    assert (Ha : Forall2 (fun x d => data_at M V x = Some d) (take depth post) (take depth posts)) by (by apply Forall2_take).
    destruct (cb_call f ds _) as [b|ex] eqn:Ec; cbn [rbind fst snd].
    - split; [done|]. eexists _, old, _, ds, range. done.
    - eexists _, old, _, ds, range. done. }
  assert (Ll : length l = length vs). { unfold l. rewrite !zip_with_length, !map_length. lia. }
  set (g := fun e : list (str * Z) * (dataset * path) => do di <- select_overlap w (Z.of_nat depth) (map snd l) e.2.2; do k <- p_parse (c_part c) (join_with (lit "/") e.2.2); do b <- call_with f di.1 (dim, di.2); Ok (k, b)) in *.
  change (match traverse g l with
   | Ok out => length out = length vs /\ forall pre x post i kb, vs = pre ++ x :: post -> i = length pre -> out !! i = Some kb ->
       kb.1 = zip keys x /\ called x pre post (Ok kb.2)
   | Raise ex => exists pre x post, vs = pre ++ x :: post /\ called x pre post (Raise ex)
   end).
  pose proof (traverse_res g l) as Ht. destruct (traverse g l) as [out|ex] eqn:Et.
  - apply traverse_inv in Et. split; [rewrite <-Ll; symmetry; by eapply Forall2_length|]. intros pre x post i kb Evs -> Hkb.
    destruct (Forall2_lookup_r _ _ _ _ _ Et Hkb) as (e & He & Eg). specialize (Hcase pre x post e Evs He). change (match g e with Ok kb => kb.1 = zip keys x /\ called x pre post (Ok kb.2) | Raise ex => called x pre post (Raise ex) end) in Hcase.
    by rewrite Eg in Hcase.
  - destruct Ht as (e & He & Eg). apply elem_of_list_lookup_1 in He as [i Hi]. assert (Hlt : i < length vs) by (rewrite <-Ll; by eapply lookup_lt_Some).
    destruct (lookup_lt_is_Some_2 _ _ Hlt) as [x Hx]. exists (take i vs), x, (drop (S i) vs).
    assert (Evs : vs = take i vs ++ x :: drop (S i) vs) by (symmetry; by apply take_drop_middle). split; [done|].
    assert (Hi' : l !! length (take i vs) = Some e) by (rewrite take_length, Nat.min_l by lia; done). specialize (Hcase _ x _ e Evs Hi').
    change (match g e with Ok kb => kb.1 = zip keys x /\ called x (take i vs) (drop (S i) vs) (Ok kb.2) | Raise ex => called x (take i vs) (drop (S i) vs) (Raise ex) end) in Hcase.
    by rewrite Eg in Hcase.
Qed.

(** But if one partition is selected, or the depth is zero and some partition is
    selected, the function is not called and [ValueError] is raised. *)
Theorem C72_alone_refuted {B} (f : callback B) (depth : nat) : exists vs,
  StronglySorted row_lt vs /\ (forall x, x ∈ vs <-> is_Some (M x) /\ is_Some (V x) /\ P x) /\
  (length vs = 1 \/ depth = 0 /\ vs <> [] -> exec (view_map_overlap v w f delayed (Z.of_nat depth) filt sel) s = (Raise ValueError, s)).
Proof using All.
  destruct (load_list_ok v w M I V s Hw Hs Hmo Hv Hag delayed sel Hcov filt P Hf HP) as (vs & olds & os & Sv & Hvs & Hl & Ho & Hop & E).
  exists vs. split; [done|]. split; [done|]. intros Halone.
  unfold view_map_overlap. rewrite (proj2 (Z.ltb_ge _ _)) by lia. rewrite exec_bind. cbn [exec]. rewrite have_variables, exec_bind, E. cbn [exec]. clear E.
  destruct vs as [|x vs]; [by destruct Halone as [|[_ ?]]|].
  inversion Ho as [|? old ? olds' Hx Ho']; subst. inversion Hop as [|? o ? os' Hox Hop']; subst.
  assert (Esnd : map snd (zip (map (zip keys) (x :: vs)) (zip (o :: os') (map kd (x :: vs)))) = zip (o :: os') (map kd (x :: vs))).
  { change (map snd ?l) with (l.*2). rewrite snd_zip; [done|]. rewrite zip_with_length, !map_length. lia. }
  assert (Hnd : NoDup (x :: vs)) by (by apply sorted_nodup_rows).
  rewrite Esnd. cbn [map zip zip_with traverse fst snd].
  pose proof (select_overlap_alone w depth [] x vs [] o os' Hnd Hl) as Es. cbn [app map zip zip_with] in Es. rewrite Es; [done| |done|].
  - destruct Halone as [H1|[H0 _]]; [|by left]. right. split; [done|]. by destruct vs.
  - apply Forall2_length in Ho', Hop'. congruence.
Qed.
End map.
Print Assumptions C71_map.
Print Assumptions C39_map_overlap.
Print Assumptions C72_alone_refuted.

(** A negative depth, or a view without variables, is refused before anything is
    read. *)
Theorem C39_refused {B} (f : callback B) v w delayed depth filt sel s : (depth < 0)%Z \/ md_vars (w_meta w) = [] ->
  exec (view_map_overlap v w f delayed depth filt sel) s = (Raise ValueError, s).
Proof.
  unfold view_map_overlap. intros H. destruct (depth <? 0)%Z eqn:E; [done|]. destruct H as [H|H]; [lia|]. rewrite exec_bind. cbn [exec]. unfold assert_have_variables. by rewrite H.
Qed.
Print Assumptions C39_refused.
Theorem C71_refused {B} (f : callback B) v w delayed filt sel s : md_vars (w_meta w) = [] ->
  exec (view_map v w f delayed filt sel) s = (Raise ValueError, s).
Proof. unfold view_map. intros H. rewrite exec_bind. cbn [exec]. unfold assert_have_variables. by rewrite H. Qed.
Print Assumptions C71_refused.

(** ** Cases *)

Lemma U_keys M vs : X_contents M -> StronglySorted row_lt vs -> (forall x, x ∈ vs <-> is_Some (M x) /\ is_Some (U_parts x) /\ True) -> vs = [[1%Z]; [2%Z]].
Proof.
  intros HM Hso Hin. apply (X_keys M vs HM Hso). destruct HM as (p1 & p2 & H1 & H2 & H3 & _). intros x. rewrite Hin. split; [by intros (? & _)|].
  intros ([d Hd] & _). split; [by eexists|]. split; [|done]. destruct (decide (x = [1%Z])) as [->|]; [by eexists|]. destruct (decide (x = [2%Z])) as [->|]; [by eexists|]. by rewrite H3 in Hd.
Qed.
(** The speeds. *)
Definition speeds : callback (list val) :=
  Callback false (fun ds i => match dget (d_vars ds) (lit "speed") with Some v => Ok (a_flat (v_array v)) | None => Raise KeyError end).
Example C71_case : exists M s, represents Y_coll M None s /\ holds_view W_env W_view U_parts s /\
  exec (view_map W_env W_view speeds false NoFilter (Some [lit "speed"])) s =
    (Ok [([(lit "pass", 1%Z)], [Num 1; Num 2; Num 3; Num 4]); ([(lit "pass", 2%Z)], [Num 5; Num 6])], s).
Proof.
  destruct U_filled as (M & s & Hs & Hu & HM & Hmo & Hv & Hag & _). exists M, s. split; [exact Hs|]. split; [exact Hv|].
  destruct (C71_map W_env W_view M None U_parts s W_viewable Hs Hu Hmo Hv Hag ltac:(done) false (Some [lit "speed"])) with (filt := NoFilter) (P := fun _ : list Z => True) (f := speeds) as (vs & r & Sv & Hvs & E & Hr).
  { left. split.
    - intros n Hn. apply elem_of_list_singleton in Hn as ->. apply (bool_decide_unpack _). vm_compute. done.
    - exists (lit "speed"). split; [left|]. apply (bool_decide_unpack _). vm_compute. done. }
  { by left. }
  { done. }
  pose proof (U_keys M vs HM Sv Hvs) as ->. rewrite E. f_equal. clear E Sv Hvs.
  pose proof HM as (p1 & p2 & H1 & H2 & H3 & K1 & _).
  assert (Hcall : forall x old ds zs ts, data_at M U_parts x = Some old -> U_parts x = Some (U_part ts zs) -> seen false (Some [lit "speed"]) None old ds -> cb_call speeds ds None = Ok (map Num zs)).
  { intros x old ds zs ts Hd Hp Hsn. apply data_at_some in Hd as (d & p & Hd & Hp' & ->). assert (p = U_part ts zs) as -> by congruence.
    cbn [speeds cb_call]. assert (Hno : dget (d_vars d) (lit "speed") = None).
    { destruct (dget (d_vars d) (lit "speed")) as [a|] eqn:Ea; [|done]. apply (mo_only _ _ (Hmo _ _ Hd)) in Ea as [_ Ha]. apply is_Some_alt in Ha. vm_compute in Ha. done. }
    assert (dget (d_vars ds) (lit "speed") = Some (with_delayed (stored (with_delayed (U_var zs) (d_delayed d))) false)) as ->; [|done].
    apply (se_vars _ _ _ _ _ Hsn). split; [left|]. exists (with_delayed (U_var zs) (d_delayed d)). split; [left|done].
    rewrite part_get, Hno. done. }
  destruct r as [out|ex].
  - inversion Hr as [|? [k1 b1] ? ? (E1 & o1 & d1 & M1 & S1 & C1) Hr1]; subst. inversion Hr1 as [|? [k2 b2] ? ? (E2 & o2 & d2 & M2 & S2 & C2) Hr2]; subst. inversion Hr2; subst.
    rewrite (Hcall _ _ _ [1; 2; 3; 4]%Z [10; 20]%Z M1 eq_refl S1) in C1. rewrite (Hcall _ _ _ [5; 6]%Z [30]%Z M2 eq_refl S2) in C2. cbn in *. by injection C1 as <-; injection C2 as <-; subst.
  - exfalso. destruct Hr as (x & old & ds & Hx & Ho & Hsn & Ec). apply elem_of_cons in Hx as [->|Hx]; [|apply elem_of_list_singleton in Hx as ->].
    + by rewrite (Hcall _ _ _ [1; 2; 3; 4]%Z [10; 20]%Z Ho eq_refl Hsn) in Ec.
    + by rewrite (Hcall _ _ _ [5; 6]%Z [30]%Z Ho eq_refl Hsn) in Ec.
Qed.

Example C39_case : exists M s, represents Y_coll M None s /\ holds_view W_env W_view U_parts s /\
  exec (view_map_overlap W_env W_view times true 1 NoFilter None) s =
    (Ok [([(lit "pass", 1%Z)], ([Num 10; Num 20; Num 30], Some (lit "time", (0, 2)))); ([(lit "pass", 2%Z)], ([Num 10; Num 20; Num 30], Some (lit "time", (2, 3))))], s) /\
  exec (view_map_overlap W_env W_view times true 0 NoFilter None) s = (Raise ValueError, s).
Proof.
  destruct U_filled as (M & s & Hs & Hu & HM & Hmo & Hv & Hag & _). exists M, s. split; [exact Hs|]. split; [exact Hv|]. split.
  2:{ destruct (C72_alone_refuted W_env W_view M None U_parts s W_viewable Hs Hu Hmo Hv Hag ltac:(done) true None) with (filt := NoFilter) (P := fun _ : list Z => True) (f := times) (depth := 0) as (vs & Sv & Hvs & E); [done|by left|done|].
      pose proof (U_keys M vs HM Sv Hvs) as ->. apply E. by right. }
  destruct (C39_map_overlap W_env W_view M None U_parts s W_viewable Hs Hu Hmo Hv Hag ltac:(done) true None) with (filt := NoFilter) (P := fun _ : list Z => True) (f := times) (depth := 1) as (vs & r & Sv & Hvs & E & Hr); [done|by left|done|lia|].
  pose proof (U_keys M vs HM Sv Hvs) as Evs. change (Z.of_nat 1) with 1%Z in E. rewrite E. f_equal. clear E Sv Hvs.
  specialize (Hr ltac:(by rewrite Evs)).
  pose proof HM as (p1 & p2 & H1 & H2 & H3 & _ & Hh1 & _ & _ & _ & Hh2 & _ & _).
  assert (P1 : plain_times [10; 20]%Z) by (vm_compute; reflexivity). assert (P2 : plain_times [30]%Z) by (vm_compute; reflexivity).
  assert (P3 : plain_times [10; 20; 30]%Z) by (vm_compute; reflexivity).
  assert (D1 : forall d, data_at M U_parts [1%Z] = Some d -> dget (d_vars d) (lit "time") = Some (X_time [10; 20]%Z)).
  { intros d (ds & p & Hd & _ & ->)%data_at_some. assert (ds = p1) as -> by congruence. by rewrite part_get, Hh1. }
  assert (D2 : forall d, data_at M U_parts [2%Z] = Some d -> dget (d_vars d) (lit "time") = Some (X_time [30]%Z)).
  { intros d (ds & p & Hd & _ & ->)%data_at_some. assert (ds = p2) as -> by congruence. by rewrite part_get, Hh2. }
  assert (C1 : forall before old after ds range, Forall2 (fun w d => data_at M U_parts w = Some d) [] before -> data_at M U_parts [1%Z] = Some old -> Forall2 (fun w d => data_at M U_parts w = Some d) [[2%Z]] after ->
     seen_around (lit "time") true None before old after ds range -> cb_call times ds (Some (lit "time", range)) = Ok ([Num 10; Num 20; Num 30], Some (lit "time", (0, 2)))).
  { intros before old after ds range Hb Ho Ha Hsee. inversion Hb; subst. inversion Ha as [|? d ? ? Hd Ha']; subst. inversion Ha'; subst.
    apply D1 in Ho. apply D2 in Hd.
    destruct (X_around [] [d] old ds range [] [10; 20]%Z [[30]]%Z Hsee Ho) as [Ed ->]; [constructor|by repeat constructor|constructor|exact P1|by repeat constructor|exact P3|].
    cbn [times cb_call]. rewrite Ed. reflexivity. }
  assert (C2 : forall before old after ds range, Forall2 (fun w d => data_at M U_parts w = Some d) [[1%Z]] before -> data_at M U_parts [2%Z] = Some old -> Forall2 (fun w d => data_at M U_parts w = Some d) [] after ->
     seen_around (lit "time") true None before old after ds range -> cb_call times ds (Some (lit "time", range)) = Ok ([Num 10; Num 20; Num 30], Some (lit "time", (2, 3)))).
  { intros before old after ds range Hb Ho Ha Hsee. inversion Ha; subst. inversion Hb as [|? d ? ? Hd Hb']; subst. inversion Hb'; subst.
    apply D2 in Ho. apply D1 in Hd.
    destruct (X_around [d] [] old ds range [[10; 20]]%Z [30]%Z [] Hsee Ho) as [Ed ->]; [by repeat constructor|constructor|by repeat constructor|exact P2|constructor|exact P3|].
    cbn [times cb_call]. rewrite Ed. reflexivity. }
  destruct r as [out|ex].
  - destruct Hr as [Hl Hr]. rewrite Evs in Hl. destruct out as [|[k1 b1] [|[k2 b2] [|]]]; try discriminate Hl.
    destruct (Hr [] [1%Z] [[2%Z]] 0 (k1, b1) Evs eq_refl eq_refl) as (K1 & b & o & a & ds & rg & Hb & Ho & Ha & Hsee & Ec).
    cbn [fst snd] in K1, Ec. pose proof (C1 b o a ds rg Hb Ho Ha Hsee) as Ex. change (cb_call times ds (Some (lit "time", rg)) = Ok b1) in Ec. rewrite Ex in Ec. clear Ex. clear b o a ds rg Hb Ho Ha Hsee.
    destruct (Hr [[1%Z]] [2%Z] [] 1 (k2, b2) Evs eq_refl eq_refl) as (K2 & b & o & a & ds & rg & Hb & Ho & Ha & Hsee & Ec').
    cbn [fst snd] in K2, Ec'. pose proof (C2 b o a ds rg Hb Ho Ha Hsee) as Ex. change (cb_call times ds (Some (lit "time", rg)) = Ok b2) in Ec'. rewrite Ex in Ec'. clear Ex. injection Ec as <-. injection Ec' as <-. subst k1 k2. reflexivity.
  - exfalso. destruct Hr as (pre & v & post & Ep & b & o & a & ds & rg & Hb & Ho & Ha & Hsee & Ec). rewrite Evs in Ep. clear Evs.
    destruct pre as [|w [|w' pre]]; cbn in Ep; [injection Ep as <- <-|injection Ep as <- <- <-|injection Ep as _ _ Ep; by destruct pre].
    + pose proof (C1 b o a ds rg Hb Ho Ha Hsee) as Ex. change (cb_call times ds (Some (lit "time", rg)) = Raise ex) in Ec. rewrite Ex in Ec. discriminate Ec.
    + pose proof (C2 b o a ds rg Hb Ho Ha Hsee) as Ex. change (cb_call times ds (Some (lit "time", rg)) = Raise ex) in Ec. rewrite Ex in Ec. discriminate Ec.
Qed.
