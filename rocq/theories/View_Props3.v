(** * Loading a view (C38, C68, C69) *)
From Verif Require Import Py Dict NdArray_Model NdArray_Spec NdArray_Proofs Dataset_Model Dataset_Spec Dataset_Proofs Dataset_Props2 Assemble_Proofs
  Meta_Model Meta_Spec Meta_Props PartPath_Model PartPath_Proofs Split_Spec FS_Model FS_Proofs Pool_Model Pool_Proofs
  Storage_Model Storage_Spec Storage_Chunks Storage_Proofs
  Listing_Model Listing_Spec Listing_Proofs Collection_Model Collection_Spec Collection_Proofs Collection_State Collection_Select Collection_Load
  Collection_Example Update_Model Update_Spec Update_Example Index_Model Index_Spec Index_Proofs Index_Load Index_Props
  View_Model View_Spec View_State View_Proofs View_Sync View_Init View_Example View_Vars View_Props2 View_Load View_Example2.

Lemma add_fails d xs : forall o, (exists x, x ∈ xs /\ d ∈ v_dims x) -> d ∉ dkeys (d_dims o) ->
  foldM (fun ds x => ds_add_variable ds (v_metadata x) (Some (v_array x))) o xs = Raise ValueError.
Proof.
  induction xs as [|x xs IH]; intros o (y & Hy & Hd) Ho; [by apply elem_of_nil in Hy|]. cbn [foldM].
  unfold ds_add_variable at 1. destruct (negb _) eqn:En; [done|]. cbn [rbind]. destruct (forallb (fun ds' : str * nat => _) (zip _ _)); [|done]. cbn [rbind].
  apply IH; [|done]. apply elem_of_cons in Hy as [->|Hy]; [|by exists y]. exfalso. apply negb_false_iff in En. rewrite forallb_forall in En.
  apply Ho. apply elem_of_list_In, En, dmem_true in Hd. done.
Qed.
Lemma dget_None_key {A} (l : list (str * A)) n : (forall x, dget l n <> Some x) -> n ∉ dkeys l.
Proof. intros H Hn. apply dget_is_Some in Hn as [x Hx]. by apply (H x). Qed.

Section load.
  Context (v : venv) (w : view) (M : list Z -> option dataset) (I : option dataset) (V : list Z -> option vpart) (s : store).
  Local Notation c := (w_ref w).
  Local Notation keys := (p_keys (c_part c)).
  Local Notation kd := (key_dirs (c_part c)).
  Local Notation dim := (c_dim c).
  Context (Hw : viewable v w) (Hs : represents c M I s) (Hu : uniform c M I) (Hmo : forall x ds, M x = Some ds -> made_of c ds) (Hv : holds_view v w V s).
  Context (Hag : forall x ds p, M x = Some ds -> V x = Some p -> agrees ds p) (Hvar : md_vars (w_meta w) <> []).

  Lemma exec_view_keys f (P : list Z -> Prop) : f = NoFilter \/ filterable c -> (forall x, is_Some (M x) -> says (c_part c) f x (P x)) ->
    exists vs, StronglySorted row_lt vs /\ (forall x, x ∈ vs <-> is_Some (M x) /\ is_Some (V x) /\ P x) /\ (forall x, x ∈ vs -> length x = length keys) /\
      exec (view_parts v w f) s = (Ok (map kd vs), s) /\ exec (view_keys v w f) s = (Ok (map (zip keys) vs), s).
  Proof using Hw Hs Hv.
    intros Hf HP. destruct (select_chosen (ve_env v) c M I s f P (vw_regular _ _ Hw) Hs Hf HP) as (all & Sa & Ha & Ea).
    assert (Hl : forall x, x ∈ all -> length x = length keys).
    { intros x Hx. apply Ha in Hx as [[ds Hds] _]. by destruct (rp_part _ _ _ _ Hs _ _ Hds) as (? & _). }
    pose proof (exec_view_parts v w Hw V s Hv f all (exec_ref_parts v w f s all Ea) Hl) as Ep. set (vs := List.filter _ all) in Ep.
    assert (Hvs : forall x, x ∈ vs <-> is_Some (M x) /\ is_Some (V x) /\ P x).
    { intros x. unfold vs. rewrite filter_elem_pred, Ha. destruct (V x) as [p|]; split.
      - intros [[? ?] _]. split; [done|]. split; [by eexists|done].
      - intros (? & _ & ?). done.
      - by intros [_ ?].
      - by intros (_ & [? ?] & _). }
    assert (Hlv : forall x, x ∈ vs -> length x = length keys) by (intros x Hx; apply Hl; unfold vs in Hx; by apply filter_elem_pred in Hx as [? _]).
    exists vs. split; [by apply sorted_filter|]. split; [done|]. split; [done|]. split; [done|].
    unfold view_keys. rewrite exec_bind, Ep. cbn [exec]. f_equal. apply (traverse_map_ok (fun q => p_parse (c_part c) (path_str (w_dir w ++ q))) kd (zip keys)).
    intros x Hx. apply (parse_key_dirs _ _ _ (rg_keys _ _ (vw_regular _ _ Hw)) (vw_path _ _ Hw)). by apply Hlv.
  Qed.

(** What load returns: the partitions of the view that satisfy the filters, in
    the order of their keys, with the variables of the reference and those of the
    view; None if there are none. *)
Theorem C38_load delayed f (P : list Z -> Prop) sel : f = NoFilter \/ filterable c -> (forall x, is_Some (M x) -> says (c_part c) f x (P x)) -> covers w sel ->
  exists vs r, StronglySorted row_lt vs /\ (forall x, x ∈ vs <-> is_Some (M x) /\ is_Some (V x) /\ P x) /\
    exec (view_load v w delayed f None sel) s = (Ok r, s) /\
    match r with
    | None => vs = []
    | Some out => vs <> [] /\ exists parts, Forall2 (fun x d => exists ds p, M x = Some ds /\ V x = Some p /\ d = combined ds p) vs parts /\
        gathered (joint w) delayed sel parts None out
    end.
Proof using All.
  intros Hf HP Hcov. destruct (exec_view_keys f P Hf HP) as (vs & Sv & Hvs & Hl & _ & Ek). exists vs.
  assert (Ea : assert_have_variables w = Ok tt) by (unfold assert_have_variables; by destruct (md_vars (w_meta w))).
  assert (E : exec (view_load v w delayed f None sel) s = exec (let! l <- pseq (map (load_part w delayed sel) (map (fun x => (zip keys x, [])) vs));
      match map fst l with
      | [] => pret None
      | ds :: others =>
          let! ds <- Ret (match others with [] => Ok ds | _ => ds_concat ds others (c_dim (w_ref w)) end);
          let! ds <- Ret (ds_fill_attrs ds (view_metadata w));
          pret (Some ds)
      end) s).
  { unfold view_load. rewrite exec_bind, Ea. cbn [exec]. rewrite exec_bind. rewrite exec_bind, Ek. cbn [exec pret]. cbv iota beta. by rewrite (map_map (zip keys)). }
  destruct (decide (vs = [])) as [Ev|Ev].
  { exists None. split; [done|]. split; [done|]. split; [|done]. rewrite E, Ev. done. }
  destruct (load_all v w Hw M I V s Hs Hu Hv Hmo Hag delayed sel Hcov vs (fun _ => []) Ev) as (gs & out & Hc & Hga & El).
  { intros x Hx. apply Hvs in Hx as (? & ? & _). done. }
  { intros x sl _ Hsl. by apply elem_of_nil in Hsl. }
  { intros x ds _ _. by left. }
  exists (Some out). split; [done|]. split; [done|]. split; [by rewrite E|]. split; [done|].
  exists (concat (map (fun g : dataset * list dataset => g.1 :: g.2) gs)). split; [|done]. clear -Hc. induction Hc as [|x g vs gs (ds & p & HM & HV & _ & Hg) _ IH]; [constructor|].
  cbn [map concat]. rewrite Hg. cbn [app]. constructor; [exists ds, p; split; [exact HM|]; split; [exact HV|reflexivity]|exact IH].
Qed.
(** With an indexer: the records of the slices, by partition, in the order of
    the indexer; the partitions that the view does not have are skipped. *)
Theorem C38_indexer delayed f indexer sel : covers w sel -> (forall k sl, (k, sl) ∈ indexer -> (0 <= sl.1 /\ 0 <= sl.2)%Z) ->
  (forall l, sel = Some l -> exists n mv, n ∈ l /\ dget (md_vars (c_meta c)) n = Some mv /\ dim ∈ mv_dims mv) ->
  exists vs r, StronglySorted row_lt vs /\ (forall x, x ∈ vs <-> is_Some (M x) /\ is_Some (V x) /\ exists sl, (zip keys x, sl) ∈ indexer) /\
    exec (view_load v w delayed f (Some indexer) sel) s = (Ok r, s) /\
    match r with
    | None => vs = []
    | Some out => vs <> [] /\ exists pieces, Forall2 (fun x ps => exists ds p, M x = Some ds /\ V x = Some p /\ Forall2 (extracts dim (combined ds p)) (slices_for indexer (zip keys x)) ps) vs pieces /\
        gathered (joint w) delayed sel (concat pieces) None out
    end.
Proof using All.
  intros Hcov Hpos Href. destruct (exec_view_keys NoFilter (fun _ => True) ltac:(by left) ltac:(by intros x _)) as (ws & Sw & Hws & Hlw & Ep & _).
  destruct (indexer_args c (w_dir w) indexer ws (rg_keys _ _ (vw_regular _ _ Hw)) (vw_path _ _ Hw) Sw Hlw) as (vs & Sv & Hvs & Eargs).
  assert (Hvs' : forall x, x ∈ vs <-> is_Some (M x) /\ is_Some (V x) /\ exists sl, (zip keys x, sl) ∈ indexer) by (intros x; rewrite Hvs, Hws; tauto).
  exists vs. assert (Ea : assert_have_variables w = Ok tt) by (unfold assert_have_variables; by destruct (md_vars (w_meta w))).
  assert (E : exec (view_load v w delayed f (Some indexer) sel) s = exec (let! l <- pseq (map (load_part w delayed sel) (map (fun x => (zip keys x, slices_for indexer (zip keys x))) vs));
      match map fst l with
      | [] => pret None
      | ds :: others =>
          let! ds <- Ret (match others with [] => Ok ds | _ => ds_concat ds others (c_dim (w_ref w)) end);
          let! ds <- Ret (ds_fill_attrs ds (view_metadata w));
          pret (Some ds)
      end) s).
  { unfold view_load. rewrite exec_bind, Ea. cbn [exec]. rewrite exec_bind. rewrite exec_bind, Ep. cbn [exec pret]. cbv iota beta. rewrite map_map, Eargs. done. }
  destruct (decide (vs = [])) as [Ev|Ev].
  { exists None. split; [done|]. split; [done|]. split; [|done]. rewrite E, Ev. done. }
  assert (Hsl : forall x sl, sl ∈ slices_for indexer (zip keys x) -> (zip keys x, sl) ∈ indexer).
  { intros x sl H. unfold slices_for in H. apply elem_of_list_In, in_map_iff in H as ([k sl'] & <- & H). apply elem_of_list_In, elem_of_list_filter in H as [Hk H]. cbn in Hk. by rewrite <-Hk. }
  destruct (load_all v w Hw M I V s Hs Hu Hv Hmo Hag delayed sel Hcov vs (fun x => slices_for indexer (zip keys x)) Ev) as (gs & out & Hc & Hga & El).
  { intros x Hx. apply Hvs' in Hx as (? & ? & _). done. }
  { intros x sl _ H. by apply (Hpos (zip keys x)), Hsl. }
  { intros x ds _ Hds. right. destruct sel as [l|].
    - destruct (Href l eq_refl) as (n & mv & Hn & Em & Hd). destruct (mo_all _ _ (Hmo _ _ Hds) _ _ Em Hd) as (a & Ha & _). by exists n, a.
    - destruct (mo_axis _ _ (Hmo _ _ Hds)) as (a & Ha & _). by eexists _, a. }
  exists (Some out). split; [done|]. split; [done|]. split; [by rewrite E|]. split; [done|].
  exists (map (fun g : dataset * list dataset => g.1 :: g.2) gs). split; [|done].
  assert (Hne : forall x, x ∈ vs -> slices_for indexer (zip keys x) <> []).
  { intros x Hx. apply Hvs' in Hx as (_ & _ & sl & Hin). intros Hn. assert (H : sl ∈ slices_for indexer (zip keys x)); [|rewrite Hn in H; by apply elem_of_nil in H].
    unfold slices_for. apply elem_of_list_In, in_map_iff. exists (zip keys x, sl). split; [done|]. by apply elem_of_list_In, elem_of_list_filter. }
  clear -Hc Hne. induction Hc as [|x g vs gs (ds & p & HM & HV & _ & Hg) _ IH]; [constructor|].
  cbn [map]. constructor; [|apply IH; intros; apply Hne; by right]. exists ds, p. split; [done|]. split; [done|]. specialize (Hne x ltac:(left)). by destruct (slices_for indexer (zip keys x)).
Qed.

(** The filters are ignored when there is an indexer, and so are the slices when
    only variables of the view are selected: the partitions are returned whole. *)
Theorem C68_slices_refuted delayed f indexer l : (forall n, n ∈ l -> n ∉ dkeys (md_vars (c_meta c))) -> (exists n, n ∈ l /\ n ∈ dkeys (md_vars (w_meta w))) ->
  exists vs r, StronglySorted row_lt vs /\ (forall x, x ∈ vs <-> is_Some (M x) /\ is_Some (V x) /\ exists sl, (zip keys x, sl) ∈ indexer) /\
    exec (view_load v w delayed f (Some indexer) (Some l)) s = (Ok r, s) /\
    match r with
    | None => vs = []
    | Some out => vs <> [] /\ exists parts, Forall2 (fun x d => exists ds p, M x = Some ds /\ V x = Some p /\ d = combined ds p) vs parts /\
        gathered (joint w) delayed (Some l) parts None out
    end.
Proof using All.
  intros Hno Hyes. destruct (exec_view_keys NoFilter (fun _ => True) ltac:(by left) ltac:(by intros x _)) as (ws & Sw & Hws & Hlw & Ep & _).
  destruct (indexer_args c (w_dir w) indexer ws (rg_keys _ _ (vw_regular _ _ Hw)) (vw_path _ _ Hw) Sw Hlw) as (vs & Sv & Hvs & Eargs).
  assert (Hvs' : forall x, x ∈ vs <-> is_Some (M x) /\ is_Some (V x) /\ exists sl, (zip keys x, sl) ∈ indexer) by (intros x; rewrite Hvs, Hws; tauto).
  exists vs. assert (Ea : assert_have_variables w = Ok tt) by (unfold assert_have_variables; by destruct (md_vars (w_meta w))).
  assert (Hcov : covers w (Some l)) by (left; done).
  assert (Epart : forall x sls, x ∈ vs -> exec (load_part w delayed (Some l) (zip keys x, sls)) s = exec (load_part w delayed (Some l) (zip keys x, [])) s).
  { intros x sls Hx. apply Hvs' in Hx as ([ds Hds] & _). destruct (rp_part _ _ _ _ Hs _ _ Hds) as (_ & Hso & Hh).
    unfold load_part, load_one. cbn [fst snd]. change (map (p_dir (c_part c)) (zip keys x)) with (kd x).
    assert (md_select_variables (c_meta c) (Some l) None = []) as ->.
    { destruct (C47_select_variables (c_meta c) (Some l) None (proj1 (vw_ref _ _ Hw))) as [_ H]. destruct (md_select_variables _ _ _) as [|n k]; [done|]. exfalso.
      destruct (proj1 (H n) ltac:(left)) as (H1 & H2 & _). apply (Hno n); [by apply H2|done]. }
    destruct (open_opens (part_dir c x) s ds delayed (Some []) Hso Hh) as (o & Eo & Hrd & _). change (part_dir c x) with (c_dir c ++ kd x) in Eo. rewrite !exec_bind, Eo. cbv iota beta.
    assert (Hd : d_dims o = []).
    { unfold open_zarr_group in Eo. rewrite exec_bind, exec_get_tree in Eo. cbn [exec] in Eo. injection Eo as Eo. apply (read_nothing _ _ _ _ Eo).
      destruct (d_vars o) as [|[n a] k] eqn:Ev; [done|]. exfalso. assert (Ha : dget (d_vars o) n = Some a) by (rewrite Ev; cbn; by rewrite decide_True).
      rewrite (reads_vars _ _ _ _ Hrd) in Ha. destruct Ha as [Ha _]. by apply elem_of_nil in Ha. }
    rewrite Hd. done. }
  assert (E : exec (view_load v w delayed f (Some indexer) (Some l)) s = exec (let! l <- pseq (map (load_part w delayed (Some l)) (map (fun x => (zip keys x, [])) vs));
      match map fst l with
      | [] => pret None
      | ds :: others =>
          let! ds <- Ret (match others with [] => Ok ds | _ => ds_concat ds others (c_dim (w_ref w)) end);
          let! ds <- Ret (ds_fill_attrs ds (view_metadata w));
          pret (Some ds)
      end) s).
  { unfold view_load. rewrite exec_bind, Ea. cbn [exec]. rewrite exec_bind. rewrite exec_bind, Ep. cbn [exec pret]. cbv iota beta. rewrite map_map, Eargs. cbn [exec]. rewrite !exec_bind.
    assert (exec (pseq (map (load_part w delayed (Some l)) (map (fun x => (zip keys x, slices_for indexer (zip keys x))) vs))) s =
            exec (pseq (map (load_part w delayed (Some l)) (map (fun x => (zip keys x, [])) vs))) s) as ->; [|done].
    destruct (load_cuts v w Hw M I V s Hs Hv Hmo Hag delayed (Some l) Hcov vs (fun _ => [])) as (os & gs & Eos & Hlen & _).
    { intros x Hx. apply Hvs' in Hx as (? & ? & _). done. }
    { intros x sl _ Hsl. by apply elem_of_nil in Hsl. }
    { intros x ds _ _. by left. }
    clear -Epart Hw Hs Hv Hmo Hag Hcov Hvs'. assert (Hin : forall x, x ∈ vs -> is_Some (M x) /\ is_Some (V x)) by (intros x Hx; apply Hvs' in Hx as (? & ? & _); done). clear Hvs'.
    induction vs as [|x vs IH]; [done|]. cbn [map pseq]. rewrite !exec_bind. rewrite Epart by left.
    destruct (Hin x ltac:(left)) as [[ds Hds] [p Hp]]. destruct (rp_part _ _ _ _ Hs _ _ Hds) as (Hl & Hso & Hh). destruct (hw_part _ _ _ _ Hv _ _ Hp) as (_ & Hk).
    destruct (load_opens v w Hw ds p s x Hso Hh (Hmo _ _ Hds) Hk (Hag _ _ _ Hds Hp) Hl delayed (Some l) Hcov) as (o & Eo & _). rewrite Eo. cbv iota beta. rewrite !exec_bind.
    rewrite IH; [done|..]; intros; [apply Epart|apply Hin]; by right. }
  destruct (decide (vs = [])) as [Ev|Ev].
  { exists None. split; [done|]. split; [done|]. split; [|done]. rewrite E, Ev. done. }
  destruct (load_all v w Hw M I V s Hs Hu Hv Hmo Hag delayed (Some l) Hcov vs (fun _ => []) Ev) as (gs & out & Hc & Hga & El).
  { intros x Hx. apply Hvs' in Hx as (? & ? & _). done. }
  { intros x sl _ Hsl. by apply elem_of_nil in Hsl. }
  { intros x ds _ _. by left. }
  exists (Some out). split; [done|]. split; [done|]. split; [by rewrite E|]. split; [done|].
  exists (concat (map (fun g : dataset * list dataset => g.1 :: g.2) gs)). split; [|done]. clear -Hc. induction Hc as [|x g vs gs (ds & p & HM & HV & _ & Hg) _ IH]; [constructor|].
  cbn [map concat]. rewrite Hg. cbn [app]. constructor; [exists ds, p; split; [exact HM|]; split; [exact HV|reflexivity]|exact IH].
Qed.

(** Variables of the reference and of the view are selected, and one of the view
    has a dimension that those of the reference do not have: ValueError. *)
Theorem C68_selection_refuted delayed f (P : list Z -> Prop) l n mv d n' mv' : f = NoFilter \/ filterable c -> (forall x, is_Some (M x) -> says (c_part c) f x (P x)) ->
  (exists x, is_Some (M x) /\ is_Some (V x) /\ P x) ->
  n ∈ l -> dget (md_vars (w_meta w)) n = Some mv -> d ∈ mv_dims mv ->
  n' ∈ l -> dget (md_vars (c_meta c)) n' = Some mv' -> dim ∈ mv_dims mv' ->
  (forall x ds m a, M x = Some ds -> m ∈ l -> dget (d_vars ds) m = Some a -> d ∉ v_dims a) ->
  exec (view_load v w delayed f None (Some l)) s = (Raise ValueError, s).
Proof using All.
  intros Hf HP Hex Hn Em Hd Hn' Em' Hdim Hnone. destruct (exec_view_keys f P Hf HP) as (vs & Sv & Hvs & Hl & _ & Ek).
  assert (Ea : assert_have_variables w = Ok tt) by (unfold assert_have_variables; by destruct (md_vars (w_meta w))).
  unfold view_load. rewrite exec_bind, Ea. cbn [exec]. rewrite exec_bind. rewrite exec_bind, Ek. cbn [exec pret]. cbv iota beta.
  destruct vs as [|x vs]. { exfalso. destruct Hex as [x Hx]. apply Hvs in Hx. by apply elem_of_nil in Hx. }
  destruct (proj1 (Hvs x) ltac:(left)) as ([ds Hds] & [p Hp] & _). cbn [map pseq]. rewrite exec_bind.
  assert (exec (load_part w delayed (Some l) (zip keys x, [])) s = (Raise ValueError, s)) as E; [|rewrite exec_bind, E; done].
  destruct (rp_part _ _ _ _ Hs _ _ Hds) as (Hlx & Hso & Hh). destruct (hw_part _ _ _ _ Hv _ _ Hp) as (_ & Hk). pose proof (Hmo _ _ Hds) as Hm.
  unfold load_part, load_one. cbn [fst snd]. change (map (p_dir (c_part c)) (zip keys x)) with (kd x). change (c_dir c ++ kd x) with (part_dir c x).
  destruct (C47_select_variables (c_meta c) (Some l) None (proj1 (vw_ref _ _ Hw))) as [_ Sr]. destruct (C47_select_variables (w_meta w) (Some l) None (vw_nodup _ _ Hw)) as [_ Sv'].
  set (selected := md_select_variables (c_meta c) (Some l) None) in *. set (variables := md_select_variables (w_meta w) (Some l) None) in *.
  destruct (open_opens (part_dir c x) s ds delayed (Some selected) Hso Hh) as (o & Eo & Ho). rewrite exec_bind, Eo. cbv iota beta.
  assert (Hnd : forall m, dget (d_dims o) d <> Some m).
  { intros m Hm'. assert (Hall : exists n1 a1, dget (d_vars o) n1 = Some a1 /\ d ∈ v_dims a1).
    { unfold open_zarr_group in Eo. rewrite exec_bind, exec_get_tree in Eo. cbn [exec] in Eo. injection Eo as Eo. apply (read_dims _ _ _ _ _ Eo). apply dget_is_Some. by eexists. }
    destruct Hall as (n1 & a1 & E1 & Hd1). destruct Ho as [Hrd _]. apply (reads_vars _ _ _ _ Hrd) in E1 as (W1 & x1 & X1 & ->). cbn [wanted] in W1.
    apply (Hnone x ds n1 x1 Hds); [|done|done]. apply Sr in W1 as (_ & W1 & _). by apply W1. }
  set (g := fun n => match dget (vp_vars p) n with Some a => with_delayed a delayed | None => Var [] delayed (Arr [] []) [] [] [] None None [] end).
  assert (Hg : forall n, n ∈ variables -> exists a, dget (vp_vars p) n = Some a /\ (forall mv, dget (md_vars (w_meta w)) n = Some mv -> v_dims a = mv_dims mv) /\ v_name a = n /\
            keeps (sub (w_dir w ++ kd x ++ [n]) s) a /\ g n = with_delayed a delayed).
  { intros m Hm'. apply Sv' in Hm' as [Hm' _]. apply (kt_same _ _ _ _ Hk) in Hm'. apply dget_is_Some in Hm' as [a Ha]. destruct (kt_vars _ _ _ _ Hk _ _ Ha) as (mv0 & Em0 & Hf0 & K).
    exists a. rewrite sub_sub in K. unfold vdir in K. rewrite <-app_assoc in K. split; [done|]. split; [|split; [|split; [done|]]].
    - intros mv1 Em1. assert (mv1 = mv0) as -> by congruence. apply Hf0.
    - exact (proj1 (part_name v w Hw ds p s x Hm Hk _ _ Ha)).
    - unfold g. by rewrite Ha. }
  rewrite exec_bind, (exec_pseq_pure _ _ (map g variables)).
  2: { clear -Hg. induction variables as [|m k IH]; cbn [map]; constructor; [|apply IH; intros m' Hm; apply Hg; by right].
       destruct (Hg m) as (a & _ & _ & Hm & K & ->); [left|]. by apply open_view_ok. }
  cbv iota beta.
  assert (Hne : d_dims o <> []).
  { intros Hnil. destruct (mo_all _ _ Hm _ _ Em' Hdim) as (a & Ha & Hda). destruct Ho as [Hrd _].
    assert (Hao : dget (d_vars o) n' = Some (with_delayed (stored a) delayed)).
    { apply (reads_vars _ _ _ _ Hrd). split; [|by exists a]. cbn [wanted]. apply Sr. split; [apply dget_is_Some; by eexists|]. split; [by intros ? [= <-]|done]. }
    destruct (proper_consistent _ (reads_proper _ _ _ _ Hrd) _ _ Hao) as (_ & _ & Hsz). rewrite <-Hda in Hdim. apply elem_of_list_lookup_1 in Hdim as [k Hkk].
    destruct (Hsz k _ Hkk) as (m & _ & Hm'). by rewrite Hnil in Hm'. }
  assert (Ef : foldM (fun ds x => ds_add_variable ds (v_metadata x) (Some (v_array x))) o (map g variables) = Raise ValueError).
  { apply (add_fails d); [|by apply dget_None_key].
    assert (Hnv : n ∈ variables) by (apply Sv'; split; [apply dget_is_Some; by eexists|split; [by intros ? [= <-]|done]]).
    exists (g n). split; [apply elem_of_list_In, in_map, elem_of_list_In; done|]. destruct (Hg n Hnv) as (a & _ & Hda & _ & _ & ->). change (v_dims (with_delayed a delayed)) with (v_dims a). by rewrite (Hda _ Em). }
  destruct (d_dims o) as [|dd dims]; [done|]. rewrite exec_bind. cbn [exec]. by rewrite Ef.
Qed.

(** The immutable variables of the reference are not returned. *)
Theorem C69_immutable_refuted delayed f (P : list Z -> Prop) i n : f = NoFilter \/ filterable c -> (forall x, is_Some (M x) -> says (c_part c) f x (P x)) ->
  I = Some i -> n ∈ dkeys (d_vars i) -> (exists x, is_Some (M x) /\ is_Some (V x) /\ P x) ->
  exists out, exec (view_load v w delayed f None None) s = (Ok (Some out), s) /\ n ∉ dkeys (d_vars out).
Proof using All.
  intros Hf HP Hi Hn [x Hx]. destruct (C38_load delayed f P None Hf HP Logic.I) as (vs & r & _ & Hvs & E & Hr). apply Hvs in Hx. destruct r as [out|]; [|subst vs; by apply elem_of_nil in Hx].
  exists out. split; [done|]. destruct Hr as (_ & parts & Hparts & Hga). intros Hin.
  apply (ga_names _ _ _ _ _ _ Hga) in Hin as (_ & [(q & Hq & Hin)|(i' & [=] & _)]). apply elem_of_list_lookup_1 in Hq as [k Hk].
  destruct (Forall2_lookup_r _ _ _ _ _ Hparts Hk) as (y & _ & ds & p & HM & HV & ->). rewrite part_keys, elem_of_app in Hin. destruct Hin as [Hin|Hin].
  - apply dget_is_Some in Hn as [a Ha]. apply dget_is_Some in Hin as [b Hb]. by destruct (un_fixed _ _ _ Hu _ _ _ HM Hi n b n a Hb Ha) as [? _].
  - destruct (hw_part _ _ _ _ Hv _ _ HV) as (_ & Hkp). apply (kt_same _ _ _ _ Hkp) in Hin. apply dget_is_Some in Hin as [mv Em].
    destruct (vw_vars _ _ Hw _ _ Em) as (_ & _ & _ & _ & _ & Hno & _). apply Hno. by apply (un_fixed_declared _ _ _ Hu i).
Qed.
End load.

(** A view that has no variable: ValueError. *)
Theorem C38_no_variables v w delayed f indexer sel s : md_vars (w_meta w) = [] ->
  exec (view_load v w delayed f indexer sel) s = (Raise ValueError, s).
Proof. intros E. unfold view_load, assert_have_variables. rewrite E. done. Qed.
Print Assumptions C38_load.
Print Assumptions C38_indexer.
Print Assumptions C38_no_variables.
Print Assumptions C68_slices_refuted.
Print Assumptions C68_selection_refuted.
Print Assumptions C69_immutable_refuted.

(** ** Examples *)
Lemma gathered_records c delayed sel p ps out n x rss : gathered c delayed sel (p :: ps) None out -> wanted sel n -> dget (d_vars p) n = Some x -> c_dim c ∈ v_dims x ->
  records_in (c_dim c) n (p :: ps) rss -> exists x', dget (d_vars out) n = Some x' /\ records x' (c_dim c) = Some (mjoin rss).
Proof.
  intros Hga Hn Hx Hd Hrs. assert (Hin : n ∈ dkeys (d_vars out)).
  { apply (ga_names _ _ _ _ _ _ Hga). split; [done|]. left. exists p. split; [left|]. apply dget_is_Some. by eexists. }
  apply dget_is_Some in Hin as [x' Hx']. exists x'. split; [done|]. destruct (ga_moving _ _ _ _ _ _ Hga n x' p x Hx' eq_refl Hx) as (y & rss' & _ & _ & H). destruct (H Hd) as [Hr ->].
  do 2 f_equal. clear -Hr Hrs. unfold records_in in *. revert rss Hrs. induction Hr as [|q rs qs rss' (v1 & E1 & R1) _ IH]; intros rss Hrs; inversion Hrs as [|? ? ? ? (v2 & E2 & R2) H2]; subst; [done|].
  f_equal; [congruence|]. by apply IH.
Qed.
Lemma one_row vs a : StronglySorted row_lt vs -> (forall x, x ∈ vs <-> x = [a]) -> vs = [[a]].
Proof.
  intros Hs H. apply (sorted_rows_unique 1); [done|repeat constructor| |].
  - intros x Hx. apply H in Hx as ->. done.
  - intros x. by rewrite H, elem_of_list_singleton.
Qed.
Lemma two_rows M vs : X_contents M -> StronglySorted row_lt vs -> (forall x, x ∈ vs <-> is_Some (M x) /\ is_Some (U_parts x) /\ True) -> vs = [[1]; [2]]%Z.
Proof.
  intros (p1 & p2 & H1 & H2 & H3 & _) Sv Hvs.
  assert (Hvs' : forall x, x ∈ vs <-> x ∈ [[1]; [2]]%Z).
  { intros x. rewrite Hvs. split.
    - intros ([ds Hd] & _). destruct (decide (x = [1%Z])) as [->|N1]; [left|]. destruct (decide (x = [2%Z])) as [->|N2]; [right; left|]. by rewrite H3 in Hd.
    - intros Hx. apply elem_of_cons in Hx as [->|Hx]; [split; [by eexists|split; [by eexists|done]]|]. apply elem_of_list_singleton in Hx as ->. split; [by eexists|split; [by eexists|done]]. }
  apply (sorted_rows_unique 1); [done|repeat constructor; by exists [], 1%Z, 2%Z, [], []| |done]. intros x Hx. apply Hvs' in Hx. apply elem_of_cons in Hx as [->|Hx]; [done|]. by apply elem_of_list_singleton in Hx as ->.
Qed.
Lemma U_speed p ts zs : (forall n, n ∈ dkeys (d_vars p) <-> n ∈ [lit "time"; lit "pass"; lit "height"]) ->
  dget (d_vars (combined p (U_part ts zs))) (lit "speed") = Some (with_delayed (U_var zs) (d_delayed p)).
Proof.
  intros K. rewrite part_get. destruct (dget (d_vars p) (lit "speed")) as [a|] eqn:Ea; [|done]. exfalso.
  assert (Hin : lit "speed" ∈ [lit "time"; lit "pass"; lit "height"]) by (apply K, dget_is_Some; by eexists). revert Hin. apply (bool_decide_unpack _). vm_compute. done.
Qed.
Lemma U_time p ts zs n x : dget (d_vars p) n = Some x -> dget (d_vars (combined p (U_part ts zs))) n = Some x.
Proof. intros E. rewrite part_get. by rewrite E. Qed.

(** Two partitions, the three variables of the reference and the one of the view. *)
Definition U_record (x y : Z) : arr := Arr [2] [Num x; Num y].
Example C38_case : exists M s out x, represents Y_coll M None s /\ X_contents M /\ exec (view_load W_env W_view true NoFilter None None) s = (Ok (Some out), s) /\
  dget (d_vars out) (lit "speed") = Some x /\ records x (lit "time") = Some [U_record 1 2; U_record 3 4; U_record 5 6] /\ lit "height" ∈ dkeys (d_vars out).
Proof.
  destruct U_filled as (M & s & Hs & Hu & HM & Hmo & Hv & Hag & _). pose proof HM as (p1 & p2 & H1 & H2 & H3 & K1 & _ & _ & _ & K2 & _).
  destruct (C38_load W_env W_view M None U_parts s W_viewable Hs Hu Hmo Hv Hag ltac:(done) true NoFilter (fun _ => True) None ltac:(by left) ltac:(done) Logic.I) as (vs & r & Sv & Hvs & E & Hr).
  assert (vs = [[1]; [2]]%Z) as -> by (by apply (two_rows M)).
  destruct r as [out|]; [|done]. destruct Hr as (_ & parts & Hp & Hga). inversion Hp as [|? d1 ? l (ds1 & q1 & E1 & V1 & ->) Hp2]; subst. inversion Hp2 as [|? d2 ? l2 (ds2 & q2 & E2 & V2 & ->) Hp3]; subst. inversion Hp3; subst.
  assert (ds1 = p1) as -> by congruence. assert (ds2 = p2) as -> by congruence. injection V1 as <-. injection V2 as <-.
  destruct (gathered_records _ _ _ _ _ _ (lit "speed") (with_delayed (U_var [1; 2; 3; 4]%Z) (d_delayed p1)) [[U_record 1 2; U_record 3 4]; [U_record 5 6]] Hga) as (x & Hx & Hrx).
  - done.
  - by apply U_speed.
  - left.
  - constructor; [|constructor; [|constructor]].
    + eexists. split; [by apply U_speed|reflexivity].
    + eexists. split; [by apply U_speed|reflexivity].
  - exists M, s, out, x. split; [done|]. split; [done|]. split; [done|]. split; [done|]. split; [exact Hrx|].
    apply (ga_names _ _ _ _ _ _ Hga). split; [done|]. left. exists (combined p1 (U_part [10; 20]%Z [1; 2; 3; 4]%Z)). split; [left|]. rewrite part_keys. apply elem_of_app. left. apply K1. right. right. left.
Qed.

(** With an indexer, a record that the filter rejects is returned. *)
Theorem C68_filter_refuted : exists v w M V s f P indexer out x, viewable v w /\ represents (w_ref w) M None s /\ holds_view v w V s /\
  (forall y, is_Some (M y) -> says (c_part (w_ref w)) f y (P y)) /\ (exists y, is_Some (M y) /\ is_Some (V y) /\ P y) /\ (forall y sl, (zip (p_keys (c_part (w_ref w))) y, sl) ∈ indexer -> length y = 1 -> ~ P y) /\
  exec (view_load v w true f (Some indexer) None) s = (Ok (Some out), s) /\
  dget (d_vars out) (c_axis (w_ref w)) = Some x /\ records x (c_dim (w_ref w)) = Some [Arr [] [Num 20]].
Proof.
  destruct U_filled as (M & s & Hs & Hu & HM & Hmo & Hv & Hag & _). pose proof HM as (p1 & p2 & H1 & H2 & H3 & K1 & A1 & _).
  set (ix := [([(lit "pass", 1%Z)], (1, 2)%Z)]).
  destruct (C38_indexer W_env W_view M None U_parts s W_viewable Hs Hu Hmo Hv Hag ltac:(done) true X_filter ix None Logic.I) as (vs & r & Sv & Hvs & E & Hr).
  { intros k sl Hk. apply elem_of_list_singleton in Hk as [= -> ->]. cbn. lia. }
  { done. }
  assert (vs = [[1]]%Z) as ->.
  { apply one_row; [done|]. intros x. rewrite Hvs. split.
    - intros ([ds Hd] & _ & sl & Hk). apply elem_of_list_singleton in Hk. destruct (decide (x = [1%Z])) as [|N1]; [done|]. destruct (decide (x = [2%Z])) as [->|N2]; [done|]. by rewrite H3 in Hd.
    - intros ->. split; [by eexists|]. split; [by eexists|]. eexists. left. }
  destruct r as [out|]; [|done]. destruct Hr as (_ & pieces & Hp & Hga). inversion Hp as [|? d1 ? l (ds1 & q1 & E1 & V1 & Hd) Hp2]; subst. inversion Hp2; subst.
  assert (ds1 = p1) as -> by congruence. injection V1 as <-. change (slices_for ix _) with [(1, 2)%Z] in Hd. inversion Hd as [|? d ? l2 (n & Hn & Hre) Hd2]; subst. inversion Hd2; subst. cbn [concat app] in Hga.
  destruct (rp_part _ _ _ _ Hs _ _ H1) as (_ & Hso & _).
  assert (n = 2) as ->.
  { destruct (proper_consistent _ (storable_proper _ (sound_storable _ Hso)) _ _ A1) as (_ & _ & Hz). destruct (Hz 0 (lit "time") eq_refl) as (m & A & B). change (dget (d_dims p1) (lit "time") = Some n) in Hn. rewrite B in Hn. injection Hn as <-. cbn in A. congruence. }
  destruct (proj1 (related_get _ _ _ (lit "time") Hre) _ (U_time p1 [10; 20]%Z [1; 2; 3; 4]%Z _ _ A1)) as (x0 & X0 & Hsb & Hrx0).
  destruct (gathered_records _ _ _ _ _ _ (lit "time") x0 [[Arr [] [Num 20]]] Hga) as (x & Hx & Hrx).
  - done.
  - exact X0.
  - destruct Hsb as [-> _]. left.
  - constructor; [|constructor]. exists x0. split; [exact X0|]. etransitivity; [exact Hrx0|]. vm_compute. reflexivity.
  - exists W_env, W_view, M, U_parts, s, X_filter, (fun y => nth 0 y 0%Z = 2%Z), ix, out, x. split; [exact W_viewable|]. split; [done|]. split; [done|]. split; [|split; [|split]].
    + intros y [ds Hy]. destruct (rp_part _ _ _ _ Hs _ _ Hy) as (Hl & _). destruct y as [|a [|]]; try done. exact (X_says a).
    + exists [2%Z]. split; [by eexists|]. split; [by eexists|done].
    + intros y sl Hk Hl Hy. destruct y as [|a [|]]; [done| |done]. cbn in Hy. subst a. by apply elem_of_list_singleton in Hk.
    + split; [done|]. split; [done|exact Hrx].
Qed.
Print Assumptions C68_filter_refuted.

(** The slices are ignored when only the variable of the view is selected. *)
Example C68_slices_case : exists M s out x, represents Y_coll M None s /\ X_contents M /\
  exec (view_load W_env W_view true NoFilter (Some [([(lit "pass", 1%Z)], (1, 2)%Z)]) (Some [lit "speed"])) s = (Ok (Some out), s) /\
  dget (d_vars out) (lit "speed") = Some x /\ records x (lit "time") = Some [U_record 1 2; U_record 3 4].
Proof.
  destruct U_filled as (M & s & Hs & Hu & HM & Hmo & Hv & Hag & _). pose proof HM as (p1 & p2 & H1 & H2 & H3 & K1 & _).
  set (ix := [([(lit "pass", 1%Z)], (1, 2)%Z)]).
  destruct (C68_slices_refuted W_env W_view M None U_parts s W_viewable Hs Hu Hmo Hv Hag ltac:(done) true NoFilter ix [lit "speed"]) as (vs & r & Sv & Hvs & E & Hr).
  { intros n Hn. apply elem_of_list_singleton in Hn as ->. apply (bool_decide_unpack _). vm_compute. done. }
  { exists (lit "speed"). split; [left|]. apply (bool_decide_unpack _). vm_compute. done. }
  assert (vs = [[1]]%Z) as ->.
  { apply one_row; [done|]. intros x. rewrite Hvs. split.
    - intros ([ds Hd] & _ & sl & Hk). apply elem_of_list_singleton in Hk. destruct (decide (x = [1%Z])) as [|N1]; [done|]. destruct (decide (x = [2%Z])) as [->|N2]; [done|]. by rewrite H3 in Hd.
    - intros ->. split; [by eexists|]. split; [by eexists|]. eexists. left. }
  destruct r as [out|]; [|done]. destruct Hr as (_ & parts & Hp & Hga). inversion Hp as [|? d1 ? l (ds1 & q1 & E1 & V1 & ->) Hp2]; subst. inversion Hp2; subst.
  assert (ds1 = p1) as -> by congruence. injection V1 as <-.
  destruct (gathered_records _ _ _ _ _ _ (lit "speed") (with_delayed (U_var [1; 2; 3; 4]%Z) (d_delayed p1)) [[U_record 1 2; U_record 3 4]] Hga) as (x & Hx & Hrx).
  - left.
  - by apply U_speed.
  - left.
  - constructor; [|constructor]. eexists. split; [by apply U_speed|reflexivity].
  - by exists M, s, out, x.
Qed.
(** The axis of the reference and the variable of the view cannot be selected
    together. *)
Example C68_selection_case : exists M s, represents Y_coll M None s /\ X_contents M /\ holds_view W_env W_view U_parts s /\
  exec (view_load W_env W_view true NoFilter None (Some [lit "time"; lit "speed"])) s = (Raise ValueError, s).
Proof.
  destruct U_filled as (M & s & Hs & Hu & HM & Hmo & Hv & Hag & _). exists M, s. split; [done|]. split; [done|]. split; [done|].
  pose proof HM as (p1 & p2 & H1 & H2 & H3 & K1 & A1 & B1 & C1 & K2 & A2 & B2 & C2).
  eapply (C68_selection_refuted W_env W_view M None U_parts s W_viewable Hs Hu Hmo Hv Hag ltac:(done) true NoFilter (fun _ => True) [lit "time"; lit "speed"] (lit "speed") W_speed (lit "x") (lit "time")); [by left|done| | | | | | | |].
  - exists [1%Z]. split; [by eexists|]. split; [by eexists|done].
  - right. left.
  - reflexivity.
  - right. left.
  - left.
  - vm_compute. reflexivity.
  - left.
  - intros x ds m a Hx Hm Ha. assert (G : forall p t, (forall n, n ∈ dkeys (d_vars p) <-> n ∈ [lit "time"; lit "pass"; lit "height"]) -> dget (d_vars p) (lit "time") = Some (X_time t) -> dget (d_vars p) m = Some a -> lit "x" ∉ v_dims a).
    { intros p t K A Hp. apply elem_of_cons in Hm as [->|Hm].
      - rewrite A in Hp. injection Hp as <-. apply (bool_decide_unpack _). vm_compute. done.
      - apply elem_of_list_singleton in Hm as ->. assert (Hin : lit "speed" ∈ [lit "time"; lit "pass"; lit "height"]) by (apply K, dget_is_Some; by eexists).
        exfalso. revert Hin. apply (bool_decide_unpack _). vm_compute. done. }
    destruct (decide (x = [1%Z])) as [->|N1]; [|destruct (decide (x = [2%Z])) as [->|N2]].
    + assert (ds = p1) as -> by congruence. by apply (G p1 [10; 20]%Z).
    + assert (ds = p2) as -> by congruence. by apply (G p2 [30]%Z).
    + by rewrite H3 in Hx.
Qed.
(** The variable "bias" does not depend on the partition: load returns it for the
    collection, and not for the view. *)
Example C69_case : exists M i s out, represents X_coll M (Some i) s /\ lit "bias" ∈ dkeys (d_vars i) /\ holds_view W_env T_view U_parts s /\
  exec (view_load W_env T_view true NoFilter None None) s = (Ok (Some out), s) /\ lit "bias" ∉ dkeys (d_vars out).
Proof.
  destruct T_filled as (M & i & s & Hs & Hu & Hb & HM & Hmo & Hv & Hag). pose proof HM as (p1 & p2 & H1 & _).
  destruct (C69_immutable_refuted W_env T_view M (Some i) U_parts s T_viewable Hs Hu Hmo Hv Hag ltac:(done) true NoFilter (fun _ => True) i (lit "bias")) as (out & E & Hn); [by left|done|done|done| |].
  - exists [1%Z]. split; [by eexists|]. split; [by eexists|done].
  - by exists M, i, s, out.
Qed.
