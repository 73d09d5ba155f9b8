(** * C27: adding and dropping a variable of a collection *)
From Verif Require Import Py Dict NdArray_Model NdArray_Spec NdArray_Proofs Dataset_Model Dataset_Spec Dataset_Proofs Meta_Model PartPath_Model PartPath_Proofs
  Split_Spec DaskUtils_Model FS_Model FS_Proofs Pool_Model Pool_Proofs Storage_Model Storage_Chunks Storage_Spec Storage_Proofs
  Listing_Model Listing_Spec Listing_Proofs Collection_Model Collection_Spec Collection_Split Collection_Proofs Collection_State Collection_Select Collection_Load
  Collection_Example Update_Model Update_Spec Storage_Change Update_State Update_Proofs Update_Example Variable_Spec Variable_Proofs.

(** A variable that is added is declared, in the collection and in its
    configuration file; it is in all the partitions, with the sizes of the other
    variables, and all its values are equal to its fill value. Nothing else
    changes. *)
Theorem C27_add e c M I s v sched sched' :
  regular e c -> declared c -> represents c M I s -> uniform c M I -> complete c M -> (exists values, is_Some (M values)) -> c_readonly c = false ->
  c_dim c ∈ mv_dims v -> NoDup (mv_dims v) -> (forall d, d ∈ mv_dims v -> d ∈ md_dims (c_meta c)) ->
  mv_name v ∉ dkeys (md_vars (c_meta c)) -> plain_name (mv_name v) ->
  (exists n mv, dget (md_vars (c_meta c)) n = Some mv /\ mv_dims mv = mv_dims v) ->
  (forall values q, is_Some (M values) -> under (part_dir c values ++ [mv_name v]) q -> s !! q = None) ->
  exists c' M' s', exec (add_variable e sched sched' c v) s = (Ok (c', None), s') /\
    same_otherwise c c' /\ md_vars (c_meta c') = md_vars (c_meta c) ++ [(mv_name v, v)] /\
    s' !! (c_dir c ++ [CONFIG]) = Some (CConf (config_of c')) /\
    represents c' M' I s' /\ pointwise (with_variable v) M M' /\ elsewhere_same c M s s' /\
    declared c' /\ uniform c' M' I /\ complete c' M'.
Proof.
  intros Hr Hdc Hs Hu Hcm Hex Hw Hd Hndd Hdims Hn Hp Ht Hno.
  destruct (add_variable_spec e c Hr M I s v sched sched' Hdc Hcm Hu Hs Hw Hd Hdims Hn Hp Ht Hex Hno) as (s' & t & E & Hpart & Hs' & Hcfg & Hels).
  exists (with_meta c (added c v)), (fun values => option_map (grow v t) (M values)), s'.
  assert (Hgrow : forall values old, M values = Some old -> with_variable v old (grow v t old) /\ sound old).
  { intros values old Ho. destruct (Hpart values old Ho) as (w & Hwd & Hdw & Hnn & _). destruct (rp_part _ _ _ _ Hs _ _ Ho) as (_ & Hso & _). split; [|done]. by eapply grow_with. }
  assert (Hget : forall values old n, M values = Some old -> n <> mv_name v -> dget (d_vars (grow v t old)) n = dget (d_vars old) n).
  { intros values old n Ho N. by apply (Hgrow values old Ho). }
  assert (Hvars : forall n mv, dget (md_vars (added c v)) n = Some mv -> dget (md_vars (c_meta c)) n = Some mv /\ n <> mv_name v \/ n = mv_name v /\ mv = v).
  { intros n mv Hmv. cbn in Hmv. rewrite dget_app in Hmv. destruct (dget (md_vars (c_meta c)) n) as [x|] eqn:Ex.
    - left. split; [done|]. intros ->. apply Hn. apply dget_is_Some. by eexists.
    - cbn in Hmv. destruct (decide (n = mv_name v)) as [->|]; [|done]. injection Hmv as <-. by right. }
  split; [exact E|]. split; [done|]. split; [done|]. split; [done|]. split; [by destruct Hs'; split|]. split; [|split; [done|split; [|split]]].
  - intros values. destruct (M values) as [old|] eqn:Eo; cbn; [|done]. by apply (Hgrow values).
  - split.
    + cbn. unfold dkeys. rewrite map_app. apply NoDup_app. split; [apply Hdc|]. split; [|apply NoDup_singleton]. intros x Hx Hx'. apply elem_of_list_singleton in Hx' as ->. done.
    + intros n mv Hmv. apply Hvars in Hmv as [[Hmv _]|[-> ->]]; [by apply (dc_name _ Hdc)|done].
    + apply Hdc.
    + apply Hdc.
    + destruct (dc_axis _ Hdc) as (mv & Hmv & Hin). exists mv. split; [|done]. cbn. by rewrite dget_app, Hmv.
    + intros n Hk. destruct (dc_keys _ Hdc n Hk) as (mv & Hmv & Hin). exists mv. split; [|done]. cbn. by rewrite dget_app, Hmv.
    + cbn [with_meta c_immutable c_meta c_dim]. rewrite (dc_fixed _ Hdc). split; intros (n & mv & Hmv & Hnd).
      * exists n, mv. split; [|done]. cbn. by rewrite dget_app, Hmv.
      * apply Hvars in Hmv as [[Hmv _]|[-> ->]]; [by exists n, mv|done].
    + apply Hdc.
  - assert (Hx : forall values a, option_map (grow v t) (M values) = Some a -> exists old w, M values = Some old /\ a = grow v t old /\ dget (d_vars old) t = Some w /\ v_dims w = mv_dims v /\ mv_name v ∉ dkeys (d_vars old)).
    { intros values a Ha. destruct (M values) as [old|] eqn:Eo; [|done]. injection Ha as <-. destruct (Hpart values old Eo) as (w & ? & ? & ? & _). by exists old, w. }
    assert (Hkeys : forall old w n, dget (d_vars old) t = Some w -> mv_name v ∉ dkeys (d_vars old) -> n ∈ dkeys (d_vars (grow v t old)) <-> n = mv_name v \/ n ∈ dkeys (d_vars old)).
    { intros old w n Ew Hnn. rewrite <-!dget_is_Some, (grow_get v t old w n Ew Hnn). destruct (decide (n = mv_name v)) as [->|N].
      - split; [by left|]. intros _. by eexists.
      - split; [by right|]. intros [|?]; done. }
    split.
    + intros x y a b Ha Hb. destruct (Hx x a Ha) as (oa & wa & Ea & -> & Hwa & Hda & Hna). destruct (Hx y b Hb) as (ob & wb & Eb & -> & Hwb & Hdb & Hnb).
      destruct (un_layout _ _ _ Hu x y oa ob Ea Eb) as [L1 L2]. split.
      * intros n. rewrite (Hkeys oa wa), (Hkeys ob wb) by done. by rewrite L1.
      * intros n p q. rewrite (grow_get v t oa wa n Hwa Hna), (grow_get v t ob wb n Hwb Hnb). destruct (decide (n = mv_name v)) as [->|N]; [|by apply L2].
        intros [= <-] [= <-]. destruct (L2 t wa wb Hwa Hwb) as (_ & K2 & K3). cbn. split; [done|]. split; [done|]. intros k Hk. rewrite <-Hda in Hk. by apply K3.
    + intros x a n Ha. destruct (Hx x a Ha) as (oa & wa & Ea & -> & Hwa & Hda & Hna). rewrite (Hkeys oa wa) by done. cbn. unfold dkeys. rewrite map_app, elem_of_app.
      intros [->|Hin]; [right; left|left]. by apply (un_declared _ _ _ Hu x oa).
    + intros Hc _. apply (un_immutable _ _ _ Hu Hc). done.
    + intros x a i Ha Hi. destruct (Hx x a Ha) as (oa & wa & Ea & -> & Hwa & Hda & Hna). pose proof (un_fixed _ _ _ Hu x oa i Ea Hi) as Hdis.
      intros n p n' q. rewrite (grow_get v t oa wa n Hwa Hna). destruct (decide (n = mv_name v)) as [->|N]; [|by apply Hdis]. intros [= <-] Hq.
      destruct (Hdis t wa n' q Hwa Hq) as [K1 K2]. split.
      * intros <-. apply Hn. apply (un_fixed_declared _ _ _ Hu i _ Hi). apply dget_is_Some. by eexists.
      * cbn [fresh v_dims v_shape v_array]. rewrite <-Hda. exact K2.
    + apply (un_fixed_dims _ _ _ Hu).
    + intros i n Hi Hin. cbn. unfold dkeys. rewrite map_app, elem_of_app. left. by apply (un_fixed_declared _ _ _ Hu i).
  - intros x a n mv Ha Hmv Hin. destruct (M x) as [old|] eqn:Eo; [|done]. injection Ha as <-. destruct (Hpart x old Eo) as (w & Hwd & Hdw & Hnn & _).
    rewrite (grow_get v t old w n Hwd Hnn). apply Hvars in Hmv as [[Hmv N]|[-> ->]].
    + rewrite decide_False by done. by apply (Hcm x old n mv).
    + rewrite decide_True by done. by eexists.
Qed.
Print Assumptions C27_add.

(** A variable that is dropped is removed from the collection, from its
    configuration file and from all the partitions. Nothing else changes. *)
Theorem C27_drop e c M I s name mv sched :
  regular e c -> declared c -> represents c M I s -> uniform c M I -> complete c M -> (exists values, is_Some (M values)) -> c_readonly c = false ->
  dget (md_vars (c_meta c)) name = Some mv -> c_dim c ∈ mv_dims mv -> name ∉ p_variables (c_part c) -> name <> c_axis c ->
  exists c' M' s', exec (drop_variable e sched c name) s = (Ok c', s') /\
    same_otherwise c c' /\ (forall n, dget (md_vars (c_meta c')) n = if decide (n = name) then None else dget (md_vars (c_meta c)) n) /\
    s' !! (c_dir c ++ [CONFIG]) = Some (CConf (config_of c')) /\
    represents c' M' I s' /\ pointwise (without_variable name) M M' /\ elsewhere_same c M s s' /\
    (forall values q, is_Some (M values) -> under (part_dir c values ++ [name]) q -> s' !! q = None) /\
    declared c' /\ uniform c' M' I /\ complete c' M'.
Proof.
  intros Hr Hdc Hs Hu Hcm Hex Hw Hmv Hd Hk Hax. destruct (dc_name _ Hdc _ _ Hmv) as (_ & Hp & _).
  assert (Hn : name ∈ dkeys (md_vars (c_meta c))) by (apply dget_is_Some; by eexists).
  assert (Hni : forall i, I = Some i -> name ∉ dkeys (d_vars i)).
  { intros i Hi Hin. apply dget_is_Some in Hin as [x Hx]. destruct Hex as [values [old Ho]]. destruct (Hcm values old name mv Ho Hmv Hd) as (w & Hwd & _).
    by destruct (un_fixed _ _ _ Hu values old i Ho Hi name w name x Hwd Hx) as [? _]. }
  destruct (drop_variable_spec e c Hr M I s name sched Hs Hw Hk Hn (fun Hc => un_immutable _ _ _ Hu Hc Hex) Hni Hp Hex) as (s' & E & Hs' & Hcfg & Hels & Hsub).
  set (c' := with_meta c (md_del_variable (c_meta c) name)) in *. exists c', (fun values => option_map (lack name) (M values)), s'.
  assert (Hget : forall n, dget (md_vars (c_meta c')) n = if decide (n = name) then None else dget (md_vars (c_meta c)) n).
  { intros n. cbn. destruct (decide (n = name)) as [->|N]; [apply dget_ddel_eq|by apply dget_ddel_ne]. }
  assert (Hlack : forall old n, dget (d_vars (lack name old)) n = if decide (n = name) then None else dget (d_vars old) n).
  { intros old n. cbn. destruct (decide (n = name)) as [->|N]; [apply dget_ddel_eq|by apply dget_ddel_ne]. }
  assert (Hkeys : forall old n, n ∈ dkeys (d_vars (lack name old)) <-> n <> name /\ n ∈ dkeys (d_vars old)) by (intros old n; apply ddel_elem).
  assert (Hx : forall values a, option_map (lack name) (M values) = Some a -> exists old, M values = Some old /\ a = lack name old).
  { intros values a Ha. destruct (M values) as [old|]; [|done]. injection Ha as <-. by exists old. }
  split; [exact E|]. split; [done|]. split; [exact Hget|]. split; [done|]. split; [by destruct Hs'; split|].
  split; [|split; [done|split; [|split; [|split]]]].
  - intros values. destruct (M values) as [old|]; cbn; [|done]. apply lack_without.
  - intros values q Hm (f & ->). rewrite <-app_assoc, <-sub_lookup, Hsub by done. unfold del_tree. rewrite lookup_insert_ne.
    + rewrite prune_lookup, decide_True; [done|]. apply under_app.
    + intros Ez. apply Hp. cbn in Ez. injection Ez as <- _. set_solver.
  - split.
    + cbn. by apply ddel_NoDup, Hdc.
    + intros n x Hxx. rewrite Hget in Hxx. destruct (decide (n = name)); [done|]. by apply (dc_name _ Hdc).
    + apply Hdc.
    + apply Hdc.
    + destruct (dc_axis _ Hdc) as (x & Hxx & Hin). exists x. split; [|done]. rewrite Hget, decide_False; [done|]. intros Ea. by apply Hax.
    + intros n Hin. destruct (dc_keys _ Hdc n Hin) as (x & Hxx & Hdx). exists x. split; [|done]. rewrite Hget, decide_False; [done|]. intros ->. done.
    + cbn [c' with_meta c_immutable c_dim]. rewrite (dc_fixed _ Hdc). split; intros (n & x & Hxx & Hnd).
      * exists n, x. split; [|done]. fold c'. rewrite Hget, decide_False; [done|]. intros ->. assert (x = mv) as -> by congruence. done.
      * exists n, x. split; [|done]. fold c' in Hxx. rewrite Hget in Hxx. by destruct (decide _).
    + apply Hdc.
  - split.
    + intros x y a b Ha Hb. apply Hx in Ha as (oa & Ea & ->). apply Hx in Hb as (ob & Eb & ->). destruct (un_layout _ _ _ Hu x y oa ob Ea Eb) as [L1 L2]. split.
      * intros n. rewrite !Hkeys. by rewrite L1.
      * intros n p q. rewrite !Hlack. destruct (decide (n = name)); [done|]. by apply L2.
    + intros x a n Ha. apply Hx in Ha as (oa & Ea & ->). rewrite Hkeys. intros [N Hin]. cbn. apply ddel_elem. split; [done|]. by apply (un_declared _ _ _ Hu x oa).
    + intros Hc _. by apply (un_immutable _ _ _ Hu Hc).
    + intros x a i Ha Hi. apply Hx in Ha as (oa & Ea & ->). intros n p n' q. rewrite Hlack. destruct (decide (n = name)); [done|]. by apply (un_fixed _ _ _ Hu x oa i Ea Hi).
    + apply (un_fixed_dims _ _ _ Hu).
    + intros i n Hi Hin. cbn. apply ddel_elem. split; [|by apply (un_fixed_declared _ _ _ Hu i)]. intros ->. by apply (Hni i Hi).
  - intros x a n y Ha Hy Hin. apply Hx in Ha as (oa & Ea & ->). rewrite Hget in Hy. rewrite Hlack. destruct (decide (n = name)); [done|]. by apply (Hcm x oa n y).
Qed.
Print Assumptions C27_drop.

(** Dropping the variable that was just added gives back the collection and all
    its files. *)
Theorem C27_add_drop e c M I s v sched sched' sched'' c' s' :
  regular e c -> declared c -> represents c M I s -> uniform c M I -> complete c M -> (exists values, is_Some (M values)) ->
  plain_name (mv_name v) -> (exists n mv, dget (md_vars (c_meta c)) n = Some mv /\ mv_dims mv = mv_dims v) ->
  (forall values q, is_Some (M values) -> under (part_dir c values ++ [mv_name v]) q -> s !! q = None) ->
  s !! (c_dir c ++ [CONFIG]) = Some (CConf (config_of c)) ->
  exec (add_variable e sched sched' c v) s = (Ok (c', None), s') ->
  exec (drop_variable e sched'' c' (mv_name v)) s' = (Ok c, s).
Proof.
  intros Hr Hdc Hs Hu Hcm Hex Hp Ht Hno Hcfg0 Hadd.
  assert (Hpre : c_readonly c = false /\ c_dim c ∈ mv_dims v /\ (forall d, d ∈ mv_dims v -> d ∈ md_dims (c_meta c)) /\ mv_name v ∉ dkeys (md_vars (c_meta c))).
  { unfold add_variable in Hadd. destruct (c_readonly c); [discriminate Hadd|]. split; [reflexivity|].
    destruct (memb (c_dim c) (mv_dims v)) eqn:Hd; [|discriminate Hadd]. apply bool_decide_eq_true in Hd. split; [exact Hd|]. cbn [negb] in Hadd. rewrite exec_bind in Hadd.
    unfold md_add_variable in Hadd. destruct (dmem (md_vars (c_meta c)) (mv_name v)) eqn:Hn; [discriminate Hadd|].
    destruct (forallb _ _) eqn:Hf; [|discriminate Hadd]. split; [|by apply dmem_false].
    rewrite forallb_forall in Hf. intros d Hin. apply elem_of_list_In in Hin. by apply Hf, bool_decide_eq_true in Hin. }
  destruct Hpre as (Hw & Hd & Hdims & Hn).
  destruct (add_variable_spec e c Hr M I s v sched sched' Hdc Hcm Hu Hs Hw Hd Hdims Hn Hp Ht Hex Hno) as (s1 & t & E & Hpart & Hs' & Hcfg & Hels).
  rewrite E in Hadd. injection Hadd as <- <-. clear E. set (M' := fun values => option_map (grow v t) (M values)) in *. set (c' := with_meta c (added c v)).
  assert (Hsome : forall values, is_Some (M' values) <-> is_Some (M values)).
  { intros values. unfold M'. destruct (M values); cbn; split; intros [? ?]; by eexists || done. }
  assert (Hr' : regular e c') by (destruct Hr; by split).
  assert (Hs1 : represents c' M' I s1) by (destruct Hs'; by split).
  destruct (drop_variable_spec e c' Hr' M' I s1 (mv_name v) sched'' Hs1 Hw) as (s2 & E & _ & Hcfg2 & Hels2 & Hsub).
  - intros Hk. apply (dc_keys _ Hdc) in Hk as (mv & Hmv & _). apply Hn. apply dget_is_Some. by eexists.
  - cbn. unfold dkeys. rewrite map_app. apply elem_of_app. right. left.
  - intros Hc. by apply (un_immutable _ _ _ Hu Hc).
  - intros i Hi Hin. apply Hn. by apply (un_fixed_declared _ _ _ Hu i).
  - exact Hp.
  - destruct Hex as [values Hm]. exists values. by apply Hsome.
  - rewrite E. unfold c'. cbn [c_meta with_meta]. rewrite (del_added e c Hr v Hn). f_equal.
    apply map_eq. intros q. destruct (decide (q = c_dir c ++ [CONFIG])) as [->|N].
    { rewrite Hcfg0. change (c_dir c) with (c_dir c'). rewrite Hcfg2. unfold c'. cbn [c_meta with_meta]. by rewrite (del_added e c Hr v Hn). }
    destruct (select_all e c Hr M I s Hs) as (vss & _ & Hv & _).
    destruct (decide (Exists (fun x => under (part_dir c x) q) vss)) as [X|X].
    + apply Exists_exists in X as (x & Hx & f & ->). apply Hv in Hx as [old Ho]. rewrite <-!sub_lookup. change (part_dir c x) with (part_dir c' x) at 1.
      rewrite Hsub by (apply Hsome; by eexists). change (part_dir c' x) with (part_dir c x).
      destruct (Hpart x old Ho) as (w & Hwd & Hdw & Hnn & ->). destruct (rp_part _ _ _ _ Hs _ _ Ho) as (_ & _ & _ & Hh).
      pose proof (del_add_tree _ _ _ (mv_set_for_insertion v) (v_shape w) (add_chunks (md_chunks (c_meta c)) v (v_shape w)) Hh Hp) as Hdel.
      cbn [mv_name mv_set_for_insertion] in Hdel. rewrite Hdel; [done|]. intros r (g & ->). rewrite sub_lookup. apply (Hno x); [by eexists|]. exists g. by rewrite <-app_assoc.
    + assert (Hq : forall x, is_Some (M x) -> ~ under (part_dir c x) q) by (intros x Hx U; apply X, Exists_exists; exists x; split; [by apply Hv|done]).
      rewrite Hels2; [by apply Hels|done|]. intros x Hx. apply Hq. by apply Hsome.
Qed.
Print Assumptions C27_add_drop.

(** A call of add_variable that raises leaves the collection as it was, and
    removes the files that an interrupted call may have left in the directories
    of the variable, if it gets as far as the partitions. *)
Theorem C27_rollback e c M I s0 s v sched sched' r s' :
  regular e c -> declared c -> represents c M I s0 -> uniform c M I -> complete c M -> (exists values, is_Some (M values)) ->
  plain_name (mv_name v) -> with_leftovers c M (mv_name v) s0 s -> exec (add_variable e sched sched' c v) s = (r, s') ->
  (forall ex, r = Raise ex -> s' = s) /\
  (forall c' ex, r = Ok (c', Some ex) -> c' = c /\ s' = <[c_dir c ++ [CONFIG] := CConf (config_of c)]> s0).
Proof.
  intros Hr Hdc Hs Hu Hcm Hex Hp Hl E. pose proof (add_variable_fails e c Hr M I s0 s v sched sched' Hdc Hcm Hu Hs Hl Hp Hex) as H. rewrite E in H.
  split.
  - by intros ex ->.
  - by intros c' ex ->.
Qed.
Print Assumptions C27_rollback.

(** When nothing but the dimensions of an existing variable would give the sizes
    of the new one, and no variable has these dimensions, the call raises, and
    the collection stays as it was. *)
Theorem C27_no_template e c M I s v sched sched' :
  regular e c -> declared c -> represents c M I s -> uniform c M I -> complete c M -> (exists values, is_Some (M values)) ->
  plain_name (mv_name v) -> (forall values q, is_Some (M values) -> under (part_dir c values ++ [mv_name v]) q -> s !! q = None) ->
  c_readonly c = false -> c_dim c ∈ mv_dims v -> (forall d, d ∈ mv_dims v -> d ∈ md_dims (c_meta c)) -> mv_name v ∉ dkeys (md_vars (c_meta c)) ->
  (forall n mv, dget (md_vars (c_meta c)) n = Some mv -> mv_dims mv <> mv_dims v) ->
  exists ex, exec (add_variable e sched sched' c v) s = (Ok (c, Some ex), <[c_dir c ++ [CONFIG] := CConf (config_of c)]> s).
Proof.
  intros Hr Hdc Hs Hu Hcm Hex Hp Hno Hw Hd Hdims Hn Habs.
  assert (Hl : with_leftovers c M (mv_name v) s s) by (by split).
  pose proof (add_variable_fails e c Hr M I s s v sched sched' Hdc Hcm Hu Hs Hl Hp Hex) as H.
  destruct (exec (add_variable e sched sched' c v) s) as [[[c' [ex|]]|ex] s'] eqn:E.
  - destruct H as [-> ->]. by exists ex.
  - exfalso. clear H. unfold add_variable in E. rewrite Hw in E. assert (memb (c_dim c) (mv_dims v) = true) as Em by (by apply bool_decide_eq_true). rewrite Em in E. cbn [negb] in E.
    rewrite exec_bind, (add_metadata c) in E by done. cbn [exec] in E. rewrite exec_bind in E. unfold write_config at 1 in E. rewrite exec_bind, exec_exists, andb_false_r, exec_write in E.
    destruct (find_template c v Hdc Hn Hp) as (tm & Etm & Hdt & [Htm|[-> _]]); [by eapply Habs|]. rewrite Etm in E. rewrite exec_bind, exec_attempt, exec_bind in E.
    set (c1 := with_meta c (added c v)) in *. set (s1 := <[c_dir c1 ++ [CONFIG] := CConf (config_of c1)]> s) in *.
    assert (Hs1 : represents c M I s1) by (by apply (represents_config e c Hr)).
    destruct (select_all e c Hr M I s1 Hs1) as (vss & Hso & Hv & Hsel). change (select_parts e c1 NoFilter) with (select_parts e c NoFilter) in E. rewrite Hsel, exec_bind in E.
    assert (Ebag : forall B (g : path -> B), bag_map (map (part_dir c) vss) g = Ok (map g (map (part_dir c) vss))).
    { intros B g. destruct vss; [|done]. destruct Hex as [x Hx]. apply Hv in Hx. by apply elem_of_nil in Hx. }
    rewrite Ebag in E. cbn [exec] in E.
    destruct (each_transaction e c Hr (fun q => add_zarr_array q (mv_set_for_insertion v) (mv_name v) (md_chunks (added c v)))
       (fun values t => forall q, under [mv_name v] q -> t !! q = None) (fun values t t' r => r = Raise AttributeError) vss s1 sched)
      as (r & s2 & rs & Et & Er & HF & Hout).
    + by apply sorted_nodup_rows.
    + intros x Hin. apply Hv in Hin as [d Hdd]. by apply (rp_part _ _ _ _ Hs) in Hdd as [? _].
    + intros d. by apply within_add_array.
    + intros values u Hin Hu0. unfold add_zarr_array. rewrite exec_bind, exec_read_file. rewrite <-sub_lookup, Hu0 by (by exists [ZARRAY]).
      rewrite exec_bind, exec_read_file. rewrite <-sub_lookup, Hu0 by (by exists [ZGROUP]). rewrite bool_decide_eq_false_2 by (by intros []).
      rewrite exec_bind, exec_write. eexists _, _. split; [reflexivity|]. split; [|done]. intros q Hq. apply lookup_insert_ne. intros <-. apply Hq, under_app.
    + intros values Hin q (f & ->). apply Hv in Hin. unfold s1. change (c_dir c1) with (c_dir c). rewrite (sub_config e c Hr M I s) by done.
      rewrite sub_lookup. apply (Hno values); [done|]. exists f. by rewrite <-app_assoc.
    + rewrite Et in E. cbn [fst snd] in E. destruct r as [l|ex].
      * symmetry in Er. apply first_error_Ok in Er. subst rs. destruct Hex as [x Hx]. apply Hv in Hx. destruct (Forall2_elem_l _ _ _ _ HF Hx) as (y & Hy & ->).
        apply elem_of_list_In, in_map_iff in Hy as (? & Hy & _). discriminate Hy.
      * rewrite exec_bind, exec_attempt in E. destruct (exec (drop_variable _ _ _ _) _) as [[c2|ex'] s3]; cbn in E; discriminate E.
  - exfalso. clear H. unfold add_variable in E. rewrite Hw in E. assert (memb (c_dim c) (mv_dims v) = true) as Em by (by apply bool_decide_eq_true). rewrite Em in E. cbn [negb] in E.
    rewrite exec_bind, (add_metadata c) in E by done. cbn [exec] in E. rewrite exec_bind in E. unfold write_config at 1 in E. rewrite exec_bind, exec_exists, andb_false_r, exec_write in E.
    destruct (md_search_same_dimensions_as _ _); [|discriminate E]. rewrite exec_bind, exec_attempt in E.
    match type of E with context [fst (exec ?P ?u)] => destruct (exec P u) as [[x|ex1] s3] end; cbn [fst snd] in E; [discriminate E|].
    rewrite exec_bind, exec_attempt in E. destruct (exec (drop_variable _ _ _ _) _) as [[c2|ex'] s4]; cbn in E; discriminate E.
Qed.
Print Assumptions C27_no_template.

(** A variable of the partitioning, a variable that is not declared and a
    variable that does not have the dimension of the axis cannot be dropped; a
    variable that is declared, that does not have the dimension of the axis or
    that has an unknown dimension cannot be added. Nothing changes. *)
Theorem C27_refused e c M I s sched sched' name v :
  regular e c -> represents c M I s -> c_readonly c = false ->
  (name ∈ p_variables (c_part c) \/ name ∉ dkeys (md_vars (c_meta c)) \/ (c_immutable c = true /\ exists i, I = Some i /\ name ∈ dkeys (d_vars i)) ->
     exec (drop_variable e sched c name) s = (Raise ValueError, s)) /\
  (c_dim c ∉ mv_dims v \/ mv_name v ∈ dkeys (md_vars (c_meta c)) \/ (exists d, d ∈ mv_dims v /\ d ∉ md_dims (c_meta c)) ->
     exec (add_variable e sched sched' c v) s = (Raise ValueError, s)).
Proof.
  intros Hr Hs Hw. split.
  - intros H. unfold drop_variable. rewrite Hw. destruct (memb name (p_variables (c_part c))) eqn:Hk; [done|].
    destruct (dmem (md_vars (c_meta c)) name) eqn:Hn; [|done]. apply bool_decide_eq_false in Hk. apply dmem_true in Hn. cbn [negb]. rewrite exec_bind.
    destruct H as [H|[H|(Hi & i & HI & Hin)]]; [done|done|]. unfold immutable_path. rewrite Hi. rewrite exec_bind.
    destruct (immutable_names e c Hr M I s s name (c_dir c ++ [IMMUTABLE]) Hs (fun _ _ => eq_refl)) as (i' & o & HI' & Eo & Hno).
    + intros _. by eexists.
    + unfold immutable_path. by rewrite Hi.
    + rewrite Eo. assert (i' = i) as -> by congruence. apply Hno, dmem_true in Hin. by rewrite Hin.
  - intros H. unfold add_variable. rewrite Hw. destruct (memb (c_dim c) (mv_dims v)) eqn:Hd; [|done]. apply bool_decide_eq_true in Hd. cbn [negb]. rewrite exec_bind.
    unfold md_add_variable. destruct (dmem (md_vars (c_meta c)) (mv_name v)) eqn:Hn; [done|]. apply dmem_false in Hn.
    destruct H as [H|[H|(d & Hdv & Hdm)]]; [done|done|].
    assert (forallb (fun d => memb d (md_dims (c_meta c))) (mv_dims v) = false) as ->; [|done].
    apply not_true_is_false. intros Hf. rewrite forallb_forall in Hf. apply elem_of_list_In in Hdv. apply Hf, bool_decide_eq_true in Hdv. done.
Qed.
Print Assumptions C27_refused.

(** ** A concrete case *)

Lemma Y_declared : declared Y_coll.
Proof.
  split.
  - apply (bool_decide_unpack _). vm_compute. done.
  - intros n mv Hmv. apply (dc_name _ X_declared). cbn in Hmv |- *. apply dget_elem in Hmv. vm_compute in Hmv.
    repeat (apply elem_of_cons in Hmv as [[= -> ->]|Hmv]); [vm_compute; reflexivity..|by apply elem_of_nil in Hmv].
  - apply X_declared.
  - apply X_declared.
  - eexists. split; [vm_compute; reflexivity|cbn; left].
  - intros n Hn. cbn in Hn. apply elem_of_list_singleton in Hn as ->. eexists. split; vm_compute; reflexivity.
  - split; [done|]. intros (n & mv & Hmv & Hd). exfalso. apply dget_elem in Hmv. vm_compute in Hmv.
    repeat (apply elem_of_cons in Hmv as [[= -> ->]|Hmv]); [apply Hd; left..|by apply elem_of_nil in Hmv].
  - done.
Qed.
Lemma Y_complete M : X_contents M -> complete Y_coll M.
Proof.
  intros (p1 & p2 & H1 & H2 & H3 & _ & Ht1 & Hp1 & Hh1 & _ & Ht2 & Hp2 & Hh2) v old n mv Hv Hmv _. apply dget_elem in Hmv. vm_compute in Hmv.
  destruct (decide (v = [1%Z])) as [->|N1]; [|destruct (decide (v = [2%Z])) as [->|N2]; [|by rewrite H3 in Hv]].
  - assert (old = p1) as -> by congruence. repeat (apply elem_of_cons in Hmv as [[= -> ->]|Hmv]); [..|by apply elem_of_nil in Hmv].
    + exists (X_time [10; 20]%Z). split; [exact Ht1|reflexivity].
    + exists (X_pass [1; 1]%Z). split; [exact Hp1|reflexivity].
    + exists (X_height [5; 6; 7; 8]%Z). split; [exact Hh1|reflexivity].
  - assert (old = p2) as -> by congruence. repeat (apply elem_of_cons in Hmv as [[= -> ->]|Hmv]); [..|by apply elem_of_nil in Hmv].
    + exists (X_time [30]%Z). split; [exact Ht2|reflexivity].
    + exists (X_pass [2]%Z). split; [exact Hp2|reflexivity].
    + exists (X_height [9; 4]%Z). split; [exact Hh2|reflexivity].
Qed.

(** The variable "height" of the collection of two partitions is dropped; then
    another variable with this name, with the dimension "time" only, is added,
    and dropped. *)
Definition Y_new : mvar := MVar (lit "height") (lit "int32") [lit "time"] [(lit "unit", lit "m")] None (Some (Num 7)) [].
Example C27_case sched : exists M s c1 M1 s1 c2 M2 s2 p1, X_contents M /\ represents Y_coll M None s /\
  exec (drop_variable X_env sched Y_coll (lit "height")) s = (Ok c1, s1) /\ represents c1 M1 None s1 /\ pointwise (without_variable (lit "height")) M M1 /\
  exec (add_variable X_env sched sched c1 Y_new) s1 = (Ok (c2, None), s2) /\ represents c2 M2 None s2 /\ pointwise (with_variable Y_new) M1 M2 /\
  M2 [1%Z] = Some p1 /\ option_map v_array (dget (d_vars p1) (lit "height")) = Some (Arr [2] [Num 7; Num 7]) /\
  exec (drop_variable X_env sched c2 (lit "height")) s2 = (Ok c1, s1).
Proof.
  destruct Y_filled as (M & s & Hs & Hu & HM). exists M, s.
  assert (Hex : exists v, is_Some (M v)) by (destruct HM as (p1 & _ & H1 & _); exists [1%Z]; by eexists).
  destruct (C27_drop X_env Y_coll M None s (lit "height") _ sched Y_regular Y_declared Hs Hu (Y_complete M HM) Hex eq_refl
    ltac:(vm_compute; reflexivity) ltac:(cbn; left) ltac:(by apply (bool_decide_unpack _)) ltac:(discriminate))
    as (c1 & M1 & s1 & E1 & So1 & Hg1 & Hcfg1 & Hs1 & Hpw1 & _ & Hno & Hdc1 & Hu1 & Hcm1).
  destruct c1 as [ax1 m1 pt1 dir1 dim1 imm1 ro1]. destruct So1 as (A1 & A2 & A3 & A4 & A5 & A6 & A7 & _). cbn [c_axis c_meta c_part c_dir c_dim c_immutable c_readonly] in A1, A2, A3, A4, A5, A6. subst ax1 pt1 dir1 dim1 imm1 ro1.
  set (c1 := Coll _ _ _ _ _ _ _) in *.
  assert (Hr1 : regular X_env c1) by (destruct Y_regular; by split).
  assert (Hex1 : exists v, is_Some (M1 v)). { destruct Hex as [v Hv]. exists v. specialize (Hpw1 v). destruct Hv as [x Hx]. rewrite Hx in Hpw1. by destruct (M1 v). }
  assert (Hno1 : forall values q, is_Some (M1 values) -> under (part_dir c1 values ++ [mv_name Y_new]) q -> s1 !! q = None).
  { intros values q Hm. apply Hno. specialize (Hpw1 values). destruct (M values); [by eexists|]. destruct Hm as [x Hx]. by rewrite Hx in Hpw1. }
  assert (Htm : exists n mv, dget (md_vars (c_meta c1)) n = Some mv /\ mv_dims mv = mv_dims Y_new).
  { exists (lit "time"). rewrite Hg1, decide_False by discriminate. eexists. split; vm_compute; reflexivity. }
  assert (Hp : plain_name (mv_name Y_new)) by (apply (bool_decide_unpack _); vm_compute; done).
  destruct (C27_add X_env c1 M1 None s1 Y_new sched sched Hr1 Hdc1 Hs1 Hu1 Hcm1 Hex1 eq_refl)
    as (c2 & M2 & s2 & E2 & _ & _ & _ & Hs2 & Hpw2 & _); [left|apply NoDup_singleton| | |exact Hp|exact Htm|exact Hno1|].
  { intros d Hd. rewrite A7. apply elem_of_list_singleton in Hd as ->. by apply (bool_decide_unpack _). }
  { intros Hn. apply dget_is_Some in Hn as [x Hx]. by rewrite Hg1, decide_True in Hx. }
  assert (E3 : exec (drop_variable X_env sched c2 (lit "height")) s2 = (Ok c1, s1)).
  { exact (C27_add_drop X_env c1 M1 None s1 Y_new sched sched sched c2 s2 Hr1 Hdc1 Hs1 Hu1 Hcm1 Hex1 Hp Htm Hno1 Hcfg1 E2). }
  destruct HM as (p1 & p2 & H1 & HM'). pose proof (Hpw1 [1%Z]) as Q1. rewrite H1 in Q1. destruct (M1 [1%Z]) as [q1|] eqn:F1; [|done].
  pose proof (Hpw2 [1%Z]) as Q2. rewrite F1 in Q2. destruct (M2 [1%Z]) as [r1|] eqn:F2; [|done].
  exists c1, M1, s1, c2, M2, s2, r1. split; [by exists p1, p2|]. split; [exact Hs|]. split; [exact E1|]. split; [exact Hs1|]. split; [exact Hpw1|].
  split; [exact E2|]. split; [exact Hs2|]. split; [exact Hpw2|]. split; [exact F2|]. split; [|exact E3]. clear E1 E2 E3 Hs Hs1 Hs2.
  destruct HM' as (_ & _ & _ & Ht1 & _). destruct Q1 as (_ & Q1 & _). destruct Q2 as ((w & Hw & Hb) & _). cbn [Y_new mv_name] in Hw. rewrite Hw. cbn. f_equal.
  assert (Hshape : v_shape w = [2]).
  { destruct (bl_array _ _ _ Hb) as [_ Hl]. rewrite (bl_dims _ _ _ Hb) in Hl. cbn in Hl.
    pose proof (bl_shape _ _ _ Hb (lit "time") (X_time [10; 20]%Z) 0 0 (lit "time")) as Hsh. rewrite Q1 in Hsh by discriminate. rewrite (bl_dims _ _ _ Hb) in Hsh.
    specialize (Hsh Ht1 eq_refl eq_refl). destruct (v_shape w) as [|x [|y l]]; try done. cbn in Hsh. by injection Hsh as ->. }
  destruct (bl_array _ _ _ Hb) as [Hwf _]. pose proof (fun x => bl_values _ _ _ Hb (Num 7) x eq_refl) as Hval. unfold v_shape in Hshape.
  destruct (v_array w) as [sh fl]. cbn in Hshape, Hval. subst sh. unfold arr_wf in Hwf. cbn in Hwf. destruct fl as [|x [|y [|z fl]]]; try done.
  rewrite (Hval x), (Hval y); [done|right; left|left].
Qed.

(** In a collection that has no partition, the call raises, but the variable is
    left in the collection and in its configuration. *)
Theorem C54_empty_refuted : exists (e : env) (c : collection) (s : store) (v : mvar) (c' : collection) (s' : store), regular e c /\ declared c /\ represents c (fun _ => None) None s /\
  exec (add_variable e [] [] c v) s = (Ok (c', Some TypeError), s') /\ mv_name v ∉ dkeys (md_vars (c_meta c)) /\ mv_name v ∈ dkeys (md_vars (c_meta c')) /\
  s' !! (c_dir c ++ [CONFIG]) = Some (CConf (config_of c')) /\ exec (drop_variable e [] c' (mv_name v)) s' = (Raise TypeError, s').
Proof.
  set (v := MVar (lit "depth") (lit "int32") [lit "time"] [] None (Some (Num 7)) []).
  exists X_env, Y_coll, ∅, v, (with_meta Y_coll (added Y_coll v)), (<[X_dir ++ [CONFIG] := CConf (config_of (with_meta Y_coll (added Y_coll v)))]> ∅).
  split; [exact Y_regular|]. split; [exact Y_declared|]. split; [by split|]. split; [vm_compute; reflexivity|].
  split; [by apply (bool_decide_unpack _)|]. split; [by apply (bool_decide_unpack _)|]. split; [|vm_compute; reflexivity].
  apply lookup_insert.
Qed.
Print Assumptions C54_empty_refuted.

(** The variable of the axis can be dropped if it is not a variable of the
    partitioning; the collection cannot be opened after that. *)
Theorem C54_axis_refuted : exists e c M s c' s', regular e c /\ declared c /\ represents c M None s /\ uniform c M None /\ complete c M /\
  exec (drop_variable e [] c (c_axis c)) s = (Ok c', s') /\
  forall reg mode, exists ex, exec (open_collection reg (c_dir c) mode) s' = (Raise ex, s').
Proof.
  destruct Y_filled as (M & s & Hs & Hu & HM). pose proof (Y_complete M HM) as Hcm. destruct HM as (p1 & _ & H1 & _).
  destruct (drop_variable_spec X_env Y_coll Y_regular M None s (lit "time") [] Hs eq_refl) as (s' & E & _ & Hcfg & _).
  - by apply (bool_decide_unpack _).
  - by apply (bool_decide_unpack _).
  - done.
  - by intros i [=].
  - apply (bool_decide_unpack _). vm_compute. done.
  - exists [1%Z]. by eexists.
  - exists X_env, Y_coll, M, s. eexists. exists s'. split; [exact Y_regular|]. split; [exact Y_declared|]. split; [exact Hs|]. split; [exact Hu|]. split; [exact Hcm|].
    split; [exact E|]. clear E. intros reg mode. unfold open_collection, from_config. rewrite exec_bind, exec_exists.
    assert (Hx : empty_at (c_dir Y_coll ++ [CONFIG]) s' = false) by (apply empty_at_false; eexists _, _; split; [apply under_refl|exact Hcfg]).
    rewrite Hx. cbn [negb]. rewrite exec_bind, exec_read_file, Hcfg. cbn [config_of cc_dataset].
    rewrite exec_bind. match goal with |- context [md_from_config ?x] => set (r := md_from_config x); vm_compute in r; subst r end. cbn [exec].
    rewrite exec_bind. destruct (get_codecs _ _) as [p|ex]; [|by exists ex]. cbn [exec].
    exists ValueError. reflexivity.
Qed.
Print Assumptions C54_axis_refuted.
