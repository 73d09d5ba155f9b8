(** * The insertion of a dataset *)
From Verif Require Import Py Dict NdArray_Model NdArray_Spec NdArray_Proofs Dataset_Model Dataset_Spec Dataset_Proofs Dataset_Props Dataset_Props2 Meta_Model Meta_Spec Meta_Props PartPath_Model PartPath_Proofs
  Split_Model Split_Spec DaskUtils_Model DaskUtils_Proofs DaskUtils_Props FS_Model FS_Proofs Pool_Model Pool_Proofs Storage_Model Storage_Chunks Storage_Spec Storage_Proofs
  Listing_Model Listing_Spec Listing_Proofs Collection_Model Collection_Spec Collection_Split Collection_Proofs Collection_State Collection_Prepare.

Section batches.
  Context (e : env) (c : collection) (Hr : regular e c) (ds : dataset) (n : nat) (merge : option merge_callable).
  Hypothesis Hds : sound ds.
  Hypothesis Hn : dget (d_dims ds) (c_dim c) = Some n.
  Hypothesis Hm : merges_sound c merge.
  Local Notation fit := (fit e c n).
  Local Notation patch := (patch c ds merge).
  Local Notation outcome := (outcome c ds merge).
  Local Notation new_of := (new_of c ds merge).

  Lemma fits_apart a b : fit (a ++ b) -> forall ks ks', ks ∈ a -> ks' ∈ b -> apart (part_dir c ks.1) (part_dir c ks'.1).
  Proof.
    intros Hf ks ks' H1 H2. destruct (fit_app e c n a b Hf) as (F1 & F2 & F3).
    apply (parts_apart c); [by apply (fit_len _ _ _ _ F1)|by apply (fit_len _ _ _ _ F2)|by apply F3].
  Qed.
  Lemma new_of_patch s a b ks : fit (a ++ b) -> ks ∈ b -> new_of (patch s a) ks.1 ks.2 = new_of s ks.1 ks.2.
  Proof.
    intros Hf Hin. unfold Collection_State.new_of, empty_at.
    rewrite (sub_patch_out c ds merge s a (part_dir c ks.1)); [done|]. intros k Hk. by eapply fits_apart.
  Qed.
  Lemma patch_app s a b : fit (a ++ b) -> patch (patch s a) b = patch s (a ++ b).
  Proof.
    intros Hf. destruct (fit_app e c n a b Hf) as (F1 & F2 & F3). apply map_eq. intros q.
    destruct (decide (Exists (fun ks => under (part_dir c ks.1) q) b)) as [Hx|Hno].
    - apply Exists_exists in Hx as (ks & Hin & t & ->).
      rewrite (patch_in e c ds n merge (patch s a) b ks t F2 Hin), (patch_in e c ds n merge s (a ++ b) ks t Hf) by (apply elem_of_app; by right).
      rewrite (new_of_patch s a b ks Hf Hin). destruct (new_of s ks.1 ks.2); [done|].
      apply patch_out. intros k Hk U. eapply (fits_apart a b Hf k ks Hk Hin); [exact U|apply under_app].
    - rewrite (patch_out c ds merge (patch s a) b) by (intros ks Hks U; apply Hno, Exists_exists; eauto).
      destruct (decide (Exists (fun ks => under (part_dir c ks.1) q) a)) as [Hx|Hno'].
      + apply Exists_exists in Hx as (ks & Hin & t & ->).
        rewrite (patch_in e c ds n merge s a ks t F1 Hin), (patch_in e c ds n merge s (a ++ b) ks t Hf) by (apply elem_of_app; by left). done.
      + rewrite !patch_out; [done|..].
        * intros ks [Hks|Hks]%elem_of_app U; [apply Hno'|apply Hno]; apply Exists_exists; eauto.
        * intros ks Hks U. apply Hno', Exists_exists; eauto.
  Qed.

  (** The batches are run one after the other until one fails. *)
  Fixpoint run_batches (s : store) (kbs : list (list (list Z * (nat * nat)))) : res unit * store :=
    match kbs with
    | [] => (Ok tt, s)
    | b :: kbs => match first_error (map (outcome s) b) with
                  | Ok _ => run_batches (patch s b) kbs
                  | Raise ex => (Raise ex, patch s b)
                  end
    end.
  Lemma exec_batches I scheds inner kbs : forall M s (g : nat -> nat), represents c M I s -> fit (concat kbs) ->
    exec (pfor (imap (fun i b => (g i, b)) (map (map (fun ks => (key_dirs (c_part c) ks.1, ks.2))) kbs))
            (fun ib => execute_transaction CTorn (scheds ib.1) (map (insert_partition e inner c ds merge) ib.2))) s = run_batches s kbs.
  Proof.
    induction kbs as [|b kbs IH]; intros M s g Hs Hf; [done|]. cbn [concat] in Hf.
    destruct (fit_app e c n b (concat kbs) Hf) as (F1 & F2 & F3).
    unfold pfor. cbn [map imap pseq fst snd run_batches]. rewrite !exec_bind.
    change (map (insert_partition e inner c ds merge) (map _ b)) with (tasks e c ds merge inner b).
    rewrite (exec_batch e c Hr ds n merge Hds Hn Hm M I s (scheds (g 0)) inner b Hs F1).
    destruct (first_error _) as [us|ex]; [|done].
    specialize (IH (after c ds merge M s b) (patch s b) (g ∘ S) (represents_patch e c Hr ds n merge Hds Hn Hm M I s b Hs F1) F2).
    unfold pfor in IH. rewrite exec_bind in IH. rewrite exec_bind. cbn [imap] in *.
    match type of IH with context [exec (pseq ?l) _] => match goal with |- context [exec (pseq ?l') _] => change l' with l; destruct (exec (pseq l) (patch s b)) as [[?|?] ?] end end; exact IH.
  Qed.
  Lemma run_batches_spec kbs : forall s, fit (concat kbs) ->
    exists k, (run_batches s kbs).2 = patch s (concat (take k kbs)) /\
      match (run_batches s kbs).1 with
      | Ok _ => take k kbs = kbs /\ forall ks, ks ∈ concat kbs -> exists new, new_of s ks.1 ks.2 = Ok new
      | Raise ex => exists ks, ks ∈ concat kbs /\ new_of s ks.1 ks.2 = Raise ex
      end.
  Proof.
    induction kbs as [|b kbs IH]; intros s Hf.
    - exists 0. cbn. split; [done|]. split; [done|]. intros ks H. by apply elem_of_nil in H.
    - cbn [concat] in Hf. destruct (fit_app e c n b (concat kbs) Hf) as (F1 & F2 & F3). cbn [run_batches].
      destruct (first_error (map (outcome s) b)) as [us|ex] eqn:E.
      + destruct (IH (patch s b) F2) as (k & E2 & E1). exists (S k). cbn [take concat].
        assert (Hft : fit (b ++ concat (take k kbs))).
        { replace kbs with (take k kbs ++ drop k kbs) in Hf by apply take_drop. rewrite concat_app, app_assoc in Hf.
          by apply (fit_app e c n) in Hf as [? _]. }
        split; [rewrite E2; by apply patch_app|].
        destruct (run_batches (patch s b) kbs).1 as [|ex].
        * destruct E1 as [Et Ek]. split; [by rewrite Et|]. intros ks [Hin|Hin]%elem_of_app.
          -- apply first_error_Ok in E. unfold Collection_State.outcome in E.
             assert (Ho : exists u, rmap (fun _ => tt) (new_of s ks.1 ks.2) = Ok u).
             { assert (Hin' : rmap (fun _ => tt) (new_of s ks.1 ks.2) ∈ map (fun ks => rmap (fun _ => tt) (new_of s ks.1 ks.2)) b).
               { apply elem_of_list_In, in_map_iff. exists ks. split; [done|by apply elem_of_list_In]. }
               rewrite E in Hin'. apply elem_of_list_In, in_map_iff in Hin' as (u & Hu & _). eauto. }
             destruct Ho as [u Ho]. destruct (new_of s ks.1 ks.2); [eauto|done].
          -- destruct (Ek ks Hin) as [new Hnew]. exists new. by rewrite <-(new_of_patch s b (concat kbs) ks Hf Hin).
        * destruct E1 as (ks & Hin & Hnew). exists ks. split; [apply elem_of_app; by right|].
          by rewrite <-(new_of_patch s b (concat kbs) ks Hf Hin).
      + exists 1. cbn [take concat]. rewrite app_nil_r. split; [done|]. cbn [fst]. apply first_error_Raise in E.
        apply elem_of_list_In, in_map_iff in E as (ks & Ho & Hin). apply elem_of_list_In in Hin. exists ks. split; [apply elem_of_app; by left|].
        unfold Collection_State.outcome in Ho. destruct (new_of s ks.1 ks.2); [done|]. by injection Ho as ->.
  Qed.
  (** When no partition fails, the way the partitions are grouped is
      indifferent. *)
  Lemma run_batches_ok kbs : forall s, fit (concat kbs) -> (forall ks, ks ∈ concat kbs -> exists new, new_of s ks.1 ks.2 = Ok new) ->
    run_batches s kbs = (Ok tt, patch s (concat kbs)).
  Proof.
    intros s Hf Hok. destruct (run_batches_spec kbs s Hf) as (k & E2 & E1). destruct (run_batches s kbs) as [[u|ex] s']; cbn in *.
    - destruct E1 as [Et _]. rewrite Et in E2. by destruct u; subst.
    - destruct E1 as (ks & Hin & E). destruct (Hok ks Hin) as [new Hnew]. congruence.
  Qed.
End batches.

Lemma concat_map_inv {A B} (f : A -> B) (bs : list (list B)) : forall l, concat bs = map f l -> exists kbs, bs = map (map f) kbs /\ concat kbs = l.
Proof.
  induction bs as [|b bs IH]; intros l E; cbn in E.
  - exists []. by destruct l.
  - assert (Eb : b = map f (take (length b) l)) by (rewrite <-firstn_map, <-E, take_app; done).
    assert (Er : concat bs = map f (drop (length b) l)) by (rewrite <-skipn_map, <-E, drop_app; done).
    destruct (IH _ Er) as (kbs & -> & Ec). exists (take (length b) l :: kbs). cbn. rewrite Ec, take_drop. by rewrite <-Eb.
Qed.
Lemma batches_concat {A} (l : list A) np bs : batches_of l np = Ok bs -> concat bs = l /\ l <> [].
Proof.
  unfold batches_of. intros H. assert (Hne : l <> []).
  { intros ->. destruct C08_split_sequence_empty_refuted as (_ & E & E'). destruct np as [k|].
    - destruct (k <? 1)%Z eqn:Ek; [done|]. apply Z.ltb_ge in Ek. cbn [length Z.of_nat] in H. rewrite Z.div_0_l in H by lia. rewrite E' in H by lia. done.
    - unfold split_sequence in H, E. done. }
  split; [|done]. destruct np as [k|].
  - destruct (k <? 1)%Z eqn:Ek; [done|]. apply Z.ltb_ge in Ek.
    destruct (C08_split_sequence l (Z.of_nat (length l) / k + 1)%Z Hne) as (bs' & E & F).
    { pose proof (Z.div_pos (Z.of_nat (length l)) k). lia. }
    assert (bs' = bs) as -> by congruence. apply F.
  - rewrite C08_split_sequence_default in H by done. injection H as <-. clear. induction l as [|x l IH]; [done|]. cbn. by rewrite IH.
Qed.
Lemma batches_total {A} (l : list A) np : l <> [] -> (forall k, np = Some k -> (1 <= k)%Z) -> exists bs, batches_of l np = Ok bs.
Proof.
  intros Hne Hk. unfold batches_of. destruct np as [k|].
  - specialize (Hk k eq_refl). rewrite (proj2 (Z.ltb_ge _ _)) by lia.
    destruct (C08_split_sequence l (Z.of_nat (length l) / k + 1)%Z Hne) as (bs' & E & _); [|eauto].
    pose proof (Z.div_pos (Z.of_nat (length l)) k). lia.
  - rewrite C08_split_sequence_default by done. eauto.
Qed.

(** ** The variables that do not have the dimension of the axis *)
Lemma dims_condition_one (d : str) (vdims : list str) : (dims_condition [d] true vdims = true <-> d ∈ vdims) /\ (dims_condition [d] false vdims = true <-> d ∉ vdims).
Proof.
  destruct (C48_dims_condition vdims) as (H1 & H2 & _).
  assert (H : dims_condition [d] true vdims = true <-> d ∈ vdims).
  { rewrite (H1 [d]) by done. split; [intros (x & Hx%elem_of_list_singleton & ?); by subst|intros ?; exists d; split; [left|done]]. }
  split; [done|]. rewrite H2, <-H, negb_true_iff. by rewrite not_true_iff_false.
Qed.
Lemma dget_filter {A} (f : str * A -> bool) (d : list (str * A)) k : NoDup (dkeys d) ->
  dget (List.filter f d) k = match dget d k with Some v => if f (k, v) then Some v else None | None => None end.
Proof.
  induction d as [|[k' v'] d IH]; intros Hnd; [done|]. inversion Hnd as [|? ? Hno Hnd']; subst. cbn [List.filter dget].
  destruct (decide (k = k')) as [->|N].
  - destruct (f (k', v')) eqn:Ef; [cbn; by rewrite decide_True|].
    destruct (dget _ k') as [v|] eqn:E; [|done]. exfalso. apply Hno. apply dget_elem, elem_of_list_In, filter_In in E as [E _].
    apply elem_of_list_In, in_map_iff. by exists (k', v).
  - destruct (f (k', v')); [cbn; rewrite decide_False by done|]; by apply IH.
Qed.

Section insertion.
  Context (e : env) (c : collection) (Hr : regular e c) (Hc : declared c).
  Context (ds : dataset) (Hds : sound ds) (Hco : conforms c ds).

  Lemma fitted_dims P out n v : fitted c P ds out -> dget (d_vars out) n = Some v ->
    exists mv, dget (md_vars (c_meta c)) n = Some mv /\ v_dims v = mv_dims mv /\ P mv.
  Proof using Hco.
    intros Hf Hv. assert (Hin : n ∈ dkeys (d_vars out)) by (apply dget_is_Some; eauto). apply (ft_names _ _ _ _ Hf) in Hin as (mv & Hmv & HP).
    exists mv. split_and!; [done| |done]. destruct (dget (d_vars ds) n) as [v0|] eqn:E0.
    - rewrite (ft_given _ _ _ _ Hf _ _ _ E0 Hv). cbn. destruct (Hco _ _ E0) as (mv' & Hmv' & ->). congruence.
    - destruct (ft_missing _ _ _ _ Hf _ _ _ E0 Hmv Hv) as (f & _ & _ & _ & _ & ->). done.
  Qed.
  Lemma select_fitted out (b : bool) : sound out -> fitted c (fun _ => True) ds out -> c_axis c = c_dim c ->
    (exists n mv, dget (md_vars (c_meta c)) n = Some mv /\ if b then moving c mv else fixed c mv) ->
    exists o, ds_select_variables_by_dims out [c_axis c] b = Ok o /\ sound o /\ fitted c (if b then moving c else fixed c) ds o /\ d_vars o <> [] .
  Proof.
    intros Ho Hf Ea (n & mv & Hmv & Hb). destruct Ho as [Hst Hnr]. pose proof (storable_proper _ Hst) as Hp.
    assert (Hcond : forall vd, dims_condition [c_axis c] b vd = true <-> (if b then c_dim c ∈ vd else c_dim c ∉ vd)).
    { intros vd. rewrite Ea. destruct b; apply dims_condition_one. }
    assert (Hin : n ∈ dkeys (d_vars out)) by (apply (ft_names _ _ _ _ Hf); eauto). apply dget_is_Some in Hin as [v Hv].
    destruct (fitted_dims _ _ _ _ Hf Hv) as (mv' & Hmv' & Hdv & _). assert (mv' = mv) as -> by congruence.
    assert (Hcv : dims_condition [c_axis c] b (v_dims v) = true) by (apply Hcond; rewrite Hdv; by destruct b).
    destruct (C48_by_dims out [c_axis c] b Hp) as (o & E & (S1 & S2 & S3 & S4) & Ev).
    { right. exists v. split; [|done]. eapply vals_elem. by apply dget_elem. }
    assert (Hget : forall k, dget (d_vars o) k = match dget (d_vars out) k with Some v => if dims_condition [c_axis c] b (v_dims v) then Some v else None | None => None end).
    { cbn [snd]. intros k. rewrite Ev, dget_filter by apply Hp. done. }
    exists o. split_and!; [done| | |].
    - unfold ds_select_variables_by_dims in E.
      assert (Hsub : forall v, v ∈ List.filter (fun v => dims_condition [c_axis c] b (v_dims v)) (dvals (d_vars out)) -> v ∈ dvals (d_vars out)).
      { intros w Hw. apply elem_of_list_In, filter_In in Hw as [Hw _]. by apply elem_of_list_In. }
      apply sound_new in E as (Hso & _); [done| |apply Hp|apply Hp|].
      + pose proof (proper_names _ Hp) as Hnd. rewrite <-(proper_names_eq _ Hp) in Hnd. clear -Hnd.
        induction (dvals (d_vars out)) as [|w l IH]; [constructor|]. inversion Hnd as [|? ? Hno Hnd']; subst. cbn [List.filter].
        destruct (dims_condition _ _ _); [|by apply IH]. cbn. constructor; [|by apply IH]. intros Hin. apply Hno.
        apply elem_of_list_In, in_map_iff in Hin as (w' & Hw' & Hin). apply filter_In in Hin as [Hin _]. apply elem_of_list_In, in_map_iff. eauto.
      + intros w Hw%Hsub. split_and!; [by apply Hp|by apply (storable_rank _ Hst)| |by apply Hnr].
        apply elem_dvals in Hw as [k Hk]. apply elem_dget in Hk; [|apply Hp]. destruct (proper_consistent _ Hp _ _ Hk) as (-> & _).
        apply (storable_plain _ Hst). apply dget_is_Some. eauto.
    - split.
      + intros k. rewrite <-dget_is_Some, Hget. split.
        * destruct (dget (d_vars out) k) as [w|] eqn:Ew; [|by intros []]. destruct (dims_condition [c_axis c] b (v_dims w)) eqn:Ecd; [|by intros []]. intros _.
          destruct (fitted_dims _ _ _ _ Hf Ew) as (mv' & Hmv'' & Hdw & _). exists mv'. split; [done|]. cbn [snd] in Ecd. rewrite Hdw, Hcond in Ecd. by destruct b.
        * intros (mv' & Hmv'' & HP). assert (Hk : k ∈ dkeys (d_vars out)) by (apply (ft_names _ _ _ _ Hf); eauto). apply dget_is_Some in Hk as [w Hw].
          rewrite Hw. destruct (fitted_dims _ _ _ _ Hf Hw) as (mv2 & Hmv2 & Hdw & _). assert (mv2 = mv') as -> by congruence.
          rewrite (proj2 (Hcond (v_dims w))) by (rewrite Hdw; by destruct b). by eexists.
      + intros k v1 v2 H1 H2. rewrite Hget in H2. destruct (dget (d_vars out) k) as [w|] eqn:Ew; [|done]. destruct (dims_condition [c_axis c] b (v_dims w)); [|done].
        injection H2 as <-. by apply (ft_given _ _ _ _ Hf k).
      + intros k mv1 v2 H1 H3 H2. rewrite Hget in H2. destruct (dget (d_vars out) k) as [w|] eqn:Ew; [|done]. destruct (dims_condition [c_axis c] b (v_dims w)); [|done].
        injection H2 as <-. by apply (ft_missing _ _ _ _ Hf k).
      + rewrite S1. apply (ft_attrs _ _ _ _ Hf).
      + rewrite S2. apply (ft_chunks _ _ _ _ Hf).
      + rewrite S3. apply (ft_block _ _ _ _ Hf).
      + rewrite S4. apply (ft_delayed _ _ _ _ Hf).
    - intros Enil. assert (H := Hget n). rewrite Hv, Hcv, Enil in H. done.
  Qed.

  (** The immutable group, and the dataset that is split. *)
  Lemma exec_insert_immutable M I s validate out : prepare c ds validate = Ok out -> represents c M I s ->
    exists part I' s', exec (insert_immutable c out) s = (Ok part, s') /\ sound part /\ fitted c (moving c) ds part /\
      represents c M I' s' /\ (forall q, ~ under (c_dir c ++ [IMMUTABLE]) q -> s' !! q = s !! q) /\
      match I with
      | Some i => I' = Some i /\ s' = s
      | None => if c_immutable c then exists i, I' = Some i /\ fitted c (fixed c) ds i else I' = None /\ s' = s
      end.
  Proof.
    intros Hpr Hs. destruct (prepare_ok c Hc ds validate out Hds Hco Hpr) as (Ho & Hf & _ & _).
    unfold insert_immutable. destruct (c_immutable c) eqn:Ei.
    - pose proof (dc_same _ Hc Ei) as Ea. apply (dc_fixed _ Hc) in Ei as Hfix.
      destruct (select_fitted out true Ho Hf Ea) as (part & E1 & P1 & P2 & _).
      { destruct (dc_axis _ Hc) as (mv & Hmv & Hd). eauto. }
      destruct (select_fitted out false Ho Hf Ea) as (i & E2 & I1 & I2 & I3); [destruct Hfix as (n & mv & ? & ?); eauto|].
      rewrite exec_bind, exec_exists. rewrite exec_bind. destruct I as [i0|].
      + assert (empty_at (c_dir c ++ [IMMUTABLE]) s = false) as ->.
        { apply empty_at_false. exists ((c_dir c ++ [IMMUTABLE]) ++ [ZGROUP]), (CMeta MGroup). split; [apply under_app|].
          rewrite <-sub_lookup. apply (rp_immutable _ _ _ _ Hs i0 eq_refl). }
        cbn [negb exec pret]. rewrite E1. cbn. exists part, (Some i0), s. by split_and!.
      + assert (Hno : nothing_at (c_dir c ++ [IMMUTABLE]) s).
        { intros q (t & ->). destruct (s !! _) as [x|] eqn:E; [|done]. rewrite <-app_assoc in E.
          apply (rp_files _ _ _ _ Hs) in E as [E|[([? ?] & _)|(v & f & Hv & E)]]; [done|done|].
          destruct Hv as [d Hv]. apply (rp_part _ _ _ _ Hs) in Hv as (Hl & _).
          destruct (key_head e c Hr v Hl) as (a & r & Ea' & Ha & Hd). rewrite Ea' in E. injection E as <- _. by exfalso. }
        rewrite (proj1 (nothing_empty _ _) Hno). cbn [negb]. unfold write_immutable. rewrite exec_bind.
        rewrite E2. cbn [exec]. destruct (d_vars i) as [|x l] eqn:Evi; [done|]. cbn [length Nat.eqb].
        rewrite exec_write_group; [|apply I1|].
        2:{ intros q x0 Hq. rewrite (Hno _ (under_app _ _)) in Hq. done. }
        cbn [exec]. rewrite E1. exists part, (Some i), (graft (c_dir c ++ [IMMUTABLE]) (group_tree i) (prune (c_dir c ++ [IMMUTABLE]) s)).
        assert (Hout : forall q, ~ under (c_dir c ++ [IMMUTABLE]) q ->
          graft (c_dir c ++ [IMMUTABLE]) (group_tree i) (prune (c_dir c ++ [IMMUTABLE]) s) !! q = s !! q).
        { intros q Hq. by rewrite graft_lookup_out, prune_lookup, decide_False. }
        split_and!; try done; [|by exists i]. split.
        * intros q x0 Hq. destruct (decide (under (c_dir c ++ [IMMUTABLE]) (c_dir c ++ q))) as [(f & Ef)|Hnu].
          -- right. left. rewrite <-app_assoc in Ef. apply app_inv_head in Ef as ->. split; [by eexists|by exists f].
          -- rewrite Hout in Hq by done. apply (rp_files _ _ _ _ Hs) in Hq as [?|[([? ?] & _)|?]]; [by left|done|by right; right].
        * intros v d Hv. destruct (rp_part _ _ _ _ Hs _ _ Hv) as (Hl & Hsd & Hh). split_and!; [done..|].
          replace (sub _ _) with (sub (part_dir c v) s); [done|]. apply map_eq. intros q. rewrite !sub_lookup, Hout; [done|].
          intros (f & Ef). unfold part_dir in Ef. rewrite <-!app_assoc in Ef. apply app_inv_head in Ef.
          destruct (key_head e c Hr v Hl) as (a & r & Ea' & Ha & Hd). rewrite Ea' in Ef. injection Ef as -> _. by exfalso.
        * intros d [= <-]. split; [done|]. replace (sub _ _) with (group_tree i); [by apply holds_tree, I1|].
          apply map_eq. intros q. by rewrite sub_lookup, graft_lookup_under.
    - cbn [exec pret]. exists out, I, s. assert (Hmv : forall n mv, dget (md_vars (c_meta c)) n = Some mv -> moving c mv).
      { intros n mv Hmv. destruct (decide (c_dim c ∈ mv_dims mv)) as [|N]; [done|]. exfalso.
        assert (c_immutable c = true); [|congruence]. apply (dc_fixed _ Hc). eauto. }
      split_and!; try done.
      + destruct Hf as [F1 F2 F3 F4 F5 F6 F7]. split; try done. intros n. rewrite F1. split; intros (mv & Hmv' & _); eauto.
      + destruct I; by split.
  Qed.
End insertion.

(** ** The whole insertion *)
Lemma record_keys_length p ds rows : record_keys p ds rows -> forall r, r ∈ rows -> length r = length (p_keys p).
Proof.
  destruct p as [names dt|names dt u]; cbn [record_keys p_keys].
  - intros (cols & Hr & Hc) r Hin. rewrite (is_rows_length _ _ Hr r Hin). symmetry. by eapply Forall2_length.
  - intros (n & v & tps & ticks & _ & _ & _ & _ & Hf) r [i Hi]%elem_of_list_lookup.
    destruct (Forall2_lookup_r _ _ _ _ _ Hf Hi) as (t & _ & y & f & Hx & _ & ->). apply fields_length in Hx.
    rewrite !take_length, Hx. by destruct u.
Qed.
Lemma record_keys_same p ds ds' rows : record_keys p ds rows ->
  (forall n v, n ∈ p_variables p -> dget (d_vars ds) n = Some v -> exists v', dget (d_vars ds') n = Some v' /\ v_array v' = v_array v /\ v_dtype v' = v_dtype v) ->
  record_keys p ds' rows.
Proof.
  destruct p as [names dt|names dt u]; cbn [record_keys p_variables].
  - intros (cols & Hr & Hc) Hs. exists cols. split; [done|]. apply Forall2_same_length_lookup. split; [by eapply Forall2_length|].
    intros i n col Hn Hcol. destruct (Forall2_lookup_lr _ _ _ _ _ _ Hc Hn Hcol) as (L & v & Hv & Hf). split; [done|].
    destruct (Hs n v) as (v' & Hv' & Ea & _); [by eapply elem_of_list_lookup_2|done|]. exists v'. by rewrite Ea.
  - intros (n & v & tps & ticks & -> & Hv & Ht & Ha & Hf) Hs. destruct (Hs n v ltac:(left) Hv) as (v' & Hv' & Ea & Ed).
    exists n, v', tps, ticks. by rewrite Ea, Ed.
Qed.
Lemma record_keys_count p ds rows : plain_keys p -> record_keys p ds rows ->
  exists n v, n ∈ p_variables p /\ dget (d_vars ds) n = Some v /\ length (a_flat (v_array v)) = length rows.
Proof.
  intros Hp. destruct p as [names dt|names dt u]; cbn [record_keys p_variables].
  - intros (cols & Hr & Hc). destruct names as [|n names]; [by destruct (plain_some _ Hp)|].
    inversion Hc as [|? col ? ? (L & v & Hv & Ha)]; subst. exists n, v. split_and!; [left|done|]. by rewrite Ha, map_length.
  - intros (n & v & tps & ticks & -> & Hv & Ht & Ha & Hf). exists n, v. split_and!; [left|done|]. rewrite Ha, map_length. by eapply Forall2_length.
Qed.
Lemma flat_count v n : arr_wf (v_array v) -> v_shape v = [n] -> length (a_flat (v_array v)) = n.
Proof. unfold arr_wf, v_shape. intros H E. rewrite E in H. cbn in H. lia. Qed.

Lemma increase_nodup rows kparts : keyed_slices rows kparts -> NoDup (dkeys kparts) /\ StronglySorted row_lt (dkeys kparts).
Proof.
  intros H. assert (Hs : StronglySorted row_lt (dkeys kparts)).
  { pose proof (ks_increase _ _ H) as Hi. clear H. induction kparts as [|k l IH]; [constructor|]. cbn. constructor.
    - apply IH. intros i j p q Hij Hp Hq. apply (Hi (S i) (S j)); [lia|done..].
    - apply Forall_forall. intros x Hx. apply elem_of_list_In, in_map_iff in Hx as (q & <- & Hq). apply elem_of_list_In, elem_of_list_lookup in Hq as [j Hj].
      apply (Hi 0 (S j)); [lia|done..]. }
  split; [|done]. clear H. induction Hs as [|x l Hs IH Hall]; [constructor|]. constructor; [|done].
  intros Hin. rewrite Forall_forall in Hall. by apply (row_lt_irrefl x), Hall.
Qed.
Lemma keyed_bounds rows kparts : keyed_slices rows kparts -> forall ks, ks ∈ kparts -> ks.2.1 <= ks.2.2 <= length rows.
Proof.
  intros H ks Hin. pose proof (ks_some _ _ H) as Hs. rewrite Forall_forall in Hs. specialize (Hs _ Hin). split; [lia|].
  assert (Hl : ks.2.2 - 1 ∈ concat (map (fun p : list Z * (nat * nat) => seq p.2.1 (p.2.2 - p.2.1)) kparts)).
  { apply elem_of_list_In, in_concat. exists (seq ks.2.1 (ks.2.2 - ks.2.1)). split.
    - apply in_map_iff. exists ks. split; [done|by apply elem_of_list_In].
    - apply in_seq. lia. }
  rewrite (ks_cover _ _ H) in Hl. apply elem_of_list_In, in_seq in Hl. lia.
Qed.
Lemma keyed_keys rows kparts : keyed_slices rows kparts -> files_every_record_once rows kparts -> forall values, values ∈ dkeys kparts <-> values ∈ rows.
Proof.
  intros H (Hc & Hn & Hk) values. split.
  - intros Hin. apply elem_of_list_In, in_map_iff in Hin as (ks & <- & Hin). apply elem_of_list_In in Hin.
    pose proof (ks_first _ _ H) as Hf. rewrite Forall_forall in Hf. specialize (Hf _ Hin). by eapply elem_of_list_lookup_2.
  - intros [i Hi]%elem_of_list_lookup. assert (Hin : i ∈ seq 0 (length rows)) by (apply elem_of_list_In, in_seq; apply lookup_lt_Some in Hi; lia).
    rewrite <-Hc in Hin. apply elem_of_list_In, in_concat in Hin as (l & Hl & Hil). apply in_map_iff in Hl as (ks & <- & Hks). apply in_seq in Hil.
    apply elem_of_list_In in Hks. rewrite Forall_forall in Hk. rewrite (Hk ks Hks i) in Hi by lia. injection Hi as <-.
    apply elem_of_list_In, in_map_iff. exists ks. split; [done|by apply elem_of_list_In].
Qed.
Lemma sorted_seq a n : StronglySorted lt (seq a n).
Proof.
  revert a. induction n as [|n IH]; intros a; cbn; constructor; [done|]. apply Forall_forall. intros x Hx. apply elem_of_list_In, in_seq in Hx. lia.
Qed.
Lemma keyed_positions rows kparts : keyed_slices rows kparts -> files_every_record_once rows kparts -> forall ks, ks ∈ kparts ->
  positions_of rows ks.1 (seq ks.2.1 (ks.2.2 - ks.2.1)).
Proof.
  intros H (Hc & Hn & Hk) ks Hin. split; [apply sorted_seq|]. rewrite Forall_forall in Hk. intros i. rewrite elem_of_list_In, in_seq. split.
  - intros Hi. apply (Hk ks Hin). pose proof (ks_some _ _ H) as Hs. rewrite Forall_forall in Hs. specialize (Hs _ Hin). lia.
  - intros Hi. assert (Hin' : i ∈ seq 0 (length rows)) by (apply elem_of_list_In, in_seq; apply lookup_lt_Some in Hi; lia).
    rewrite <-Hc in Hin'. apply elem_of_list_In, in_concat in Hin' as (l & Hl & Hil). apply in_map_iff in Hl as (ks' & <- & Hks'). apply in_seq in Hil.
    apply elem_of_list_In in Hks'. rewrite (Hk ks' Hks' i) in Hi by lia. injection Hi as Hi.
    destruct (increase_nodup _ _ H) as [Hnd _]. destruct ks as [k sl], ks' as [k' sl']. cbn [fst] in Hi. subst k'.
    apply elem_dget in Hin, Hks'; [|done..]. assert (sl' = sl) as -> by congruence. cbn [fst snd] in *. lia.
Qed.

Section insert.
  Context (e : env) (c : collection) (Hr : regular e c) (Hc : declared c).
  Context (ds : dataset) (rows : list (list Z)) (merge : option merge_callable) (Hi : insertable e c ds rows merge).

  Lemma part_rows part : sound part -> fitted c (moving c) ds part ->
    record_keys (c_part c) part rows /\ dget (d_dims part) (c_dim c) = Some (length rows).
  Proof.
    intros Hp Hf.
    assert (Hsame : forall n v, n ∈ p_variables (c_part c) -> dget (d_vars ds) n = Some v -> dget (d_vars part) n = Some (with_attrs v [])).
    { intros n v Hn Hv. destruct (dc_keys _ Hc _ Hn) as (mv & Hmv & Hd).
      assert (Hin : n ∈ dkeys (d_vars part)) by (apply (ft_names _ _ _ _ Hf); exists mv; split; [done|]; unfold moving; rewrite Hd; left).
      apply dget_is_Some in Hin as [v' Hv']. by rewrite Hv', (ft_given _ _ _ _ Hf _ _ _ Hv Hv'). }
    split.
    - eapply record_keys_same; [apply (in_keys _ _ _ _ _ Hi)|]. intros n v Hn Hv. exists (with_attrs v []). split; [by apply Hsame|done].
    - destruct (record_keys_count _ _ _ (rg_keys _ _ Hr) (in_keys _ _ _ _ _ Hi)) as (n & v & Hn & Hv & Hl).
      destruct (dc_keys _ Hc _ Hn) as (mv & Hmv & Hd). destruct (in_conforms _ _ _ _ _ Hi _ _ Hv) as (mv' & Hmv' & Hdv).
      assert (mv' = mv) as -> by congruence. specialize (Hsame n v Hn Hv).
      destruct Hp as [Hst Hnr]. destruct (proper_consistent _ (storable_proper _ Hst) _ _ Hsame) as (_ & _ & Hsz).
      destruct (Hsz 0 (c_dim c)) as (k & Hk & ->); [cbn; by rewrite Hdv, Hd|]. f_equal.
      rewrite <-Hl. symmetry. change (v_array v) with (v_array (with_attrs v [])).
      assert (Hinp : with_attrs v [] ∈ dvals (d_vars part)) by (eapply vals_elem; by apply dget_elem).
      apply flat_count; [by apply (storable_proper _ Hst)|].
      pose proof (storable_rank _ Hst _ Hinp) as Hrk. cbn in Hrk. rewrite Hdv, Hd in Hrk. cbn in Hrk.
      change (a_shape (v_array v) !! 0 = Some k) in Hk. change (a_shape (v_array v) = [k]). change (1 = length (a_shape (v_array v))) in Hrk.
      destruct (a_shape (v_array v)) as [|x [|y l]]; try done. cbn in Hk. by injection Hk as ->.
  Qed.

  Lemma kparts_fit part kparts : sound part -> fitted c (moving c) ds part -> keyed_slices rows kparts -> fit e c (length rows) kparts.
  Proof.
    intros Hp Hf Hk. destruct (increase_nodup _ _ Hk) as [Hnd _]. pose proof (ks_first _ _ Hk) as Hfi. rewrite Forall_forall in Hfi.
    assert (Hrow : forall ks, ks ∈ kparts -> ks.1 ∈ rows) by (intros ks Hin; eapply elem_of_list_lookup_2, Hfi, Hin).
    split.
    - intros ks Hin. split; [eapply record_keys_length; [apply (in_keys _ _ _ _ _ Hi)|by apply Hrow]|by apply (keyed_bounds _ _ Hk)].
    - done.
    - intros ks ks' H1 H2. by apply (in_digests _ _ _ _ _ Hi); apply Hrow.
  Qed.

  (** The state before the first batch, and what is written. *)
  Lemma insert_cases M I s scheds inner np validate : represents c M I s ->
    let r := exec (insert e scheds inner c ds merge np validate) s in
    (exists ex, r = (Raise ex, s)) \/
    exists part I' s1, sound part /\ fitted c (moving c) ds part /\ represents c M I' s1 /\
      (forall q, ~ under (c_dir c ++ [IMMUTABLE]) q -> s1 !! q = s !! q) /\ kept c ds I I' /\
      ((exists ex, r = (Raise ex, s1)) \/
       exists kparts kbs, split_dataset (c_part c) part = Ok (map (fun ks => (key_dirs (c_part c) ks.1, ks.2)) kparts) /\
         keyed_slices rows kparts /\ files_every_record_once rows kparts /\ kparts <> [] /\ concat kbs = kparts /\
         r = match run_batches c part merge s1 kbs with (Ok _, s') => (Ok (map (part_dir c) (dkeys kparts)), s') | (Raise ex, s') => (Raise ex, s') end).
  Proof.
    intros Hs r. subst r. unfold insert. destruct (c_readonly c); [left; by eexists|]. rewrite exec_bind.
    destruct (prepare c ds validate) as [out|ex] eqn:Ep; cbn [exec]; [|left; by eexists]. rewrite exec_bind. right.
    destruct (exec_insert_immutable e c Hr Hc ds (in_sound _ _ _ _ _ Hi) (in_conforms _ _ _ _ _ Hi) M I s validate out Ep Hs)
      as (part & I' & s1 & E & Hp & Hf & Hs1 & Hout & HI). rewrite E.
    exists part, I', s1. split_and!; try done.
    { unfold kept. destruct I; [by destruct HI|]. destruct (c_immutable c); [done|by destruct HI]. }
    rewrite exec_bind. destruct (split_dataset (c_part c) part) as [parts|ex] eqn:Es; cbn [exec]; [|left; by eexists].
    rewrite exec_bind. destruct (batches_of parts np) as [bs|ex] eqn:Eb; cbn [exec]; [|left; by eexists]. right.
    destruct (part_rows part Hp Hf) as [Hrk Hn].
    destruct (split_sound _ _ _ _ (rg_keys _ _ Hr) Hrk (in_size _ _ _ _ _ Hi) Es) as (kparts & -> & Hk & Hlz).
    apply batches_concat in Eb as [Ec Hne]. apply concat_map_inv in Ec as (kbs & -> & Ec).
    assert (Hsorted : never_decreases row_lt rows).
    { destruct (in_sorted _ _ _ _ _ Hi) as [Hd|]; [|done]. apply Hlz. by rewrite (ft_delayed _ _ _ _ Hf). }
    exists kparts, kbs. split_and!; try done.
    - by apply (ks_files _ _ Hk).
    - intros ->. done.
    - pose proof (exec_batches e c Hr part (length rows) merge Hp Hn (in_merge _ _ _ _ _ Hi) I' scheds inner kbs M s1 (fun i => i) Hs1) as Hx.
      rewrite exec_bind. match goal with |- context [exec ?p s1] => replace (exec p s1) with (run_batches c part merge s1 kbs) end.
      2:{ symmetry. apply Hx. rewrite Ec. by eapply kparts_fit. }
      destruct (run_batches c part merge s1 kbs) as [[u|ex] s']; [|done]. cbn [exec pret]. f_equal. f_equal. unfold dkeys. by rewrite !map_map.
  Qed.
  Lemma after_spec M I s part kparts done_ : represents c M I s -> sound part -> fitted c (moving c) ds part -> keyed_slices rows kparts ->
    files_every_record_once rows kparts -> (forall ks, ks ∈ done_ -> ks ∈ kparts) -> forall values,
    (after c part merge M s done_ values = M values) \/
    (values ∈ rows /\ exists new, after c part merge M s done_ values = Some new /\ replaced c merge (d_delayed ds) rows part values (M values) new).
  Proof.
    intros Hs Hp Hf Hk Hfi Hsub values. unfold after. destruct (dget done_ values) as [sl|] eqn:E; [|by left].
    apply dget_elem in E. assert (Hin : (values, sl) ∈ kparts) by (by apply Hsub).
    destruct (part_rows part Hp Hf) as [Hrk Hn]. pose proof (kparts_fit part kparts Hp Hf Hk) as Hfit.
    destruct (fit_len _ _ _ _ Hfit _ Hin) as [Hl Hb].
    pose proof (new_of_spec e c Hr part (length rows) merge Hp Hn (in_merge _ _ _ _ _ Hi) M I s values sl Hs Hl Hb) as Hnew.
    destruct (new_of c part merge s values sl) as [new|]; [|by left]. right. destruct Hnew as (_ & piece & _ & Hps & Hrd & Hmg). split.
    - apply (keyed_keys _ _ Hk Hfi). apply elem_of_list_In, in_map_iff. exists (values, sl). split; [done|by apply elem_of_list_In].
    - exists new. split; [done|]. exists (seq sl.1 (sl.2 - sl.1)), piece. split_and!; [apply (keyed_positions _ _ Hk Hfi _ Hin)|done|done|].
      by rewrite <-(ft_delayed _ _ _ _ Hf).
  Qed.

  Theorem insert_spec M I s scheds inner np validate r s' : represents c M I s ->
    exec (insert e scheds inner c ds merge np validate) s = (r, s') ->
    exists M' I', represents c M' I' s' /\ (forall q, ~ under (c_dir c) q \/ q = c_dir c ++ [CONFIG] -> s' !! q = s !! q) /\
      match r with
      | Ok dirs => inserted c ds rows merge M M' /\ kept c ds I I' /\ never_decreases row_lt rows /\
          exists keys, dirs = map (part_dir c) keys /\ StronglySorted row_lt keys /\ forall values, values ∈ keys <-> values ∈ rows
      | Raise _ => inserted_in_part c ds rows merge M M' /\ (I' = I /\ (forall v, M' v = M v) \/ kept c ds I I')
      end.
  Proof.
    intros Hs E. destruct (insert_cases M I s scheds inner np validate Hs) as [(ex & E')|(part & I' & s1 & Hp & Hf & Hs1 & Hout & Hk & H)].
    { rewrite E in E'. injection E' as -> ->. exists M, I. split_and!; try done; [|by left]. intros v. by left. }
    assert (Hfr : forall q, ~ under (c_dir c) q \/ q = c_dir c ++ [CONFIG] -> s1 !! q = s !! q).
    { intros q Hq. apply Hout. intros (f & ->). destruct Hq as [Hq|Hq].
      - apply Hq. rewrite <-app_assoc. apply under_app.
      - rewrite <-app_assoc in Hq. apply app_inv_head in Hq. done. }
    destruct H as [(ex & E')|(kparts & kbs & Esp & Hks & Hfi & Hne & Ecat & E')].
    { rewrite E in E'. injection E' as -> ->. exists M, I'. split_and!; try done; [|by right]. intros v. by left. }
    rewrite E in E'. destruct (part_rows part Hp Hf) as [Hrk Hn]. pose proof (kparts_fit part kparts Hp Hf Hks) as Hfit.
    assert (Hfc : fit e c (length rows) (concat kbs)) by (by rewrite Ecat).
    destruct (run_batches_spec e c part (length rows) merge kbs s1 Hfc) as (k & E2 & E1).
    assert (Hsub : forall ks, ks ∈ concat (take k kbs) -> ks ∈ kparts).
    { intros ks Hin. rewrite <-Ecat, <-(take_drop k kbs), concat_app. apply elem_of_app. by left. }
    assert (Hfd : fit e c (length rows) (concat (take k kbs))).
    { rewrite <-(take_drop k kbs), concat_app in Hfc. by apply fit_app in Hfc as [? _]. }
    assert (Hrep : represents c (after c part merge M s1 (concat (take k kbs))) I' (patch c part merge s1 (concat (take k kbs)))).
    { by apply (represents_patch e c Hr part (length rows) merge Hp Hn (in_merge _ _ _ _ _ Hi)). }
    assert (Hfr' : forall q, ~ under (c_dir c) q \/ q = c_dir c ++ [CONFIG] -> patch c part merge s1 (concat (take k kbs)) !! q = s !! q).
    { intros q Hq. rewrite patch_out; [by apply Hfr|]. intros ks Hks' (f & ->). destruct (fit_len _ _ _ _ Hfd _ Hks') as [Hl _].
      destruct Hq as [Hq|Hq].
      - apply Hq. unfold part_dir. rewrite <-app_assoc. apply under_app.
      - unfold part_dir in Hq. rewrite <-app_assoc in Hq. apply app_inv_head in Hq. destruct (key_head e c Hr _ Hl) as (a & r0 & Ea & Ha & Hd).
        rewrite Ea in Hq. injection Hq as -> _. done. }
    destruct (run_batches c part merge s1 kbs) as [[u|ex] s2]; cbn [fst snd] in E1, E2; injection E' as -> ->; rewrite E2;
      exists (after c part merge M s1 (concat (take k kbs))), I'; (split_and!; [done|done|..]).
    - destruct E1 as [Et Hok]. rewrite Et, Ecat in *. exists part. split; [done|]. intros values. split.
      + intros Hv. apply (keyed_keys _ _ Hks Hfi) in Hv. apply elem_of_list_In, in_map_iff in Hv as ([v sl] & <- & Hin). apply elem_of_list_In in Hin. cbn [fst].
        destruct (Hok _ Hin) as [new Hnew]. exists new. cbn [fst snd] in Hnew.
        assert (Ea : after c part merge M s1 kparts v = Some new).
        { unfold after. rewrite (elem_dget kparts v sl); [by rewrite Hnew|apply Hfit|done]. }
        split; [done|].
        destruct (fit_len _ _ _ _ Hfit _ Hin) as [Hl Hb].
        pose proof (new_of_spec e c Hr part (length rows) merge Hp Hn (in_merge _ _ _ _ _ Hi) M I' s1 v sl Hs1 Hl Hb) as Hsp. rewrite Hnew in Hsp.
        destruct Hsp as (_ & piece & _ & Hps & Hrd & Hmg). exists (seq sl.1 (sl.2 - sl.1)), piece.
        split_and!; [apply (keyed_positions _ _ Hks Hfi _ Hin)|done|done|]. by rewrite <-(ft_delayed _ _ _ _ Hf).
      + intros Hv. unfold after. destruct (dget kparts values) as [sl|] eqn:Ed; [|done]. exfalso. apply Hv, (keyed_keys _ _ Hks Hfi).
        apply dget_is_Some. by eexists.
    - done.
    - by apply (ks_files _ _ Hks).
    - exists (dkeys kparts). split_and!; [done|by apply (increase_nodup rows)|]. by apply (keyed_keys _ _ Hks Hfi).
    - intros values. destruct (after_spec M I' s1 part kparts (concat (take k kbs)) Hs1 Hp Hf Hks Hfi Hsub values) as [?|(Hv & new & ? & ?)]; [by left|].
      right. split; [done|]. by exists part, new.
    - by right.
  Qed.
End insert.
