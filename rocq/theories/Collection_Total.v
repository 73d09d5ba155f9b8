(** * Insertions that succeed *)
From Verif Require Import Py Dict NdArray_Model NdArray_Spec NdArray_Proofs Dataset_Model Dataset_Spec Dataset_Proofs Dataset_Props Dataset_Props2 Meta_Model Meta_Spec Meta_Props PartPath_Model PartPath_Proofs
  Split_Model Split_Spec DaskUtils_Model DaskUtils_Proofs DaskUtils_Props FS_Model FS_Proofs Pool_Model Pool_Proofs Storage_Model Storage_Chunks Storage_Spec Storage_Proofs
  Listing_Model Listing_Spec Listing_Proofs Listing_Props Collection_Model Collection_Spec Collection_Split Collection_Proofs Collection_State Collection_Prepare Collection_Insert.

Section total.
  Context (e : env) (c : collection) (Hr : regular e c) (Hc : declared c).
  Context (ds : dataset) (rows : list (list Z)) (merge : option merge_callable) (Hi : insertable e c ds rows merge).
  Context (np : option Z) (validate : bool) (Ha : accepted c ds rows np validate).

  Lemma prepare_total : exists out, prepare c ds validate = Ok out.
  Proof.
    pose proof (in_sound _ _ _ _ _ Hi) as Hs. pose proof (storable_proper _ (sound_storable _ Hs)) as Hp.
    assert (Hk : forall n, n ∈ dkeys (md_vars (ds_metadata ds)) <-> n ∈ dkeys (d_vars ds)).
    { intros n. rewrite <-!dget_is_Some. destruct (C17_of_dataset ds) as (_ & _ & _ & _ & G); [|apply Hp..|].
      - intros k v Hv. by apply (proper_consistent _ Hp) in Hv as [? _].
      - rewrite G. destruct (dget (d_vars ds) n); split; intros [? ?]; try done; by eexists. }
    assert (Hm : exists names, md_missing_variables (c_meta c) (ds_metadata ds) = Ok names).
    { unfold md_missing_variables. rewrite (proj2 (forallb_forall _ _)); [by eexists|]. intros n Hn. apply elem_of_list_In, Hk in Hn.
      apply dget_is_Some in Hn as [v Hv]. destruct (in_conforms _ _ _ _ _ Hi _ _ Hv) as (mv & Hmv & _). unfold memb. apply bool_decide_eq_true, dget_is_Some. by eexists. }
    destruct Hm as [names Hm]. pose proof (missing_ok c Hc ds names Hs Hm) as (Hnd & H1 & H2).
    destruct (fold_missing_total c names ds) as [full Hfull].
    { intros n Hn. apply H2 in Hn as [Hd Hno]. apply dget_is_Some in Hd as [mv Hmv]. destruct (ac_filled _ _ _ _ _ Ha n mv Hmv Hno) as [[f Hf] Hdims]. by exists mv, f. }
    assert (Hcomp : complete c ds = Ok full) by (unfold complete; rewrite Hm; exact Hfull).
    assert (Hval : validate && negb (md_eq (ds_metadata full) (c_meta c)) = false).
    { destruct validate eqn:Ev; [|done]. destruct (ac_valid _ _ _ _ _ Ha eq_refl) as [Heq Hall]. destruct names as [|n names].
      - cbn in Hfull. injection Hfull as <-. by rewrite Heq.
      - exfalso. destruct (proj1 (H2 n)) as [Hd Hno]; [by left|]. by apply Hno, Hall. }
    unfold prepare. rewrite Hcomp. cbn [rbind]. rewrite Hval.
    apply complete_ok in Hcomp as (names' & Hg & Hnd' & _ & H2'); [|done..].
    assert (H3 := declared_some c ds names' full Hg H1 H2').
    destruct (grown_vars c Hc ds names' full Hs Hg Hnd') as (Hp1 & Hv1); [intros n Hn; by apply H2' in Hn as [_ ?]|intros n Hn; by apply H3|apply Hi|].
    assert (Hne : d_vars full <> []).
    { destruct (dc_axis _ Hc) as (mv & Hmv & _). intros Enil. assert (Hin : c_axis c ∈ dkeys (d_vars full)) by (apply H3, dget_is_Some; eauto).
      rewrite Enil in Hin. by apply elem_of_nil in Hin. }
    destruct (C48_insertion full (md_chunks (c_meta c)) (md_block (c_meta c)) Hp1 (dc_cuts _ Hc) (dc_limit _ Hc) (or_intror Hne)) as (out' & E' & _).
    by exists out'.
  Qed.

  (** The merge strategy accepts what the insertion gives it: the partitions
      stored, and the records to insert in them. *)
  Definition merges (M : list Z -> option dataset) : Prop := forall f v old o part ps piece, merge = Some f -> v ∈ rows -> M v = Some old ->
    reads_as (d_delayed ds) None old o -> fitted c (moving c) ds part -> positions_of rows v ps -> sound piece -> reduced (c_dim c) part ps piece ->
    exists new, f (Dataset (d_dims o) (d_vars o) (d_attrs o) (d_chunks piece) (d_block piece) (d_delayed o)) piece (c_axis c) (c_dim c) = Ok new.
  Theorem insert_merges M I s scheds inner : represents c M I s -> merges M ->
    exists dirs s', exec (insert e scheds inner c ds merge np validate) s = (Ok dirs, s').
  Proof.
    intros Hs Hmg. destruct prepare_total as [out Ep].
    destruct (exec_insert_immutable e c Hr Hc ds (in_sound _ _ _ _ _ Hi) (in_conforms _ _ _ _ _ Hi) M I s validate out Ep Hs)
      as (part & I' & s1 & E & Hp & Hf & Hs1 & Hout & HI).
    destruct (part_rows e c Hr Hc ds rows merge Hi part Hp Hf) as [Hrk Hn].
    assert (Hkey : forall n v, n ∈ p_variables (c_part c) -> dget (d_vars part) n = Some v -> exists v0, dget (d_vars ds) n = Some v0 /\ v = with_attrs v0 [] /\ length (v_shape v) = 1).
    { intros n v Hin Hv. destruct (dc_keys _ Hc _ Hin) as (mv & Hmv & Hd).
      assert (is_Some (dget (d_vars ds) n)) as [v0 Hv0].
      { pose proof (in_keys _ _ _ _ _ Hi) as Hik. destruct (c_part c) as [names dt|names dt r].
        - destruct Hik as (cols & _ & H). apply elem_of_list_lookup in Hin as [i Hi']. destruct (Forall2_lookup_l _ _ _ _ _ H Hi') as (c' & _ & _ & w & Hw & _). by eexists.
        - destruct Hik as (m & w & ? & ? & -> & Hw & _). apply elem_of_list_singleton in Hin as ->. by eexists. }
      exists v0. pose proof (ft_given _ _ _ _ Hf _ _ _ Hv0 Hv) as ->. split_and!; [done..|].
      destruct (in_conforms _ _ _ _ _ Hi _ _ Hv0) as (mv' & Hmv' & Hdv). assert (mv' = mv) as -> by congruence.
      destruct Hp as [Hst _]. rewrite <-(storable_rank _ Hst (with_attrs v0 [])); [cbn; by rewrite Hdv, Hd|].
      apply elem_dvals. exists n. by apply dget_elem. }
    destruct (split_total (c_part c) part rows (rg_keys _ _ Hr) Hrk (in_size _ _ _ _ _ Hi) (ac_some _ _ _ _ _ Ha) (ac_sorted _ _ _ _ _ Ha)) as [parts Es].
    { intros n v Hin Hv. by destruct (Hkey n v Hin Hv) as (? & _ & _ & ?). }
    { pose proof (ac_integers _ _ _ _ _ Ha) as Hint. destruct (c_part c) as [names dt|]; [|done]. intros vs Hvs.
      assert (exists vs0, Forall2 (fun n v => dget (d_vars ds) n = Some v) names vs0 /\ map v_dtype vs0 = map v_dtype vs) as (vs0 & H0 & <-); [|by apply promotes_integers, Hint].
      assert (Hkey' : forall n v, n ∈ names -> dget (d_vars part) n = Some v -> exists v0, dget (d_vars ds) n = Some v0 /\ v = with_attrs v0 []).
      { intros n v Hin Hv. destruct (Hkey n v Hin Hv) as (v0 & ? & ? & _). by exists v0. }
      clear -Hvs Hkey'. induction Hvs as [|n v names vs Hv _ IH]; [exists []; split; [constructor|done]|].
      destruct (Hkey' n v ltac:(left) Hv) as (v0 & E0 & ->). destruct IH as (vs0 & A & B); [intros m w Hm; apply Hkey'; by right|].
      exists (v0 :: vs0). split; [by constructor|]. cbn. by rewrite B. }
    pose proof Es as Es'. apply (split_sound _ _ _ _ (rg_keys _ _ Hr) Hrk (in_size _ _ _ _ _ Hi)) in Es' as (kparts & -> & Hk & _).
    pose proof (proj2 (ks_files _ _ Hk) (ac_sorted _ _ _ _ _ Ha)) as Hfi.
    assert (Hne : kparts <> []).
    { intros ->. pose proof (ks_cover _ _ Hk) as Hcv. pose proof (ac_some _ _ _ _ _ Ha). by destruct rows. }
    destruct (batches_total (map (fun ks => (key_dirs (c_part c) ks.1, ks.2)) kparts) np) as [bs Eb]; [by destruct kparts|apply Ha|].
    pose proof Eb as Eb'. apply batches_concat in Eb' as [Ec _]. apply concat_map_inv in Ec as (kbs & -> & Ec).
    pose proof (kparts_fit e c ds rows merge Hi part kparts Hp Hf Hk) as Hfit.
    assert (Hrun : run_batches c part merge s1 kbs = (Ok tt, patch c part merge s1 (concat kbs))).
    { apply (run_batches_ok e c part (length rows) merge kbs s1); [by rewrite Ec|]. rewrite Ec. intros ks Hin.
      destruct (fit_len _ _ _ _ Hfit _ Hin) as [Hl Hb].
      destruct (slice_ok c part (length rows) Hp Hn ks.2 Hb) as (piece & Epc & Hpc & Hre & _). unfold new_of. rewrite Epc. cbn [rbind].
      destruct merge as [f|] eqn:Em; [|by eexists]. destruct (M ks.1) as [old|] eqn:EM.
      - destruct (rp_part _ _ _ _ Hs1 _ _ EM) as (_ & Ho & Hh).
        assert (empty_at (part_dir c ks.1) s1 = false) as ->.
        { apply empty_at_false. exists (part_dir c ks.1 ++ [ZGROUP]), (CMeta MGroup). split; [apply under_app|]. rewrite <-sub_lookup. apply Hh. }
        destruct (holds_reads _ _ (d_delayed part) None Ho Hh) as (o & -> & Ho'). cbn [rbind]. rewrite (ft_delayed _ _ _ _ Hf) in Ho'.
        eapply (Hmg f ks.1 old o part _ piece Em _ EM Ho' Hf (keyed_positions _ _ Hk Hfi ks Hin) Hpc Hre).
        Unshelve. apply (keyed_keys _ _ Hk Hfi). apply elem_of_list_In, in_map. by apply elem_of_list_In.
      - assert (empty_at (part_dir c ks.1) s1 = true) as ->; [|by eexists]. apply nothing_empty. by eapply part_nothing. }
    pose proof (exec_batches e c Hr part (length rows) merge Hp Hn (in_merge _ _ _ _ _ Hi) I' scheds inner kbs M s1 (fun i => i) Hs1) as Hx.
    unfold insert. rewrite (ac_writable _ _ _ _ _ Ha). rewrite exec_bind, Ep. cbn [exec]. rewrite exec_bind, E, exec_bind, Es. cbn [exec]. rewrite exec_bind, Eb. cbn [exec].
    rewrite exec_bind. match goal with |- context [exec ?p s1] => replace (exec p s1) with (run_batches c part merge s1 kbs) end.
    2:{ symmetry. apply Hx. by rewrite Ec. }
    rewrite Hrun. by do 2 eexists.
  Qed.
  Theorem insert_total M I s scheds inner : represents c M I s -> (merge = None \/ forall v, v ∈ rows -> M v = None) ->
    exists dirs s', exec (insert e scheds inner c ds merge np validate) s = (Ok dirs, s').
  Proof.
    intros Hs Hmg. apply (insert_merges M I); [done|]. intros f v old o part ps piece Em Hv HM. destruct Hmg as [?|Hno]; [congruence|]. rewrite Hno in HM; done.
  Qed.
End total.
