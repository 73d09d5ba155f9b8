From Verif Require Import Py Dict NdArray_Model NdArray_Spec NdArray_Proofs Dataset_Model Dataset_Spec Dataset_Proofs Dataset_Concat Dataset_Main Dataset_Props.
From Verif Require Import Assemble_Spec Assemble_Proofs Period_Model Period_Spec TimeSeries_Model TimeSeries_Spec TimeSeries_Proofs TimeSeries_Main TimeSeries_Props TimeSeries_Sound.
From Verif Require Import Meta_Model PartPath_Model Listing_Model FS_Proofs FS_Model Pool_Model Storage_Model Storage_Spec Split_Spec Collection_Model Collection_Spec Collection_Prepare Collection_State Collection_Insert Collection_Round Collection_Create Collection_Props Series_Spec.

Lemma pick_Forall2 {A} (l : list A) ps : Forall (fun i => i < length l) ps -> Forall2 (fun i x => l !! i = Some x) ps (pick ps l).
Proof.
  induction 1 as [|i ps Hi _ IH]; [constructor|]. unfold pick in *. cbn [omap list_omap]. destruct (lookup_lt_is_Some_2 l i Hi) as [x Hx]. rewrite Hx. by constructor.
Qed.
Lemma records_some v dim : dim ∈ v_dims v -> is_Some (records v dim).
Proof.
  intros H. unfold records. destruct (list_find (fun d => d = dim) (v_dims v)) as [[ax d]|] eqn:E; [by eexists|].
  apply list_find_None in E. rewrite Forall_forall in E. by destruct (E _ H).
Qed.

Lemma list_lookup_map {A B} (f : A -> B) l i : map f l !! i = option_map f (l !! i).
Proof. apply (list_lookup_fmap f l i). Qed.
Lemma stored_plain w : v_attrs w = [] -> stored w = w.
Proof. intros E. unfold stored. rewrite E. destruct w. cbn in *. by subst. Qed.

Section series.
  Context (e : env) (c : collection) (Hr : regular e c) (Hc : declared c).
  Context (res : resolution) (sizes : str -> nat) (h : list call) (tss : list (list Z)).
  Context (Hal : Forall (allowed e c) h) (Hti : timed c res sizes h tss).
  Local Notation dim := (c_dim c).
  Local Notation axis := (c_axis c).

  Record inv (v : list Z) (calls : list nat) (plan : list origin) (p : dataset) : Prop := {
    iv_sound : sound p;
    iv_names : forall n, n ∈ dkeys (d_vars p) <-> exists mv, dget (md_vars (c_meta c)) n = Some mv /\ moving c mv;
    iv_like : forall n w, dget (d_vars p) n = Some w -> exists k ds rows u, k ∈ calls /\ insertion h k ds rows /\ supplied c ds n u /\
      same_but_records dim (with_delayed (with_attrs u []) (v_delayed w)) w;
    iv_layout : forall n w, dget (d_vars p) n = Some w -> exists mv, dget (md_vars (c_meta c)) n = Some mv /\ v_dims w = mv_dims mv /\
      forall k d, v_dims w !! k = Some d -> d <> dim -> v_shape w !! k = Some (sizes d);
    iv_records : forall n w rs, dget (d_vars p) n = Some w -> records w dim = Some rs -> Forall2 (record_of c h n) plan rs;
    iv_series : series dim axis p (map (date_of tss) plan);
    iv_ne : plan <> [];
    iv_order : in_order (map (date_of tss) plan);
    iv_once : NoDup plan;
    iv_from : forall k i, (k, i) ∈ plan -> k ∈ calls /\ filed h v (k, i) /\ forall k', k' ∈ calls -> k < k' -> ~ covers h tss v k' (date_of tss (k, i));
    iv_all : forall k i, k ∈ calls -> filed h v (k, i) ->
      (forall k', k' ∈ calls -> k < k' -> ~ covers h tss v k' (date_of tss (k, i)) /\ ~ covers h tss v k' (date_of tss (k, i) - 1)) -> (k, i) ∈ plan;
  }.

  Lemma inv_timeline v calls plan p : inv v calls plan p -> timeline c h tss v calls plan p.
  Proof using Type.
    intros [H1 H2 H3 H4 H5 H6 H7 H8 H9 H10 H11]. split; try done. intros n w Hw.
    destruct (proj1 (H2 n)) as (mv & Hmv & Hmo); [apply dget_is_Some; by eexists|]. destruct (H4 n w Hw) as (mv' & Hmv' & Hd & _).
    assert (mv' = mv) as -> by congruence. destruct (records_some w dim) as [rs Hrs]; [by rewrite Hd|]. exists rs. split; [done|]. by apply (H5 n w).
  Qed.

  (** ** One inserted piece *)
  Section piece.
    Context (v : list Z) (k : nat) (ds : dataset) (rows : list (list Z)) (merge : option merge_callable) (np : option Z) (va : bool) (scheds : nat -> schedule) (inner : path -> schedule).
    Context (Hk : h !! k = Some (Insert ds rows merge np va scheds inner)).
    Context (part piece : dataset) (ps : list nat) (Hf : fitted c (moving c) ds part) (Hps : positions_of rows v ps) (Hs : sound piece) (Hrd : reduced dim part ps piece).

    Lemma ins_ok : insertable e c ds rows merge.
    Proof using Hal Hk. eapply Forall_lookup in Hal; [|exact Hk]. exact Hal. Qed.
    Lemma ins_at : insertion h k ds rows.
    Proof using Hk. by do 5 eexists. Qed.
    Lemma ins_same ds' rows' : insertion h k ds' rows' -> ds' = ds /\ rows' = rows.
    Proof using Hk. intros (? & ? & ? & ? & ? & E). rewrite Hk in E. split; congruence. Qed.
    Lemma piece_filed i : filed h v (k, i) <-> i ∈ ps.
    Proof using Hk Hps.
      destruct Hps as [_ Hin]. rewrite Hin. split.
      - intros (ds' & rows' & Hi & E). apply ins_same in Hi as [-> ->]. done.
      - intros E. exists ds, rows. split; [apply ins_at|done].
    Qed.
    Lemma piece_var n w : dget (d_vars piece) n = Some w -> exists u rs, supplied c ds n u /\ (exists mv, dget (md_vars (c_meta c)) n = Some mv /\ v_dims u = mv_dims mv /\ moving c mv) /\
      same_but_records dim (with_attrs u []) w /\ records u dim = Some rs /\ length rs = length rows /\ records w dim = Some (pick ps rs) /\
      (forall j d, v_dims u !! j = Some d -> exists m, v_shape u !! j = Some m /\ dget (d_dims ds) d = Some m).
    Proof using Hr Hc Hal Hk Hf Hrd.
      intros Hw. destruct (proj2 (related_get _ _ _ n Hrd) w Hw) as (w0 & Hw0 & Hsb & Hrec). pose proof ins_ok as Hi.
      pose proof (in_conforms _ _ _ _ _ Hi) as Hco. pose proof (in_sound _ _ _ _ _ Hi) as Hso.
      destruct (fitted_supplied c ds Hco (moving c) part n w0 Hf Hw0) as (u & Hu & ->).
      destruct (fitted_dims c ds Hco (moving c) part n _ Hf Hw0) as (mv & Hmv & Hd & Hmo).
      pose proof (fun j d => fitted_sized c ds Hso Hco (moving c) part n _ j d Hf Hw0) as Hsz.
      cbn [v_dims with_attrs] in Hd. destruct (records_some u dim) as [rs Hrs]; [by rewrite Hd|].
      exists u, rs. split; [done|]. split; [by exists mv|]. split; [done|]. split; [done|].
      change (records (with_attrs u []) dim) with (records u dim) in Hrec. rewrite Hrs in Hrec. split; [|split; [done|exact Hsz]].
      rewrite records_index in Hrs. destruct (index_of dim (v_dims u)) as [ax|] eqn:Ei; [|done]. injection Hrs as <-. rewrite rows_length.
      apply index_of_lookup in Ei. destruct (Hsz ax dim Ei) as (m & Hm & Hm'). rewrite (rows_count e c ds rows merge Hr Hc Hi) in Hm'. injection Hm' as <-.
      by apply nth_lookup_Some.
    Qed.
    Lemma ps_bound : Forall (fun i => i < length rows) ps.
    Proof using Hps. apply Forall_forall. intros i Hi. apply Hps in Hi. by eapply lookup_lt_Some. Qed.
    Lemma ps_nodup : NoDup ps.
    Proof using Hps. destruct Hps as [Hso _]. clear -Hso. induction Hso as [|i l _ IH Hi]; constructor; [|done]. intros Hin. rewrite Forall_forall in Hi. apply Hi in Hin. lia. Qed.
    Lemma piece_inv : v ∈ rows -> inv v [k] (map (pair k) ps) piece.
    Proof using All.
      intros Hv. pose proof ps_bound as Hb. destruct (Hti _ _ _ _ _ _ _ _ Hk) as (_ & (ts & Hts & Hser) & Hord & Hsz).
      assert (Hdate : forall i, date_of tss (k, i) = nth i ts 0%Z).
      { intros i. unfold date_of. cbn [fst snd]. by rewrite (nth_lookup_Some _ _ _ _ Hts). }
      split; [done|..].
      - intros n. rewrite <-(ft_names _ _ _ _ Hf n). rewrite <-!dget_is_Some. split.
        + intros [w Hw]. destruct (proj2 (related_get _ _ _ n Hrd) w Hw) as (w0 & Hw0 & _). by eexists.
        + intros [w Hw]. destruct (proj1 (related_get _ _ _ n Hrd) w Hw) as (w0 & Hw0 & _). by eexists.
      - intros n w Hw. destruct (piece_var n w Hw) as (u & rs & Hu & _ & Hsb & _). exists k, ds, rows, u. split; [by left|]. split; [apply ins_at|]. split; [done|].
        assert (v_delayed w = v_delayed u) as -> by (destruct Hsb as [-> _]; done). by destruct u.
      - intros n w Hw. destruct (piece_var n w Hw) as (u & rs & Hu & (mv & Hmv & Hd & Hmo) & Hsb & _ & _ & _ & Hshape). exists mv. split; [done|].
        destruct Hsb as (E & _ & Hsh & _). assert (Ed : v_dims w = v_dims u) by (rewrite E; done). split; [congruence|]. intros j d Hj Hd'.
        rewrite Hsh by (cbn; congruence). rewrite Ed in Hj. destruct (Hshape j d Hj) as (m & Hm & Hm'). rewrite <-(Hsz d m Hm' Hd'). exact Hm.
      - intros n w rs Hw Hrs. destruct (piece_var n w Hw) as (u & rs0 & Hu & _ & _ & Hrs0 & Hl & Hrw & _). assert (rs = pick ps rs0) as -> by congruence.
        assert (Hb' : Forall (fun i => i < length rs0) ps) by (by rewrite Hl). apply pick_Forall2 in Hb'. clear -Hb' Hu Hrs0 Hk.
        induction Hb' as [|i a l as_ Ha _ IH]; cbn [map]; constructor; [|done]. exists ds, rows, u, rs0. split_and!; [apply ins_at|done|done|done].
      - destruct Hser as (va0 & Hva & Hda & Hla & Hfa).
        destruct (dc_axis _ Hc) as (amv & Hamv & Hadim).
        assert (Hain : axis ∈ dkeys (d_vars piece)).
        { assert (axis ∈ dkeys (d_vars part)) as Hin by (apply (ft_names _ _ _ _ Hf); by exists amv). apply dget_is_Some in Hin as [w0 Hw0].
          destruct (proj1 (related_get _ _ _ axis Hrd) w0 Hw0) as (w & Hw & _). apply dget_is_Some. by eexists. }
        apply dget_is_Some in Hain as [w Hw]. destruct (piece_var axis w Hw) as (u & rs & Hu & _ & Hsb & Hrs & Hl & Hrw & _).
        assert (u = va0) as -> by (destruct Hu as [Hu|[Hu _]]; congruence). destruct Hsb as (E & El & _).
        assert (Ed : v_dims w = [dim]) by (rewrite E; done). cbn [with_attrs v_shape v_array] in El. unfold v_shape in *. cbn [with_attrs v_array] in El.
        exists w. split_and!; [done|done|unfold v_shape; congruence|].
        assert (Hwf : arr_wf (v_array w)) by (apply (proper_arrays _ (storable_proper _ (sound_storable _ Hs))), elem_dvals; exists axis; by apply dget_elem).
        assert (Hwf0 : arr_wf (v_array va0)) by (apply (proper_arrays _ (storable_proper _ (sound_storable _ (in_sound _ _ _ _ _ ins_ok)))), elem_dvals; exists axis; by apply dget_elem).
        rewrite records_index, Ed in Hrw. cbn in Hrw. rewrite decide_True in Hrw by done. rewrite rows_rank1 in Hrw by (done || congruence).
        rewrite records_index, Hda in Hrs. cbn in Hrs. rewrite decide_True in Hrs by done. rewrite rows_rank1 in Hrs by done. rewrite Hfa, map_map in Hrs. injection Hrs as <-.
        rewrite map_length in Hl. injection Hrw as Hrw. rewrite map_map.
        assert (Hp : pick ps (map (fun x => Arr [] [Num x]) ts) = map (fun i => Arr [] [Num (nth i ts 0%Z)]) ps).
        { rewrite <-Hl in Hb. clear -Hb. induction Hb as [|i l Hi _ IH]; [done|]. unfold pick in *. cbn [omap list_omap map]. change (map ?f ts) with (f <$> ts) in *. rewrite list_lookup_fmap.
          destruct (lookup_lt_is_Some_2 ts i Hi) as [x Hx]. rewrite Hx. cbn. rewrite (nth_lookup_Some _ _ _ _ Hx). f_equal. exact IH. }
        rewrite Hp in Hrw. rewrite map_map. revert Hrw. generalize (a_flat (v_array w)). generalize ps. clear -Hdate. intros qs. induction qs as [|i qs IH]; intros [|x l] E; try done. cbn [map] in *. injection E as -> E. rewrite (IH l E), Hdate. done.
      - intros E. apply map_eq_nil in E. apply elem_of_list_lookup in Hv as [i Hi]. apply Hps in Hi. rewrite E in Hi. by apply elem_of_nil in Hi.
      - rewrite map_map. destruct Hps as [Hso Hin]. assert (Hin' : forall i, i ∈ ps -> rows !! i = Some v) by (intros i; by apply Hin). clear -Hord Hso Hin'.
        induction Hso as [|i l _ IH Hi]; cbn [map]; constructor; [apply IH; intros j Hj; apply Hin'; by right|]. apply Forall_forall. intros x Hx.
        apply elem_of_list_In, in_map_iff in Hx as (j & <- & Hj). apply elem_of_list_In in Hj. apply (Hord i j v); [apply Hin'; by left|apply Hin'; by right|].
        rewrite Forall_forall in Hi. apply Hi in Hj. lia.
      - change (map ?f ?l) with (f <$> l). apply NoDup_fmap; [|apply ps_nodup]. intros i j [= ->]. done.
      - intros k0 i Hin. apply elem_of_list_In, in_map_iff in Hin as (j & [= <- <-] & Hj). apply elem_of_list_In in Hj. split; [by left|]. split; [by apply piece_filed|].
        intros k' ->%elem_of_list_singleton. lia.
      - intros k0 i ->%elem_of_list_singleton Hfi _. apply piece_filed in Hfi. apply elem_of_list_In, in_map_iff. exists i. split; [done|by apply elem_of_list_In].
    Qed.
  End piece.

  (** ** What is stored, read back *)
  Lemma inv_read v calls plan p piece delayed o : inv v calls plan p -> reads_as delayed None p o -> proper piece ->
    inv v calls plan (ds_copy_properties o piece) /\ d_delayed (ds_copy_properties o piece) = delayed.
  Proof using Type.
    intros [H1 H2 H3 H4 H5 H6 H7 H8 H9 H10 H11] Hrd Hp.
    assert (Hat : forall n w, dget (d_vars p) n = Some w -> v_attrs w = []).
    { intros n w Hw. destruct (H3 n w Hw) as (k & ds & rows & u & _ & _ & _ & E & _). rewrite E. done. }
    assert (Hvar : forall n w, dget (d_vars o) n = Some w <-> exists w0, dget (d_vars p) n = Some w0 /\ w = with_delayed w0 delayed).
    { intros n w. rewrite (reads_vars _ _ _ _ Hrd). split.
      - intros (_ & w0 & Hw0 & ->). exists w0. split; [done|]. by rewrite (stored_plain w0 (Hat n w0 Hw0)).
      - intros (w0 & Hw0 & ->). split; [done|]. exists w0. split; [done|]. by rewrite (stored_plain w0 (Hat n w0 Hw0)). }
    split; [|by rewrite <-(reads_delayed _ _ _ _ Hrd)]. destruct H1 as [Hst Hnr].
    pose proof (reads_proper _ _ _ _ Hrd) as [P1 P2 P3 P4 P5].
    assert (Hin : forall w, w ∈ dvals (d_vars o) -> exists w0, w0 ∈ dvals (d_vars p) /\ w = with_delayed w0 delayed).
    { intros w Hw. apply elem_dvals in Hw as (n & Hw). apply elem_dget in Hw; [|done]. apply Hvar in Hw as (w0 & Hw0 & ->). exists w0. split; [|done]. apply elem_dvals. exists n. by apply dget_elem. }
    assert (Hkeys : forall n, n ∈ dkeys (d_vars o) <-> n ∈ dkeys (d_vars p)).
    { intros n. rewrite <-!dget_is_Some. split; [intros [w Hw]; apply Hvar in Hw as (w0 & Hw0 & _); by eexists|]. intros [w Hw]. exists (with_delayed w delayed). apply Hvar. by exists w. }
    split; cbn [ds_copy_properties d_vars]; try done.
    - split; [split|].
      + split; cbn; try done; apply Hp.
      + cbn. intros w Hw. destruct (Hin w Hw) as (w0 & Hw0 & ->). by apply (storable_rank _ Hst w0).
      + cbn. intros n Hn. apply (storable_plain _ Hst). by apply Hkeys.
      + intros w Hw. destruct (Hin w Hw) as (w0 & Hw0 & ->). by apply (Hnr w0).
    - intros n. rewrite Hkeys. apply H2.
    - intros n w Hw. apply Hvar in Hw as (w0 & Hw0 & ->). destruct (H3 n w0 Hw0) as (k & ds & rows & u & Hk & Hi & Hu & E & El & Esh & Eno). exists k, ds, rows, u. split_and!; [done..|].
      split_and!; [|done|done|].
      + rewrite E. by destruct u.
      + intros Hno. rewrite (Eno Hno). by destruct u.
    - intros n w Hw. apply Hvar in Hw as (w0 & Hw0 & ->). by apply (H4 n w0).
    - intros n w rs Hw Hrs. apply Hvar in Hw as (w0 & Hw0 & ->). by apply (H5 n w0).
    - destruct H6 as (w & Hw & Hd & Hl & Hfl). exists (with_delayed w delayed). split_and!; try done. apply Hvar. by exists w.
  Qed.
  Lemma inv_alike v calls plan p v' calls' plan' p' : inv v calls plan p -> inv v' calls' plan' p' -> d_delayed p' = d_delayed p -> alike dim p p'.
  Proof using Type.
    intros Hi Hi' Hd. split; [done|]. split.
    - intros n. rewrite !dget_is_Some, (iv_names _ _ _ _ Hi n), (iv_names _ _ _ _ Hi' n). done.
    - intros n w w' Hw Hw'. destruct (iv_layout _ _ _ _ Hi n w Hw) as (mv & Hmv & Ed & Hsh). destruct (iv_layout _ _ _ _ Hi' n w' Hw') as (mv' & Hmv' & Ed' & Hsh').
      assert (mv' = mv) as -> by congruence.
      assert (Hl : length (v_dims w) = length (v_shape w)) by (apply (storable_rank _ (sound_storable _ (iv_sound _ _ _ _ Hi))), elem_dvals; exists n; by apply dget_elem).
      assert (Hl' : length (v_dims w') = length (v_shape w')) by (apply (storable_rank _ (sound_storable _ (iv_sound _ _ _ _ Hi'))), elem_dvals; exists n; by apply dget_elem).
      split; [congruence|]. split; [congruence|]. intros k Hk. destruct (v_dims w !! k) as [d|] eqn:E.
      + assert (d <> dim) by congruence. rewrite (Hsh k d E) by done. apply (Hsh' k d); [congruence|done].
      + apply lookup_ge_None in E. rewrite !(proj2 (lookup_ge_None _ _)); [done|lia|]. rewrite <-Hl', Ed', <-Ed. done.
  Qed.

  (** ** The merge *)
  Lemma nth_nil (i : nat) (d : origin) : nth i [] d = d.
  Proof using Type. by destruct i. Qed.
  Lemma inv_merge v calls plan p k ps piece new : inv v calls plan p -> inv v [k] (map (pair k) ps) piece -> d_delayed piece = d_delayed p ->
    (forall k', k' ∈ calls -> k' < k) -> (forall i, filed h v (k, i) <-> i ∈ ps) -> NoDup ps ->
    merge_time_series res p piece axis dim None = Ok new -> exists plan', inv v (calls ++ [k]) plan' new.
  Proof using Type.
    intros Hi Hk Hd Hlt Hfi Hnd E.
    set (te := map (date_of tss) plan). set (ti := map (date_of tss) (map (pair k) ps)).
    assert (Hm : mergeable dim axis p piece te ti).
    { split_and!; try apply Hi; try apply Hk. by eapply inv_alike. }
    destruct (first_date_exists ti) as [lo Hlo]; [intros E0; apply map_eq_nil in E0; by apply (iv_ne _ _ _ _ Hk)|].
    destruct (last_date_exists ti) as [hi Hhi]; [intros E0; apply map_eq_nil in E0; by apply (iv_ne _ _ _ _ Hk)|].
    assert (Ne : te <> []) by (intros E0; apply map_eq_nil in E0; by apply (iv_ne _ _ _ _ Hi)).
    assert (Ni : ti <> []) by (intros E0; apply map_eq_nil in E0; by apply (iv_ne _ _ _ _ Hk)).
    pose proof (C12_merge dim axis res p piece te ti lo hi Hm (iv_order _ _ _ _ Hi) (iv_order _ _ _ _ Hk) Ne Ni Hlo Hhi) as Hmg. rewrite E in Hmg.
    destruct Hmg as (cut & Hcut & Hmg).
    destruct (C12_contents dim axis p piece te ti lo hi cut new (iv_order _ _ _ _ Hi) (iv_order _ _ _ _ Hk) Hlo Hhi (proj1 Hcut) Hmg) as (pl & Has & Hpn & Hpo & Hins & Hex & Hout).
    set (src := [plan; map (pair k) ps]). set (lift := fun o : origin => nth o.2 (nth o.1 src []) (0, 0)).
    assert (Hrange : forall o, o ∈ pl -> (exists i x, o = Existing i /\ plan !! i = Some x /\ lift o = x) \/ (exists i x, o = Inserted i /\ ps !! i = Some x /\ lift o = (k, x))).
    { assert (Hpr : exists w rs, dget (d_vars new) axis = Some w /\ records w dim = Some rs).
      { destruct Hmg as (pl0 & _ & (w & Hw & Hdw & _) & _). destruct (records_some w dim) as [rs Hrs]; [rewrite Hdw; by left|]. by exists w, rs. }
      destruct Hpr as (w & rs & Hw & Hrs). pose proof (as_records _ _ _ _ Has _ _ _ Hw Hrs) as H2. intros o Ho. apply elem_of_list_lookup in Ho as [j Hj].
      destruct (Forall2_lookup_l _ _ _ _ _ H2 Hj) as (a & _ & s & w0 & rs0 & Hs & Hw0 & Hrs0 & Ha). destruct o as [[|[|q]] i]; cbn in Hs, Ha; [| |done]; injection Hs as <-.
      - left. pose proof (iv_records _ _ _ _ Hi _ _ _ Hw0 Hrs0) as H3. destruct (Forall2_lookup_r _ _ _ _ _ H3 Ha) as (x & Hx & _). exists i, x. split_and!; [done|done|].
        unfold lift, src. cbn [fst snd nth]. by apply nth_lookup_Some.
      - right. pose proof (iv_records _ _ _ _ Hk _ _ _ Hw0 Hrs0) as H3. destruct (Forall2_lookup_r _ _ _ _ _ H3 Ha) as (x & Hx & _).
        assert (Hx' := Hx). change (map ?f ?l) with (f <$> l) in Hx'. rewrite list_lookup_fmap in Hx'. destruct (ps !! i) as [y|] eqn:Ey; [|done]. injection Hx' as <-.
        exists i, y. split_and!; [done|done|]. unfold lift, src. cbn [fst snd nth]. by apply nth_lookup_Some. }
    assert (Hdate : forall o, o ∈ pl -> date_of tss (lift o) = date_of [te; ti] o).
    { intros o Ho. destruct (Hrange o Ho) as [(i & x & -> & Hx & ->)|(i & x & -> & Hx & ->)].
      - unfold date_of at 2. cbn. symmetry. apply nth_lookup_Some. unfold te. change (map ?f ?l) with (f <$> l). by rewrite list_lookup_fmap, Hx.
      - unfold date_of at 2. cbn. symmetry. apply nth_lookup_Some. unfold ti. change (map ?f ?l) with (f <$> l). by rewrite !list_lookup_fmap, Hx. }
    assert (Edates : map (date_of tss) (map lift pl) = map (date_of [te; ti]) pl).
    { rewrite map_map. apply map_ext_in. intros o Ho. apply Hdate. by apply elem_of_list_In. }
    assert (Hplan_lift : forall x : origin, x ∈ map lift pl <-> (exists i, plan !! i = Some x /\ Existing i ∈ pl) \/ (exists i y, ps !! i = Some y /\ x = (k, y) /\ Inserted i ∈ pl)).
    { intros x. rewrite elem_of_list_In, in_map_iff. split.
      - intros (o & <- & Ho%elem_of_list_In). destruct (Hrange o Ho) as [(i & x & -> & Hx & ->)|(i & x & -> & Hx & ->)]; [left; by exists i|right; by exists i, x].
      - intros [(i & Hx & Ho)|(i & y & Hy & -> & Ho)]; eexists; (split; [|by apply elem_of_list_In]).
        + unfold lift, src. cbn [Existing fst snd nth]. by apply nth_lookup_Some.
        + unfold lift, src. cbn [Inserted fst snd nth]. apply nth_lookup_Some. change (map ?f ?l) with (f <$> l). by rewrite list_lookup_fmap, Hy. }
    assert (Hnk : forall x : origin, x ∈ plan -> x.1 <> k).
    { intros [k0 i] Hin. cbn. destruct (iv_from _ _ _ _ Hi _ _ Hin) as (Hc0 & _). apply Hlt in Hc0. lia. }
    assert (Hcov : forall x, covers h tss v k x <-> (lo <= x <= hi)%Z).
    { assert (Hdin : forall i, filed h v (k, i) -> date_of tss (k, i) ∈ ti).
      { intros i Hfi'. apply Hfi in Hfi'. unfold ti. rewrite map_map. apply elem_of_list_In, in_map_iff. exists i. split; [done|by apply elem_of_list_In]. }
      assert (Hdout : forall t, t ∈ ti -> exists i, filed h v (k, i) /\ date_of tss (k, i) = t).
      { intros t Ht. unfold ti in Ht. rewrite map_map in Ht. apply elem_of_list_In, in_map_iff in Ht as (i & Et & Hin). exists i. split; [|done]. apply Hfi. by apply elem_of_list_In. }
      intros x. split.
      - intros (i & j & H1 & H2 & Hx). apply Hdin in H1, H2. apply (proj2 Hlo) in H1. apply (proj2 Hhi) in H2. lia.
      - intros Hx. destruct (Hdout lo (proj1 Hlo)) as (i & H1 & E1). destruct (Hdout hi (proj1 Hhi)) as (j & H2 & E2). exists i, j. split_and!; [done|done|lia|lia]. }
    exists (map lift pl). split.
    - eapply merge_sound; [| |exact E]; [apply Hi|apply Hk].
    - intros n. rewrite <-(iv_names _ _ _ _ Hi n), <-!dget_is_Some. pose proof (as_alike _ _ _ _ Has p ltac:(by left)) as (_ & Hn & _). by rewrite (Hn n).
    - intros n w Hw. destruct (as_origin _ _ _ _ Has n w Hw) as (s & w0 & Hs & Hw0 & Hsb).
      assert (Hlk : exists k0 ds rows u, k0 ∈ calls ++ [k] /\ insertion h k0 ds rows /\ supplied c ds n u /\ same_but_records dim (with_delayed (with_attrs u []) (v_delayed w0)) w0).
      { apply elem_of_cons in Hs as [->|[->|Hs]%elem_of_cons]; [| |by apply elem_of_nil in Hs].
        - destruct (iv_like _ _ _ _ Hi n w0 Hw0) as (k0 & ds & rows & u & Hk0 & ?). exists k0, ds, rows, u. split; [apply elem_of_app; by left|done].
        - destruct (iv_like _ _ _ _ Hk n w0 Hw0) as (k0 & ds & rows & u & Hk0 & ?). exists k0, ds, rows, u. split; [apply elem_of_app; by right|done]. }
      destruct Hlk as (k0 & ds & rows & u & Hk0 & Hi0 & Hu & Hsb0). exists k0, ds, rows, u. split_and!; [done..|].
      assert (v_delayed w = v_delayed w0) as -> by (destruct Hsb as [-> _]; done). by eapply same_but_trans.
    - intros n w Hw. pose proof (as_alike _ _ _ _ Has p ltac:(by left)) as (_ & Hn & Hsh). destruct (proj2 (Hn n)) as [w0 Hw0]; [by eexists|].
      destruct (Hsh n w0 w Hw0 Hw) as (Ed & El & Es). destruct (iv_layout _ _ _ _ Hi n w0 Hw0) as (mv & Hmv & Ed0 & Hsz0). exists mv. split; [done|]. split; [congruence|].
      intros j d Hj Hd'. rewrite Ed in Hj. rewrite Es by congruence. by apply Hsz0.
    - intros n w rs Hw Hrs. pose proof (as_records _ _ _ _ Has n w rs Hw Hrs) as H2. 
      enough (G : forall l l', Forall2 (record_at dim [p; piece] n) l l' -> (forall o, o ∈ l -> o ∈ pl) -> Forall2 (record_of c h n) (map lift l) l') by (by apply G).
      intros l l' HF. induction HF as [|o a l l' Ho _ IH]; intros Hsub; cbn [map]; constructor; [|apply IH; intros o' Ho'; apply Hsub; by right].
      destruct Ho as (s & w0 & rs0 & Hs & Hw0 & Hrs0 & Ha). destruct (Hrange o (Hsub o ltac:(by left))) as [(i & x & -> & Hx & ->)|(i & x & -> & Hx & ->)]; cbn in Hs, Ha; injection Hs as <-.
      + pose proof (iv_records _ _ _ _ Hi _ _ _ Hw0 Hrs0) as H3. destruct (Forall2_lookup_r _ _ _ _ _ H3 Ha) as (y & Hy & Hry). assert (y = x) as <- by congruence. done.
      + pose proof (iv_records _ _ _ _ Hk _ _ _ Hw0 Hrs0) as H3. destruct (Forall2_lookup_r _ _ _ _ _ H3 Ha) as (y & Hy & Hry).
        change (map ?f ?l) with (f <$> l) in Hy. rewrite list_lookup_fmap, Hx in Hy. injection Hy as <-. done.
    - rewrite Edates. destruct (sources_ok dim axis p piece te ti Hm) as (A1 & A2 & A3). by eapply assembled_series.
    - intros E0. apply map_eq_nil in E0. specialize (Hins 0). rewrite E0 in Hins. assert (0 < length ti) by (destruct ti; [done|cbn; lia]). by apply Hins, elem_of_nil in H.
    - by rewrite Edates.
    - change (map lift pl) with (lift <$> pl). apply NoDup_fmap_2_strong; [|done]. intros o o' Ho Ho' Eo.
      destruct (Hrange o Ho) as [(i & x & -> & Hx & E1)|(i & x & -> & Hx & E1)], (Hrange o' Ho') as [(i' & x' & -> & Hx' & E2)|(i' & x' & -> & Hx' & E2)]; rewrite E1, E2 in Eo.
      + subst x'. f_equal. by eapply (NoDup_lookup plan); [apply Hi|..].
      + exfalso. apply elem_of_list_lookup_2 in Hx. apply Hnk in Hx. subst x. done.
      + exfalso. apply elem_of_list_lookup_2 in Hx'. apply Hnk in Hx'. subst x'. done.
      + injection Eo as <-. f_equal. by eapply (NoDup_lookup ps).
    - intros k0 i Hin. apply Hplan_lift in Hin as [(q & Hq & Hin)|(q & y & Hq & [= -> ->] & _)].
      + pose proof (elem_of_list_lookup_2 _ _ _ Hq) as Hq'. destruct (iv_from _ _ _ _ Hi _ _ Hq') as (H1 & H2 & H3). split; [apply elem_of_app; by left|]. split; [done|].
        intros k' Hk' Hlt'. apply elem_of_app in Hk' as [Hk'| ->%elem_of_list_singleton]; [by apply H3|]. rewrite Hcov. pose proof (Hout q Hin) as Hno.
        assert (nth q te 0%Z = date_of tss (k0, i)) as Eq by (apply nth_lookup_Some; unfold te; rewrite list_lookup_map; by rewrite Hq).
        by rewrite <-Eq.
      + split; [apply elem_of_app; right; by left|]. split; [apply Hfi; by eapply elem_of_list_lookup_2|].
        intros k' Hk' Hlt'. apply elem_of_app in Hk' as [Hk'| ->%elem_of_list_singleton]; [|lia]. apply Hlt in Hk'. lia.
    - intros k0 i Hin Hfi0 Hno. apply Hplan_lift. apply elem_of_app in Hin as [Hin| ->%elem_of_list_singleton].
      + left. assert (Hp : ((k0, i) : origin) ∈ plan).
        { apply (iv_all _ _ _ _ Hi); [done|done|]. intros k' Hk' Hlt'. apply Hno; [apply elem_of_app; by left|done]. }
        apply elem_of_list_lookup in Hp as [q Hq]. exists q. split; [done|]. apply Hex.
        assert (nth q te 0%Z = date_of tss (k0, i)) as Eq by (apply nth_lookup_Some; unfold te; rewrite list_lookup_map; by rewrite Hq).
        split; [unfold te; rewrite map_length; by eapply lookup_lt_Some|]. rewrite Eq.
        destruct (Hno k) as [N1 N2]; [apply elem_of_app; right; by left|by apply Hlt|]. rewrite Hcov in N1, N2. assert (lo <= hi)%Z by (apply Hhi, Hlo). lia.
      + right. apply Hfi in Hfi0. apply elem_of_list_lookup in Hfi0 as [q Hq]. exists q, i. split_and!; [done|done|]. apply Hins. unfold ti. rewrite !map_length. by eapply lookup_lt_Some.
  Qed.

  (** ** Histories *)
  Lemma piece_step v k ds rows merge np va scheds inner part old new calls :
    h !! k = Some (Insert ds rows merge np va scheds inner) -> v ∈ rows -> fitted c (moving c) ds part -> replaced c merge (d_delayed ds) rows part v old new ->
    (forall k', k' ∈ calls -> k' < k) -> match old with None => calls = [] | Some p => exists plan, inv v calls plan p end ->
    exists plan, inv v (calls ++ [k]) plan new.
  Proof using Hr Hc Hal Hti.
    intros Hk Hv Hf (ps & piece & Hps & Hs & Hrd & Hm) Hlt Hold.
    pose proof (piece_inv v k ds rows merge np va scheds inner Hk part piece ps Hf Hps Hs Hrd Hv) as Hpi.
    destruct (Hti _ _ _ _ _ _ _ _ Hk) as (-> & _). cbn [merged] in Hm. destruct old as [p|].
    - destruct Hold as [plan Hi]. destruct Hm as (o & Ho & Hm).
      destruct (inv_read v calls plan p piece (d_delayed ds) o Hi Ho (storable_proper _ (sound_storable _ Hs))) as [Hi' Hd].
      eapply (inv_merge v calls plan _ k ps piece new Hi' Hpi); [|done|by eapply piece_filed|by eapply ps_nodup|exact Hm].
      rewrite Hd. destruct Hrd as (_ & _ & _ & _ & ->). apply Hf.
    - subst. by eexists.
  Qed.
  Lemma filed_app h1 h2 v k i : k < length h1 -> filed (h1 ++ h2) v (k, i) <-> filed h1 v (k, i).
  Proof using Type.
    intros Hl. split; intros (ds & rows & (m & np & va & sc & inn & Hi) & Hx); exists ds, rows; (split; [|done]); exists m, np, va, sc, inn; cbn [fst] in *.
    - by rewrite lookup_app_l in Hi.
    - by rewrite lookup_app_l.
  Qed.
  Lemma filed_lt h1 v k i : filed h1 v (k, i) -> k < length h1.
  Proof using Type. intros (ds & rows & (m & np & va & sc & inn & Hi) & _). cbn [fst] in Hi. by eapply lookup_lt_Some. Qed.
  Lemma counted_same h1 rs1 x r v calls : length rs1 = length h1 -> counted c h1 rs1 v calls ->
    (forall k i dirs, filed (h1 ++ [x]) v (k, i) -> r = Ok dirs -> k < length h1) ->
    (forall f older sched, x = Drop f older sched -> (exists k, k ∈ calls) -> ~ touches c (Drop f older sched) r v) -> counted c (h1 ++ [x]) (rs1 ++ [r]) v calls.
  Proof using Type.
    intros Hl [C1 C2 C3] Hnew Hdrop. assert (Hlt : forall k, k ∈ calls -> k < length h1) by (intros k Hk; destruct (C1 k Hk) as [i Hi]; by eapply filed_lt).
    split.
    - intros k Hk. destruct (C1 k Hk) as [i Hi]. exists i. apply filed_app; [by apply Hlt|done].
    - intros k k' f older sched rs' Hk Hkk Hx Hrs. destruct (decide (k' < length h1)) as [L|L].
      + rewrite lookup_app_l in Hx by done. rewrite lookup_app_l in Hrs by lia. by eapply C2.
      + rewrite lookup_app_r in Hx by lia. rewrite lookup_app_r in Hrs by lia. rewrite Hl in Hrs.
        destruct (k' - length h1); [|done]. cbn in Hx, Hrs. injection Hx as Hx. injection Hrs as <-. apply Hdrop; [done|by exists k].
    - intros k i dirs Hfi Hrs Hno. assert (L : k < length h1).
      { destruct (decide (k < length h1)) as [?|L]; [done|]. pose proof (filed_lt _ _ _ _ Hfi) as L'. rewrite app_length in L'. cbn in L'.
        rewrite lookup_app_r in Hrs by lia. replace (k - length rs1) with 0 in Hrs by lia. injection Hrs as ->. by eapply Hnew. }
      apply (C3 k i dirs); [by apply (proj1 (filed_app h1 [x] v k i L))|by rewrite lookup_app_l in Hrs by lia|].
      intros k' f older sched rs' Hkk Hx Hrs'. apply (Hno k' f older sched rs' Hkk).
      + rewrite lookup_app_l; [done|by eapply lookup_lt_Some].
      + rewrite lookup_app_l; [done|by eapply lookup_lt_Some].
  Qed.
  Lemma explains_length h1 rs1 M M' : explains c h1 rs1 M M' -> length rs1 = length h1.
  Proof using Type. induction 1; cbn; congruence. Qed.
  Lemma lines h1 : forall rs1 M h2, h = h1 ++ h2 -> explains c h1 rs1 (fun _ => None) M -> forall v, exists calls, counted c h1 rs1 v calls /\
    match M v with None => calls = [] | Some p => calls <> [] /\ exists plan, inv v calls plan p end.
  Proof using Hr Hc Hal Hti.
    induction h1 as [|x h1 IH] using rev_ind; intros rs1 M h2 Eh Hex v.
    - inversion Hex as [M0 E1 E2 E3|]. exists []. split; [|done]. split; [intros k []%elem_of_nil|intros k k' ? ? ? ? []%elem_of_nil|].
      intros k i dirs Hfi. apply filed_lt in Hfi. cbn in Hfi. lia.
    - pose proof (explains_length _ _ _ _ Hex) as Hlen. rewrite app_length in Hlen. cbn in Hlen.
      destruct (exists_last (l := rs1)) as (rs0 & r & E0); [by destruct rs1; cbn in Hlen; [lia|]|]. rewrite E0 in *. clear E0 rs1. rewrite app_length in Hlen. cbn in Hlen.
      assert (Hl : length rs0 = length h1) by lia.
      apply explains_app in Hex as (M0 & Hex0 & Hex1); [|done].
      assert (Heff : effect c x r M0 M). { inversion Hex1 as [|? ? ? ? ? M1 ? Heff Hnil]. inversion Hnil. congruence. }
      rewrite <-app_assoc in Eh. destruct (IH rs0 M0 ([x] ++ h2) Eh Hex0 v) as (calls & Hct & Hold).
      assert (Hhk : h !! length h1 = Some x) by (rewrite Eh, lookup_app_r, Nat.sub_diag by lia; done).
      assert (Hlt : forall k, k ∈ calls -> k < length h1) by (intros k Hk; destruct (ct_filed _ _ _ _ _ Hct k Hk) as [i Hi]; by eapply filed_lt).
      assert (Hnx : forall k i, filed (h1 ++ [x]) v (k, i) -> k < length h1 \/ k = length h1).
      { intros k i Hi. apply filed_lt in Hi. rewrite app_length in Hi. cbn in Hi. lia. }
      assert (Hlast : forall i, filed (h1 ++ [x]) v (length h1, i) -> exists ds rows m np va sc inn, x = Insert ds rows m np va sc inn /\ v ∈ rows).
      { intros i (ds & rows & (m & np & va & sc & inn & Hi) & Hv). cbn [fst snd] in *. rewrite lookup_app_r, Nat.sub_diag in Hi by lia. injection Hi as ->.
        exists ds, rows, m, np, va, sc, inn. split; [done|]. by eapply elem_of_list_lookup_2. }
      assert (Hidle : M v = M0 v -> (forall dirs ds rows m np va sc inn, r = Ok dirs -> x = Insert ds rows m np va sc inn -> v ∉ rows) ->
        (forall f older sched, x = Drop f older sched -> (exists k, k ∈ calls) -> ~ touches c (Drop f older sched) r v) ->
        exists calls, counted c (h1 ++ [x]) (rs0 ++ [r]) v calls /\ match M v with None => calls = [] | Some p => calls <> [] /\ exists plan, inv v calls plan p end).
      { intros EM Hno Hdr. exists calls. split; [|by rewrite EM]. apply counted_same; [done|done| |done]. intros k i dirs Hfi Er.
        destruct (Hnx k i Hfi) as [?| ->]; [done|]. exfalso. destruct (Hlast i Hfi) as (ds & rows & m & np & va & sc & inn & Ex & Hv). by eapply Hno. }
      assert (Hstep : forall ds rows m np va sc inn part new, x = Insert ds rows m np va sc inn -> v ∈ rows -> fitted c (moving c) ds part -> M v = Some new ->
        replaced c m (d_delayed ds) rows part v (M0 v) new ->
        exists calls, counted c (h1 ++ [x]) (rs0 ++ [r]) v calls /\ match M v with None => calls = [] | Some p => calls <> [] /\ exists plan, inv v calls plan p end).
      { intros ds rows m np va sc inn part new Ex Hv Hf EM Hrep. exists (calls ++ [length h1]). rewrite EM. split.
        - split.
          + intros k Hk. apply elem_of_app in Hk as [Hk| ->%elem_of_list_singleton].
            * destruct (ct_filed _ _ _ _ _ Hct k Hk) as [i Hi]. exists i. apply filed_app; [by apply Hlt|done].
            * apply elem_of_list_lookup in Hv as [i Hi]. exists i, ds, rows. split; [|done]. exists m, np, va, sc, inn. cbn [fst]. by rewrite lookup_app_r, Nat.sub_diag, Ex by lia.
          + intros k k' f older sched rs' Hk Hkk Hx Hrs. assert (L : k' < length h1).
            { destruct (decide (k' < length h1)) as [?|L]; [done|]. rewrite lookup_app_r in Hx by lia. destruct (k' - length h1); [|done]. cbn in Hx. congruence. }
            rewrite lookup_app_l in Hx by done. rewrite lookup_app_l in Hrs by lia. apply elem_of_app in Hk as [Hk| ->%elem_of_list_singleton]; [|lia].
            by eapply (ct_kept _ _ _ _ _ Hct).
          + intros k i dirs Hfi Hrs Hno. destruct (Hnx k i Hfi) as [L| ->]; [|apply elem_of_app; right; by left]. apply elem_of_app. left.
            apply (ct_all _ _ _ _ _ Hct k i dirs); [by apply (proj1 (filed_app h1 [x] v k i L))|by rewrite lookup_app_l in Hrs by lia|].
            intros k' f older sched rs' Hkk Hx Hrs'. apply (Hno k' f older sched rs' Hkk).
            * rewrite lookup_app_l; [done|by eapply lookup_lt_Some].
            * rewrite lookup_app_l; [done|by eapply lookup_lt_Some].
        - split; [by destruct calls|]. rewrite Ex in Hhk. eapply (piece_step v (length h1) ds rows m np va sc inn part (M0 v) new calls Hhk Hv Hf Hrep Hlt).
          destruct (M0 v); [apply Hold|done]. }
      destruct x as [ds rows m np va sc inn|f older sched]; [destruct r as [dirs|ex]|destruct r as [dirs|ex]]; cbn [effect] in Heff.
      + destruct Heff as (part & Hf & H). destruct (H v) as [H1 H2]. destruct (decide (v ∈ rows)) as [Hv|Hv].
        * destruct (H1 Hv) as (new & En & Hrep). by eapply Hstep.
        * apply Hidle; [by apply H2| |done]. by intros ? ? ? ? ? ? ? ? _ [= <- <-].
      + destruct (Heff v) as [E|(Hv & part & new & Hf & En & Hrep)]; [|by eapply Hstep]. by apply Hidle.
      + destruct Heff as (vs & Ed & Hvs & Hrem & _). destruct (Hrem v) as [R1 R2]. destruct (decide (v ∈ vs)) as [Hv|Hv].
        * exists []. rewrite (R1 Hv). split; [|done]. split; [intros k []%elem_of_nil|intros k k' ? ? ? ? []%elem_of_nil|].
          intros k i dirs' Hfi Hrs Hno. exfalso. destruct (Hnx k i Hfi) as [L| ->]; [|by destruct (Hlast i Hfi) as (? & ? & ? & ? & ? & ? & ? & ? & _)].
          apply (Hno (length h1) f older sched (Ok dirs)); [done|by rewrite lookup_app_r, Nat.sub_diag by lia|by rewrite <-Hl, lookup_app_r, Nat.sub_diag by lia|].
          exists dirs. split; [done|]. rewrite Ed. apply elem_of_list_In, in_map. by apply elem_of_list_In.
        * apply Hidle; [by apply R2|done|]. intros f' older' sched' [= <- <- <-] (k & Hk) (dirs' & [= <-] & Hin). rewrite Ed in Hin.
          apply elem_of_list_In, in_map_iff in Hin as (w & Ew & Hw). apply elem_of_list_In in Hw. apply Hv. destruct (decide (w = v)) as [<-|N]; [done|]. exfalso.
          destruct (ct_filed _ _ _ _ _ Hct k Hk) as (i & ds & rows & (m & np & va & sc & inn & Hi) & Hv'). cbn [fst snd] in *.
          assert (Hlv : length v = length (p_keys (c_part c))).
          { assert (Hk' : h !! k = Some (Insert ds rows m np va sc inn)) by (rewrite Eh, lookup_app_l by (by apply Hlt); done).
            eapply record_keys_length; [apply (in_keys _ _ _ _ _ (ins_ok k ds rows m np va sc inn Hk'))|by eapply elem_of_list_lookup_2]. }
          apply (parts_apart c w v (proj2 (Hvs w Hw)) Hlv N (part_dir c w)); [apply under_refl|rewrite Ew; apply under_refl].
      + apply Hidle; [by apply Heff|done|]. intros f' older' sched' _ _ (dirs' & E & _). done.
  Qed.

  (** ** The merges that succeed *)
  Lemma merge_goes v k ds rows merge np va scheds inner part ps piece p o calls plan f :
    h !! k = Some (Insert ds rows merge np va scheds inner) -> merge = Some f -> v ∈ rows -> fitted c (moving c) ds part -> positions_of rows v ps -> sound piece -> reduced dim part ps piece ->
    (forall k', k' ∈ calls -> k' < k) -> inv v calls plan p -> reads_as (d_delayed ds) None p o -> not_next h tss k v ->
    exists new, f (ds_copy_properties o piece) piece axis dim = Ok new.
  Proof using Hr Hc Hal Hti.
    intros Hk Em Hv Hf Hps Hs Hrd Hlt Hi Ho Hno.
    pose proof (piece_inv v k ds rows merge np va scheds inner Hk part piece ps Hf Hps Hs Hrd Hv) as Hpi.
    destruct (Hti _ _ _ _ _ _ _ _ Hk) as (Em' & _). assert (f = by_time res) as -> by congruence.
    destruct (inv_read v calls plan p piece (d_delayed ds) o Hi Ho (storable_proper _ (sound_storable _ Hs))) as [Hi' Hd].
    set (te := map (date_of tss) plan). set (ti := map (date_of tss) (map (pair k) ps)).
    assert (Hm : mergeable dim axis (ds_copy_properties o piece) piece te ti).
    { split_and!; try apply Hi'; try apply Hpi. eapply inv_alike; [exact Hi'|exact Hpi|]. rewrite Hd. destruct Hrd as (_ & _ & _ & _ & ->). apply Hf. }
    assert (Ni : ti <> []) by (intros E0; apply map_eq_nil in E0; by apply (iv_ne _ _ _ _ Hpi)).
    assert (Ne : te <> []) by (intros E0; apply map_eq_nil in E0; by apply (iv_ne _ _ _ _ Hi)).
    destruct (first_date_exists ti Ni) as [lo Hlo]. destruct (last_date_exists ti Ni) as [hi Hhi].
    assert (Hfi : forall i, filed h v (k, i) <-> i ∈ ps) by (by eapply piece_filed).
    destruct (C11_kept_partial dim axis res (ds_copy_properties o piece) piece te ti lo hi Hm (iv_order _ _ _ _ Hi) (iv_order _ _ _ _ Hpi) Ne Ni Hlo Hhi) as (out & E & _); [|by exists out].
    intros Hin. unfold te in Hin. apply elem_of_list_In, in_map_iff in Hin as ([k' i] & Ed & Hin). apply elem_of_list_In in Hin.
    destruct (iv_from _ _ _ _ Hi _ _ Hin) as (Hc' & Hfk & _). destruct Hhi as [Hh1 Hh2]. unfold ti in Hh1. rewrite map_map in Hh1.
    apply elem_of_list_In, in_map_iff in Hh1 as (j & Ej & Hj). apply elem_of_list_In in Hj. apply (Hno k' i j); [by apply Hlt|done|by apply Hfi| |lia].
    intros j' Hj'. apply Hfi in Hj'. rewrite Ej. apply Hh2. unfold ti. rewrite map_map. apply elem_of_list_In, in_map_iff. exists j'. split; [done|by apply elem_of_list_In].
  Qed.
End series.
