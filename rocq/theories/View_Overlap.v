(** * Writing the variables of a view, with the data of the neighbours *)
From Verif Require Import Py Dict NdArray_Model NdArray_Spec NdArray_Proofs Dataset_Model Dataset_Spec Dataset_Proofs Dataset_Props2 Assemble_Proofs
  Meta_Model PartPath_Model PartPath_Proofs Split_Spec DaskUtils_Model DaskUtils_Proofs Dataset_Concat FS_Model FS_Proofs Pool_Model Pool_Proofs
  Storage_Model Storage_Spec Storage_Chunks Storage_Proofs Storage_Change
  Listing_Model Listing_Spec Listing_Proofs Collection_Model Collection_Spec Collection_Proofs Collection_State Collection_Select Collection_Load
  Update_Model Update_Spec Update_State Update_Proofs Overlap_Proofs UpdateOverlap_Spec UpdateOverlap_Proofs
  View_Model View_Spec View_State View_Proofs View_Sync View_Vars View_Props2 View_Load View_Map View_Update.

Lemma split_unique {A} (x : A) pre post pre' post' : NoDup (pre ++ x :: post) -> pre ++ x :: post = pre' ++ x :: post' -> pre' = pre /\ post' = post.
Proof.
  revert pre'. induction pre as [|y pre IH]; intros [|y' pre'] Hnd E; cbn in *.
  - by injection E as ->.
  - injection E as <- ->. inversion Hnd as [|? ? Hn _]; subst. exfalso. apply Hn, elem_of_app. right. left.
  - injection E as -> <-. inversion Hnd as [|? ? Hn _]; subst. exfalso. apply Hn, elem_of_app. right. left.
  - injection E as -> E. inversion Hnd; subst. destruct (IH pre') as [-> ->]; done.
Qed.
Lemma held_unique {A D} (Q : A -> option D) xs ds ds' : Forall2 (fun x d => Q x = Some d) xs ds -> Forall2 (fun x d => Q x = Some d) xs ds' -> ds' = ds.
Proof. intros H. revert ds'. induction H as [|x d xs ds Hx _ IH]; intros ds' H'; inversion H'; subst; [done|]. f_equal; [congruence|by apply IH]. Qed.

(** The values that are written, as they are specified. *)
Lemma written_updated c f delayed sel trim before old after ds range l0 l : sound old -> seen_around (c_dim c) delayed sel before old after ds range ->
  cb_call f ds (if cb_info f then Some (c_dim c, range) else None) = Ok l0 ->
  Forall2 (fun nr na => na.1 = nr.1 /\ exists v0 y, dget (d_vars old) nr.1 = Some v0 /\ written c trim ds range old nr y /\ vd_wf y /\ na.2 = to_store (v_fill v0) y) (dict_of l0) l ->
  updated_around (c_dim c) delayed sel trim f before old after (assign_all old l).
Proof.
  intros Hso Hsee Ecb Hok.
  assert (exists vals kept, valued ds (dict_of l0) vals /\ kept_values (c_dim c) trim range old vals kept /\ Forall2 (fun (nx : str * vdata) (na : str * arr) => na.1 = nx.1 /\ exists v0, dget (d_vars old) nx.1 = Some v0 /\ vd_wf nx.2 /\ na.2 = to_store (v_fill v0) nx.2) kept l) as (vals & kept & Hvals & Hkept & Has).
  { clear -Hok Hso. induction Hok as [|nr na todo xs (En & v0 & y & Ev0 & (x & Ex & Hxy) & Hwf & Ena) _ (vals & kept & H1 & H2 & H3)].
    - exists [], []. split_and!; [constructor| |constructor]. unfold kept_values. destruct trim; [constructor|done].
    - exists ((nr.1, x) :: vals), ((nr.1, y) :: kept). split_and!.
      + by constructor.
      + unfold kept_values in *. destruct trim.
        * constructor; [|done]. split; [done|]. destruct Hxy as (v1 & key & Ev1 & Ek & Hwx & Ey). cbn [fst snd].
          destruct (trim_ok v1 (c_dim c) range key x y) as (ax & Hax & Htr & _); [|done..|].
          { eapply sound_dims; [exact Hso|]. eapply vals_elem. by apply dget_elem. }
          by exists v1, ax.
        * by subst.
      + constructor; [|done]. split; [done|]. exists v0. done. }
  exists ds, range, l0, vals, kept. split_and!; try done. apply assigned_all; [apply Hso|done].
Qed.

Section around.
  Context (v : venv) (w : view) (Hw : viewable v w) (M : list Z -> option dataset) (I : option dataset) (V0 : list Z -> option vpart) (s0 : store).
  Context (Hsh0 : shown v w M I V0 s0) (Hu : uniform (w_ref w) M I).
  Context (sel : option (list str)) (f : update_callback) (Hsane : sane f) (Hck : ~ returned f CHECKSUM) (Hcov : covers w sel).
  Context (Hmo : forall x ds, M x = Some ds -> made_of (w_ref w) ds) (o_at : list Z -> dataset) (trim : bool) (depth : nat) (Hpos : 0 < depth).
  Context (vs : list (list Z)) (Hvs : NoDup vs) (Htwo : length vs <> 1).
  Context (Hop : forall x, x ∈ vs -> exists ds p, M x = Some ds /\ V0 x = Some p /\ opens false sel (combined ds p) (o_at x)).
  Local Notation c := (w_ref w).
  Local Notation keys := (p_keys (c_part c)).
  Local Notation kd := (key_dirs (c_part c)).
  Local Notation dim := (c_dim c).
  Local Notation item := (vitem w o_at).
  Local Notation held := (Forall2 (fun x d => data_at M V0 x = Some d)).

  Definition apre (x : list Z) (old : vpart) : Prop := V0 x = Some old.
  Definition arel (x : list Z) (old new : vpart) (r : res unit) : Prop :=
    vp_axis new = vp_axis old /\ forall ds, M x = Some ds -> at_most (returned f) (combined ds old) (combined ds new) /\
      forall pre post before after, vs = pre ++ x :: post -> held (drop (length pre - depth) pre) before -> held (take depth post) after ->
        match r with
        | Ok _ => updated_around dim false sel trim f before (combined ds old) after (combined ds new)
        | Raise _ => (forall n, returned f n -> n ∈ dkeys (md_vars (w_meta w))) -> ~ works_around dim false sel trim f before (combined ds old) after
        end.

  Lemma held_opens ys : (forall y, y ∈ ys -> y ∈ vs) -> exists ds, held ys ds /\ Forall2 (opens false sel) ds (map o_at ys).
  Proof using Hop.
    induction ys as [|y ys IH]; intros H; [exists []; split; constructor|]. destruct (Hop y) as (d & p & HM & HV & Ho); [apply H; left|]. destruct IH as (ds & H1 & H2); [intros z Hz; apply H; by right|].
    exists (combined d p :: ds). split; [constructor; [unfold data_at; by rewrite HM, HV|done]|]. cbn [map]. by constructor.
  Qed.

  Lemma around_does x : x ∈ vs -> acts (shown v w M I) apre (fun x => [x]) (fun x => view_update_overlap w false (Z.of_nat depth) sel trim f (map item vs) (item x)) arel (vregion_one w f) x.
  Proof using All.
    intros Hin V s Hs Hsome. destruct (Hsome x ltac:(left)) as (p & Hx & HV0). clear Hsome. unfold apre in HV0.
    destruct (Hop x Hin) as (ds0 & p' & HM & HV0' & Hopx). assert (p' = p) as -> by congruence. clear HV0'.
    destruct (rp_part _ _ _ _ (sh_ref _ _ _ _ _ _ Hs) _ _ HM) as (Hl & Hso & _). destruct (hw_part _ _ _ _ (sh_view _ _ _ _ _ _ Hs) _ _ Hx) as (_ & Hk).
    pose proof (sh_agrees _ _ _ _ _ _ Hs x ds0 p HM Hx) as Hag. pose proof (Hmo _ _ HM) as Hm.
    set (old := combined ds0 p) in *.
    assert (Hold : data_at M V0 x = Some old) by (unfold data_at; by rewrite HM, HV0).
    assert (Hsold : sound old) by (by apply (combined_sound v w Hw ds0 p s x Hso Hm Hk Hag)).
    assert (Hpr : proper old) by apply Hsold.
    assert (Hnames : forall n, n ∈ dkeys (vp_vars p) -> dget (d_vars ds0) n = None).
    { intros n Hn. apply dget_is_Some in Hn as [a Ha]. by destruct (part_name v w Hw ds0 p s x Hm Hk n a Ha) as (_ & _ & ?). }
    assert (Hnd0 : NoDup (dkeys (d_vars ds0))) by apply Hso.
    assert (Hlk : forall l n, vfits p l -> n ∈ dkeys l -> dget (d_vars ds0) n = None).
    { intros l n Hf Hn. apply dget_is_Some in Hn as [a Ha]. destruct (Hf n a Ha) as (_ & y & Ey & _). apply Hnames, dget_is_Some. by eexists. }
    assert (Ecomb : forall l, vfits p l -> combined ds0 (vassign p l) = assign_all old l) by (intros l Hf; apply combined_vassign; [intros n; by apply Hlk|done]).
    assert (Hfits : forall l, vfits p l -> Update_State.fits old l) by (intros l; by apply vfits_fits).
    assert (Hvget : forall n a, dget (vp_vars p) n = Some a -> dget (d_vars old) n = Some (with_delayed a (d_delayed ds0))).
    { intros n a Ha. unfold old. rewrite part_get, Hnames, Ha; [done|]. apply dget_is_Some. by eexists. }
    (* the data of the neighbours *)
    destruct (elem_of_list_split _ _ Hin) as (pre & post & Evs).
    destruct (held_opens pre) as (pres & Hpre & Hopre); [intros y Hy; rewrite Evs; apply elem_of_app; by left|].
    destruct (held_opens post) as (posts & Hpost & Hopost); [intros y Hy; rewrite Evs; apply elem_of_app; right; by right|].
    set (before := drop (length pre - depth) pres). set (after := take depth posts).
    assert (Hbefore : held (drop (length pre - depth) pre) before) by (by apply Forall2_drop). assert (Hafter : held (take depth post) after) by (by apply Forall2_take).
    assert (Hwin : forall pre' post' before' after', vs = pre' ++ x :: post' -> held (drop (length pre' - depth) pre') before' -> held (take depth post') after' -> before' = before /\ after' = after).
    { intros pre' post' before' after' E H1 H2. destruct (split_unique x pre post pre' post') as [-> ->]; [by rewrite <-Evs|by rewrite <-Evs|].
      split; [exact (held_unique _ _ _ _ Hbefore H1)|exact (held_unique _ _ _ _ Hafter H2)]. }
    destruct (select_overlap_ok v w M I V0 s0 Hw (sh_ref _ _ _ _ _ _ Hsh0) Hu Hmo (sh_view _ _ _ _ _ _ Hsh0) (sh_agrees _ _ _ _ _ _ Hsh0) false sel Hcov depth pre x post pres old posts (map o_at pre) (o_at x) (map o_at post))
      as (ds & range & Esel & Hsee); try done.
    { by rewrite <-Evs. }
    { destruct pre; [|by left]. destruct post; [|by right]. exfalso. apply Htwo. by rewrite Evs. }
    assert (Hsnd : map snd (map item vs) = zip (map o_at pre ++ o_at x :: map o_at post) (map kd (pre ++ x :: post))).
    { rewrite map_map. change (o_at x :: map o_at post) with (map o_at (x :: post)). rewrite <-map_app, <-Evs. clear. induction vs as [|y ys IH]; [done|]. cbn. f_equal. exact IH. }
    fold before after in Hsee. pose proof (sa_proper _ _ _ _ _ _ _ _ Hsee) as Hpds.
    assert (Hhd : exists y, data_at M V0 y = Some (hd old before)).
    { clear Esel Hsee Hwin. inversion Hbefore as [E1 E2|y d ys ds' Hy _ E1 E2]; [by exists x|by exists y]. }
    destruct Hhd as [wh Hwh].
    assert (Hlay : same_layout dim (hd old before) old).
    { eapply (data_layout v w M I V0 s0 Hw (sh_ref _ _ _ _ _ _ Hsh0) Hu Hmo (sh_view _ _ _ _ _ _ Hsh0) (sh_agrees _ _ _ _ _ _ Hsh0)); done. }
    set (prog := view_update_overlap w false (Z.of_nat depth) sel trim f (map item vs) (item x)).
    assert (Hfin : forall r s' l, exec prog s = (r, s') -> vfits p l ->
       shown v w M I (set_at V x (vassign p l)) s' -> arel x p (vassign p l) r ->
       (forall q, ~ vregion_one w f x q -> s' !! q = s !! q) ->
       exists r s' V', exec prog s = (r, s') /\ shown v w M I V' s' /\ (forall y, y ∉ [x] -> V' y = V y) /\
        (forall y old, y ∈ [x] -> V y = Some old -> exists new, V' y = Some new /\ (new = old /\ is_ok r = false \/ exists ry, arel y old new ry /\ (r = Ok tt -> ry = Ok tt))) /\
        (forall ex, r = Raise ex -> exists y old new, y ∈ [x] /\ V y = Some old /\ arel y old new (Raise ex)) /\
        forall q, (forall y, y ∈ [x] -> ~ vregion_one w f y q) -> s' !! q = s !! q).
    { intros r s' l E Hf Hs' Hrel Hout. exists r, s', (set_at V x (vassign p l)). split_and!; try done.
      - intros y Hy. unfold set_at. rewrite decide_False; [done|]. intros ->. apply Hy. left.
      - intros y old' Hy Hold'. apply elem_of_list_singleton in Hy as ->. assert (old' = p) as -> by congruence. exists (vassign p l).
        split; [unfold set_at; by rewrite decide_True|]. right. by exists r.
      - intros ex ->. exists x, p, (vassign p l). split; [left|done].
      - intros q Hq. apply Hout. apply Hq. left. }
    assert (Hsame : shown v w M I (set_at V x (vassign p [])) s).
    { apply (shown_ext v w M I V); [|done]. intros y. unfold set_at. rewrite vassign_nil. destruct (decide (y = x)) as [->|]; [by rewrite Hx|done]. }
    unfold prog, view_update_overlap in *. cbv zeta in *. cbn [vitem fst snd] in *. rewrite exec_bind in *. cbn [exec] in *. rewrite Hsnd, Esel in *. rewrite exec_bind in *.
    set (info := if cb_info f then Some (dim, range) else None).
    assert (Ecw : call_with f ds (dim, range) = cb_call f ds info) by (unfold call_with, info; by destruct (cb_info f)). rewrite Ecw in *. cbn [exec] in *.
    destruct (cb_call f ds info) as [l0|ex] eqn:Ecb; cbn [call_dict rbind] in *.
    2:{ apply (Hfin (Raise ex) s []); [done|done|done| |done]. rewrite vassign_nil. split; [done|]. intros ds1 HM'. assert (ds1 = ds0) as -> by congruence. fold old. split; [by apply at_most_refl|].
        intros pre' post' before' after' E H1 H2 _ Hwk. destruct (Hwin _ _ _ _ E H1 H2) as [-> ->]. destruct (Hwk ds range Hsee) as (l & El & _). change (cb_call f ds info = Ok l) in El. congruence. }
    set (todo := dict_of l0) in *. set (reload := let! di <- _; pret di.1) in *.
    set (body := fun nr : str * result => _) in *.
    assert (Hin0 : forall nr, nr ∈ todo -> nr ∈ l0) by (intros [n r] Hnr; apply dict_of_elem, elem_dget; [apply dict_of_NoDup|done]).
    assert (Hret : forall m, m ∈ dkeys todo -> returned f m) by (intros m Hm'; exists ds, info, l0; split; [done|by apply dict_of_keys]).
    assert (Hnck : CHECKSUM ∉ dkeys todo) by (intros H; by apply Hck, Hret).
    assert (Hev : forall nr s2, nr ∈ todo -> exec (evaluate reload false ds nr.2) s2 = (value ds nr.2, s2) /\ forall y, value ds nr.2 = Ok y -> vd_wf y).
    { intros [n r] s2 Hnr. cbn [snd]. split; [|intros y Hy; exact (Hsane ds info l0 n r Hpds Ecb (Hin0 _ Hnr) ds y Hpds Hy)]. by destruct r. }
    assert (Evd : forall n : str, w_dir w ++ kd x ++ [n] = vdir w x ++ [n]) by (intros n; unfold vdir; by rewrite <-app_assoc).
    (* what is written *)
    assert (Hwr : forall nr s2, nr ∈ todo -> (exists ex, exec (body nr) s2 = (Raise ex, s2)) \/
       exists array r, exec array s2 = (r, s2) /\ exec (body nr) s2 = exec (update_zarr_array (vdir w x ++ [nr.1]) array) s2 /\ forall y, r = Ok y -> vd_wf y /\ written c trim ds range old nr y).
    { intros nr s2 Hnr. destruct (Hev nr s2 Hnr) as [E Hwf]. unfold body. clear body Hfin. rewrite Evd. destruct trim.
      - rewrite exec_bind. cbn [exec]. destruct (get_var ds nr.1) as [a|ex] eqn:Ea; [|left; by exists ex]. rewrite exec_bind. cbn [exec].
        destruct (get_slices a dim range) as [key|ex] eqn:Ek; [|left; by exists ex]. right.
        exists (let! y <- evaluate reload false ds nr.2; Ret (vd_index key y)). rewrite exec_bind, E.
        destruct (value ds nr.2) as [y|ex] eqn:Ey; [|eexists; split; [reflexivity|]; split; [done|done]]. cbn [exec]. exists (vd_index key y). split; [done|]. split; [done|]. intros z Ez.
        unfold get_var in Ea. destruct (dget (d_vars ds) nr.1) as [a'|] eqn:Ea'; [|done]. injection Ea as ->.
        destruct (sa_vars _ _ _ _ _ _ _ _ Hsee nr.1 a Ea') as (vp & Evp & Hsb).
        assert (exists v0, dget (d_vars old) nr.1 = Some v0) as [v0 Ev0] by (apply dget_is_Some, (proj1 Hlay), dget_is_Some; by eexists).
        assert (Hdw : v_dims a = v_dims v0) by (destruct Hsb as (S1 & _); rewrite S1; cbn; by destruct (proj2 Hlay nr.1 vp v0 Evp Ev0)).
        destruct (trim_ok a dim range key y z) as (ax & Hax & Htr & Hwy); [|done|by apply Hwf|done|].
        { rewrite Hdw. eapply sound_dims; [exact Hsold|]. eapply vals_elem. by apply dget_elem. }
        split; [done|]. exists y. split; [done|]. exists v0, key. split; [done|]. unfold get_slices in *. rewrite <-Hdw. split; [done|]. split; [by apply Hwf|done].
      - right. eexists _, _. split; [exact E|]. split; [done|]. intros y Ey. split; [by apply Hwf|]. by exists y. }
    destruct (view_loop v w Hw M I V x p (dkeys todo) body (written c trim ds range old) Hnck todo [] s)
      as (r & s' & xs & E & Hf & Hs' & Hout & k & Hxs & Hkk).
    { cbn [app dkeys map]. apply dict_of_NoDup. }
    { done. }
    { done. }
    { done. }
    { intros nr Hnr l s1 Hf Hml Hs1. by apply Hwr. }
    cbn [app] in *.
    assert (Hdk : forall n, n ∈ dkeys xs -> n ∈ dkeys todo).
    { intros n Hn. apply elem_of_list_In, in_map_iff in Hn as ([n' a] & <- & Hin'). apply elem_of_list_In in Hin'. apply elem_of_list_lookup in Hin' as [i Hi'].
      destruct (Forall2_lookup_r _ _ _ _ _ Hxs Hi') as ([n2 r2] & Hl2 & E2 & _). cbn in E2. subst n2. apply elem_of_list_lookup_2 in Hl2.
      apply elem_of_take in Hl2 as (j & Hj & _). apply elem_of_list_lookup_2 in Hj. apply elem_of_list_In, in_map_iff. exists (n', r2). split; [done|]. by apply elem_of_list_In. }
    apply (Hfin r s' xs E Hf Hs').
    - split; [done|]. intros ds1 HM'. assert (ds1 = ds0) as -> by congruence. fold old. rewrite (Ecomb xs Hf). split.
      { apply at_most_assign; [done|by apply Hfits|]. intros n Hn. apply Hret, Hdk, Hn. }
      intros pre' post' before' after' E' H1 H2. destruct (Hwin _ _ _ _ E' H1 H2) as [-> ->]. clear E' H1 H2 Hwin. destruct r as [[]|ex].
      + subst k. rewrite take_ge in Hxs by lia. apply (written_updated c f false sel trim before old after ds range l0 xs Hsold Hsee Ecb).
        eapply Forall2_impl; [exact Hxs|]. cbv beta. intros nr na (En & a & y & Ha & Hy & Hwf & Ena & _). split; [done|]. exists (with_delayed a (d_delayed ds0)), y. split; [by apply Hvget|done].
      + intros Hret' Hwk. destruct (Hwk ds range Hsee) as (l' & El' & Hall). change (cb_call f ds info = Ok l') in El'. assert (l' = l0) as -> by congruence.
        destruct Hkk as ([n rr] & l & s1 & Hnr & Hfl & Hml & Hs1 & Eb). destruct (Hall n rr (Hin0 _ Hnr)) as (v0 & y & Ev0 & Hne & Ey & Hsh).
        assert (Hnl : n ∉ dkeys l) by (intros Hn; by apply (Hml n) in Hn as [_ ?]).
        assert (Hnt : n ∈ dkeys todo) by (apply elem_of_list_In, in_map_iff; exists (n, rr); split; [done|by apply elem_of_list_In]).
        assert (Hn1 : n <> CHECKSUM) by (intros ->; by apply Hnck).
        assert (Hnp : n ∈ dkeys (vp_vars p)) by (by apply (kt_same _ _ _ _ Hk), Hret', Hret).
        apply dget_is_Some in Hnp as [a Ha]. rewrite (Hvget n a Ha) in Ev0. injection Ev0 as <-.
        destruct (Hev (n, rr) s1 Hnr) as [Eev Hwf]. cbn [snd] in Eev, Hwf. specialize (Hwf y Ey).
        assert (exists array z, exec array s1 = (Ok z, s1) /\ exec (body (n, rr)) s1 = exec (update_zarr_array (vdir w x ++ [n]) array) s1 /\ vd_wf z /\ vd_shape z = v_shape a) as (array & z & Ea & Eb' & Hwz & Hsz).
        { unfold body. clear body Hfin Hwr E Eb Hxs Hs' Hout. cbn [fst snd]. rewrite Evd. destruct trim.
          - destruct Hsh as (Hdim & w0 & Ew0 & Hsh). destruct (trim_shape _ _ _ _ _ _ _ _ n w0 _ Hsee Hlay (sound_dims _ Hsold) Ew0 (Hvget n a Ha) Hdim) as (Ed & Hlen & ax & Hax & Hrg & Hins).
            assert (Hnd : NoDup (v_dims w0)) by (rewrite Ed; eapply sound_dims; [exact Hsold|]; eapply vals_elem; apply dget_elem; exact (Hvget n a Ha)).
            destruct (trim_works w0 dim ax range y) as (key & z & Ek & Ez & Hz); [done|done|by rewrite Hsh|done|by rewrite Hsh|].
            exists (let! y0 <- evaluate reload false ds rr; Ret (vd_index key y0)), z. split; [rewrite exec_bind, Eev, Ey; cbn [exec]; by rewrite Ez|].
            split; [rewrite exec_bind; unfold get_var; rewrite Ew0; cbn [exec]; rewrite exec_bind, Ek; done|].
            split; [by destruct (trim_ok w0 dim range key y z Hnd Ek Hwf Ez) as (_ & _ & _ & ?)|]. rewrite Hz, Hsh. exact Hins.
          - exists (evaluate reload false ds rr), y. split; [by rewrite Eev, Ey|]. done. }
        destruct (view_variable v w Hw M I V s1 x p l n array (Ok z) Hs1 Hfl Hnl Hn1 Ea ltac:(by intros ? [= <-])) as (r' & s2 & E' & _ & Hok).
        rewrite Eb', E' in Eb. cbn in Eb. subst r'. by specialize (Hok a z Ha eq_refl Hne Hsz).
    - intros q Hq. apply Hout. intros n Hn Un. apply Hq. exists n. split; [|done]. by apply Hret.
  Qed.

  Lemma within_around x : within (under (c_dir c)) (under (vdir w x)) (view_update_overlap w false (Z.of_nat depth) sel trim f (map item vs) (item x)).
  Proof using.
    unfold view_update_overlap. cbv zeta. apply within_bind; [done|]. intros [ds ix]. apply within_bind; [done|]. intros l. apply within_pfor. intros [n r] _. cbn [fst snd vitem].
    assert (Hwd : forall q, under (w_dir w ++ kd x ++ [n]) q -> under (vdir w x) q) by (intros q Hq; eapply under_trans; [|exact Hq]; rewrite app_assoc; apply under_app).
    destruct trim.
    - apply within_bind; [done|]. intros a. apply within_bind; [done|]. intros key. apply within_update_array; [done|]. apply within_bind; [by destruct r|]. by intros.
    - apply within_update_array; [done|]. by destruct r.
  Qed.
End around.
