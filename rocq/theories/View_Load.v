(** * Loading a view *)
From Verif Require Import Py Dict NdArray_Model NdArray_Spec NdArray_Proofs Dataset_Model Dataset_Spec Dataset_Proofs Dataset_Props2 Assemble_Proofs
  Meta_Model Meta_Spec Meta_Props PartPath_Model PartPath_Proofs Split_Spec FS_Model FS_Proofs Pool_Model Pool_Proofs
  Storage_Model Storage_Spec Storage_Chunks Storage_Proofs
  Listing_Model Listing_Spec Listing_Proofs Collection_Model Collection_Spec Collection_Proofs Collection_State Collection_Select Collection_Load Update_Model Update_Spec Index_Model Index_Spec Index_Proofs Index_Load Overlap_Proofs Dataset_Concat Assemble_Spec Dataset_Main
  View_Model View_Spec View_State View_Proofs View_Sync View_Init View_Vars View_Props2.

(** ** Variables put in a dataset *)
Lemma stored_tidy a : NoDup (dkeys (v_attrs a)) -> DIMENSIONS ∉ dkeys (v_attrs a) -> stored a = a.
Proof. intros Hn Hd. unfold stored. rewrite dict_of_id by done. rewrite ddel_notin by done. by destruct a. Qed.

Lemma add_one o x : v_delayed x = d_delayed o -> sized (d_dims o) x -> v_name x ∉ dkeys (d_vars o) ->
  ds_add_variable o (v_metadata x) (Some (v_array x)) = Ok (with_vars o (d_vars o ++ [(v_name x, x)])).
Proof.
  intros Hd Hs Hn. unfold ds_add_variable. change (mv_dims (v_metadata x)) with (v_dims x). change (mv_name (v_metadata x)) with (v_name x).
  rewrite (proj2 (forallb_forall _ _)).
  2: { intros d Hin. apply elem_of_list_In, elem_of_list_lookup_1 in Hin as [k Hk]. destruct (Hs k d Hk) as (m & _ & Hm). apply dmem_true, dget_is_Some. by eexists. }
  cbn [negb]. rewrite (proj2 (forallb_forall _ _)).
  2: { intros [d m] Hin. apply elem_of_list_In, elem_of_list_lookup_1 in Hin as [k Hk]. apply lookup_zip_with_Some in Hk as (d' & m' & [= -> ->] & H1 & H2).
       destruct (Hs k d' H1) as (m & Hm & Hg). cbn [fst snd]. rewrite Hg. apply Nat.eqb_eq. unfold v_shape in Hm. rewrite H2 in Hm. by injection Hm. }
  cbn [rbind]. rewrite dset_new by done. unfold with_vars. do 2 f_equal. f_equal. f_equal. f_equal. rewrite <-Hd. by destruct x.
Qed.
Lemma add_all vs : forall o, Forall (fun x => v_delayed x = d_delayed o /\ sized (d_dims o) x) vs -> NoDup (map v_name vs) ->
  (forall x, x ∈ vs -> v_name x ∉ dkeys (d_vars o)) ->
  foldM (fun ds x => ds_add_variable ds (v_metadata x) (Some (v_array x))) o vs = Ok (with_vars o (d_vars o ++ map (fun x => (v_name x, x)) vs)).
Proof.
  induction vs as [|x vs IH]; intros o Hf Hnd Hno; cbn [foldM map].
  - rewrite app_nil_r. by destruct o.
  - inversion Hf as [|? ? [H1 H2] Hf']; subst. inversion Hnd as [|? ? Hx Hnd']; subst. rewrite add_one by (done || apply Hno; left). cbn [rbind].
    rewrite IH; [cbn; by rewrite <-app_assoc|exact Hf'|done|].
    intros y Hy. cbn. unfold dkeys. rewrite map_app, elem_of_app. intros [Hin|Hin]; [by apply (Hno y); [right|]|].
    cbn in Hin. apply elem_of_list_singleton in Hin. apply Hx. rewrite <-Hin. apply elem_of_list_In, in_map_iff. exists y. split; [done|]. by apply elem_of_list_In.
Qed.

Lemma read_nothing t delayed sel o : read_group t delayed sel = Ok o -> d_vars o = [] -> d_dims o = [].
Proof.
  unfold read_group. destruct (read_cons t) as [m|]; [|done]. cbn [rbind]. destruct (traverse _ _) as [vs|]; [|done]. cbn [rbind]. unfold new_dataset. intros H E.
  destruct (update_dimensions [] (Some delayed) _) as [[dims dl]|] eqn:Eu; [|done]. cbn [rbind] in H. injection H as <-. cbn in E. rewrite E in Eu. cbn in Eu. by injection Eu as <- _.
Qed.

(** ** The variables of the view *)
Lemma open_view_ok w delayed q name s a : keeps (sub (w_dir w ++ q ++ [name]) s) a -> v_name a = name ->
  exec (open_view_array w delayed q name) s = (Ok (with_delayed a delayed), s).
Proof.
  intros K Hn. unfold open_view_array. rewrite exec_bind, exec_get_tree. cbn [exec]. destruct (keeps_read _ _ K) as (cs & _ & Hz & Hr). rewrite Hz, Hr. cbn [rbind].
  rewrite (kp_attrs _ _ K). f_equal. unfold with_delayed. rewrite Hn. done.
Qed.

Section load.
  Context (v : venv) (w : view) (Hw : viewable v w).
  Local Notation c := (w_ref w).
  Local Notation keys := (p_keys (c_part c)).
  Local Notation kd := (key_dirs (c_part c)).
  Local Notation dim := (c_dim c).
  Context (ds : dataset) (p : vpart) (s : store) (values : list Z).
  Context (Hso : sound ds) (Hh : holds_dataset (sub (part_dir c values) s) ds) (Hmo : made_of c ds).
  Context (Hk : keeps_part v w (sub (vdir w values) s) p) (Hag : agrees ds p) (Hlen : length values = length keys).

  Lemma part_get n : dget (d_vars (combined ds p)) n = match dget (d_vars ds) n with Some x => Some x | None => (fun a => with_delayed a (d_delayed ds)) <$> dget (vp_vars p) n end.
  Proof using.
    cbn [combined d_vars]. rewrite dget_app. destruct (dget (d_vars ds) n); [done|].
    induction (vp_vars p) as [|[m x] l IH]; [done|]. cbn [map dget fst snd]. by destruct (decide (n = m)).
  Qed.
  Lemma part_name n a : dget (vp_vars p) n = Some a -> v_name a = n /\ n ∈ dkeys (md_vars (w_meta w)) /\ dget (d_vars ds) n = None.
  Proof using Hk Hw Hmo.
    intros Ha. destruct (kt_vars _ _ _ _ Hk _ _ Ha) as (mv & Em & Hf & _). destruct (vw_vars _ _ Hw _ _ Em) as (Hn & _ & _ & _ & _ & Hno & _).
    split; [|split].
    - destruct Hf as (-> & _). done.
    - apply dget_is_Some. by eexists.
    - destruct (dget (d_vars ds) n) as [x|] eqn:E; [|done]. exfalso. apply Hno. apply dget_is_Some. by apply (mo_only _ _ Hmo n x).
  Qed.
  Lemma part_keys : dkeys (d_vars (combined ds p)) = dkeys (d_vars ds) ++ dkeys (vp_vars p).
  Proof using. cbn [combined d_vars]. unfold dkeys. rewrite map_app, map_map. done. Qed.
  Lemma part_vals x : x ∈ dvals (d_vars (combined ds p)) -> x ∈ dvals (d_vars ds) \/ exists n a, dget (vp_vars p) n = Some a /\ x = with_delayed a (d_delayed ds).
  Proof using Hk.
    cbn [combined d_vars]. unfold dvals. rewrite map_app, map_map, elem_of_app. cbn [snd]. intros [H|H]; [by left|]. right.
    apply elem_of_list_In, in_map_iff in H as ([n a] & <- & Hin). exists n, a. split; [|done]. apply elem_dget; [apply Hk|]. by apply elem_of_list_In.
  Qed.
  Lemma combined_sound : sound (combined ds p).
  Proof using Hso Hk Hag Hw Hmo.
    destruct Hso as [Hst Hnr]. pose proof (storable_proper _ Hst) as Hp. split; [split; [split|..]|].
    - rewrite part_keys. apply NoDup_app. split_and!; [apply Hp| |apply Hk].
      intros n Hn Hn'. apply dget_is_Some in Hn' as [a Ha]. destruct (part_name _ _ Ha) as (_ & _ & E). apply dget_is_Some in Hn as [x Hx]. congruence.
    - apply Hp.
    - apply Hp.
    - intros x Hx. apply part_vals in Hx as [Hx|(n & a & Ha & ->)]; [by apply (proper_arrays _ Hp)|].
      destruct (kt_vars _ _ _ _ Hk _ _ Ha) as (mv & _ & _ & K). apply K.
    - intros n x Hx. rewrite part_get in Hx. destruct (dget (d_vars ds) n) as [y|] eqn:E.
      + injection Hx as <-. by apply (proper_consistent _ Hp).
      + destruct (dget (vp_vars p) n) as [a|] eqn:Ea; [|done]. injection Hx as <-. split; [exact (proj1 (part_name _ _ Ea))|split; [done|]]. by apply Hag in Ea as [? _].
    - intros x Hx. apply part_vals in Hx as [Hx|(n & a & Ha & ->)]; [by apply (storable_rank _ Hst)|].
      destruct (kt_vars _ _ _ _ Hk _ _ Ha) as (mv & _ & _ & K). apply K.
    - intros n. rewrite part_keys, elem_of_app. intros [Hn|Hn]; [by apply (storable_plain _ Hst)|]. apply (kt_same _ _ _ _ Hk) in Hn. apply dget_is_Some in Hn as [mv Em].
      by apply (vw_vars _ _ Hw _ _ Em).
    - intros x Hx. apply part_vals in Hx as [Hx|(n & a & Ha & ->)]; [by apply Hnr|].
      destruct (kt_vars _ _ _ _ Hk _ _ Ha) as (mv & Em & Hf & _). destruct Hf as (_ & _ & Hd & _). change (v_dims (with_delayed a (d_delayed ds))) with (v_dims a). rewrite Hd.
      by apply (vw_vars _ _ Hw _ _ Em).
  Qed.

  Context (delayed : bool) (sel : option (list str)) (Hcov : covers w sel).

  Lemma covered n mv : wanted sel n -> dget (md_vars (w_meta w)) n = Some mv ->
    (forall n' x, dget (d_vars ds) n' = Some x -> ~ wanted sel n') \/
    (exists n' x, dget (d_vars ds) n' = Some x /\ wanted sel n') /\ forall d, d ∈ mv_dims mv -> exists n' x, dget (d_vars ds) n' = Some x /\ wanted sel n' /\ d ∈ v_dims x.
  Proof using Hcov Hmo Hw Hso.
    intros Hn Em. destruct sel as [l|]; cbn [wanted] in *.
    - destruct Hcov as [[Hno _]|[(n0 & mv0 & H0 & E0 & D0) Hc]].
      + left. intros n' x Hx Hin. apply (Hno n' Hin). apply dget_is_Some. by apply (mo_only _ _ Hmo n' x).
      + right. split.
        * destruct (mo_all _ _ Hmo _ _ E0 D0) as (x & Hx & _). by exists n0, x.
        * intros d Hd. destruct (Hc n mv d Hn Em Hd) as (n' & mv' & Hin & [E' D'] & Hd'). destruct (mo_all _ _ Hmo _ _ E' D') as (x & Hx & Ex). exists n', x. split_and!; [done|done|by rewrite Ex].
    - right. destruct (vw_vars _ _ Hw _ _ Em) as (_ & _ & _ & _ & Hdim & _ & n' & mv' & E' & D').
      destruct (mo_all _ _ Hmo _ _ E' (ltac:(by rewrite D'))) as (x & Hx & Ex). split; [by exists n', x|]. intros d Hd. exists n', x. split_and!; [done|done|]. by rewrite Ex, D'.
  Qed.
  Lemma load_opens : exists o, exec (load_part w delayed sel (zip keys values, [])) s = (Ok (o, kd values), s) /\ opens delayed sel (combined ds p) o.
  Proof using Hso Hh Hmo Hk Hag Hw Hcov Hlen.
    unfold load_part, load_one. cbn [fst snd].
    destruct (C47_select_variables (c_meta c) sel None (proj1 (vw_ref _ _ Hw))) as [Nr Sr]. destruct (C47_select_variables (w_meta w) sel None (vw_nodup _ _ Hw)) as [Nv Sv].
    set (selected := md_select_variables (c_meta c) sel None) in *. set (variables := md_select_variables (w_meta w) sel None) in *.
    assert (Hsel : forall n l, (forall l', sel = Some l' -> n ∈ l') /\ (forall l', @None (list str) = Some l' -> n ∉ l') <-> wanted sel n /\ l = (l : nat)).
    { intros n l. unfold wanted. destruct sel as [l'|]; split.
      - intros [H _]. split; [by apply H|done].
      - intros [H _]. split; [by intros ? [= <-]|done].
      - done.
      - done. }
    assert (Sr' : forall n, n ∈ selected <-> n ∈ dkeys (md_vars (c_meta c)) /\ wanted sel n).
    { intros n. rewrite Sr. rewrite (Hsel n 0). tauto. }
    assert (Sv' : forall n, n ∈ variables <-> n ∈ dkeys (md_vars (w_meta w)) /\ wanted sel n).
    { intros n. rewrite Sv. rewrite (Hsel n 0). tauto. }
    clearbody selected variables. clear Sr Sv Hsel.
    change (map (p_dir (c_part c)) (zip keys values)) with (kd values). change (c_dir c ++ kd values) with (part_dir c values).
    destruct (open_opens (part_dir c values) s ds delayed (Some selected) Hso Hh) as (o & E & Ho).
    assert (Hnil : d_vars o = [] -> d_dims o = []).
    { unfold open_zarr_group in E. rewrite exec_bind, exec_get_tree in E. cbn [exec] in E. injection E as E. exact (read_nothing _ _ _ _ E). }
    rewrite exec_bind, E. cbv iota beta.
    set (g := fun n => match dget (vp_vars p) n with Some a => with_delayed a delayed | None => Var [] delayed (Arr [] []) [] [] [] None None [] end).
    assert (Hg : forall n, n ∈ variables -> exists a mv, dget (vp_vars p) n = Some a /\ dget (md_vars (w_meta w)) n = Some mv /\ v_dims a = mv_dims mv /\ v_name a = n /\
              keeps (sub (w_dir w ++ kd values ++ [n]) s) a /\ g n = with_delayed a delayed).
    { intros n Hn. apply Sv' in Hn as [Hn _]. apply (kt_same _ _ _ _ Hk) in Hn. apply dget_is_Some in Hn as [a Ha]. destruct (kt_vars _ _ _ _ Hk _ _ Ha) as (mv & Em & Hf & K).
      exists a, mv. rewrite sub_sub in K. unfold vdir in K. rewrite <-app_assoc in K. split_and!; [done|done|apply Hf|exact (proj1 (part_name _ _ Ha))|done|]. unfold g. by rewrite Ha. }
    rewrite exec_bind, (exec_pseq_pure _ _ (map g variables)).
    2: { clear -Hg. induction variables as [|n l IH]; cbn [map]; constructor; [|apply IH; intros m Hm; apply Hg; by right].
         destruct (Hg n) as (a & mv & _ & _ & _ & Hn & K & ->); [left|]. by apply open_view_ok. }
    cbv iota beta.
    assert (Hnames : map v_name (map g variables) = variables).
    { rewrite map_map. rewrite <-(map_id variables) at 2. apply map_ext_in. intros n Hn. apply elem_of_list_In in Hn. destruct (Hg n Hn) as (a & mv & _ & _ & _ & Hn' & _ & ->). done. }
    assert (Hmap : map (fun x => (v_name x, x)) (map g variables) = map (fun n => (n, g n)) variables).
    { rewrite map_map. apply map_ext_in. intros n Hn. apply elem_of_list_In in Hn. destruct (Hg n Hn) as (a & mv & _ & _ & _ & Hn' & _ & ->). cbn. by rewrite Hn'. }
    destruct Ho as (Hrd & Hinv & Hdim). pose proof (reads_proper _ _ _ _ Hrd) as Hpo.
    assert (Hor : forall n x, dget (d_vars o) n = Some x <-> wanted sel n /\ exists x0, dget (d_vars ds) n = Some x0 /\ x = with_delayed (stored x0) delayed).
    { intros n x. rewrite (reads_vars _ _ _ _ Hrd). cbn [wanted]. rewrite Sr'. split; [by intros [[_ ?] ?]|]. intros [? (x0 & E0 & ->)]. split; [|by exists x0].
      split; [|done]. apply dget_is_Some. by apply (mo_only _ _ Hmo n x0). }
    assert (Hcase : d_vars o = [] \/ exists n x, dget (d_vars o) n = Some x).
    { clear. destruct (d_vars o) as [|[n x] l]; [by left|right]. exists n, x. cbn. by rewrite decide_True. }
    assert (Hno : forall n, n ∈ variables -> n ∉ dkeys (d_vars o)).
    { intros n Hn Hin. apply dget_is_Some in Hin as [x Hx]. apply Hor in Hx as (_ & x0 & E0 & _). destruct (Hg n Hn) as (a & _ & Ha & _). apply part_name in Ha as (_ & _ & Ha). congruence. }
    assert (Hfin : exists o2, (exec (match d_dims o with
        | [] => let! ds0 <- Ret (new_dataset (map g variables) (d_attrs o) None [] None); pret (ds0, kd values)
        | _ => let! ds0 <- Ret (foldM (fun ds0 x => ds_add_variable ds0 (v_metadata x) (Some (v_array x))) o (map g variables)); pret (ds0, kd values)
        end) s = (Ok (o2, kd values), s)) /\ d_vars o2 = d_vars o ++ map (fun n => (n, g n)) variables /\ d_attrs o2 = d_attrs o /\ d_delayed o2 = delayed /\
        NoDup (dkeys (d_chunks o2)) /\ d_block o2 <> 0%Z /\ consistent o2 /\ NoDup (dkeys (d_dims o2)) /\
        forall d m, dget (d_dims o2) d = Some m -> exists n x k, dget (d_vars (combined ds p)) n = Some x /\ v_dims x !! k = Some d /\ v_shape x !! k = Some m).
    { assert (Hcd : d_dims o = [] \/ exists dd dims, d_dims o = dd :: dims) by (clear; destruct (d_dims o); eauto).
      destruct Hcd as [Ed|(dd & dims & Ed)].
      - rewrite Ed. assert (Hvo : d_vars o = []).
        { destruct Hcase as [|(n & x & Hx)]; [done|exfalso].
          pose proof Hx as Hx0. apply Hor in Hx0 as (_ & x0 & E0 & ->). apply (mo_only _ _ Hmo) in E0 as [Hd _]. apply elem_of_list_lookup_1 in Hd as [k Hkk].
          destruct (proper_consistent _ Hpo _ _ Hx) as (_ & _ & Hs). destruct (Hs k _ Hkk) as (m & _ & Hm). rewrite Ed in Hm. done. }
        destruct (new_dataset_total (fun d => if decide (d ∈ mjoin (map v_dims (map g variables))) then dget (d_dims ds) d else None) delayed (map g variables) (d_attrs o) BLOCK_SIZE_LIMIT [] None)
          as (o2 & E2 & V2 & A2 & C2 & B2 & D2 & Co2 & Di2).
        + by rewrite Hnames.
        + constructor.
        + done.
        + intros x Hx. pose proof Hx as Hx0. apply elem_of_list_In, in_map_iff in Hx as (n & <- & Hn). apply elem_of_list_In in Hn. destruct (Hg n Hn) as (a & mv & Ha & _ & _ & _ & _ & Eg). rewrite Eg in Hx0 |- *.
          split; [done|]. intros k d Hkd. destruct (proj1 (Hag _ _ Ha) k d Hkd) as (m & H1 & H2). exists m. split; [done|]. rewrite decide_True; [done|].
          apply elem_of_list_join. exists (v_dims a). split; [by eapply elem_of_list_lookup_2|]. apply elem_of_list_In, in_map_iff. exists (with_delayed a delayed). split; [done|]. by apply elem_of_list_In.
        + right. split; [done|]. intros En. exfalso. assert (Hvn : variables = []) by (by destruct variables).
          assert (Hw1 : forall n x, dget (d_vars ds) n = Some x -> ~ wanted sel n).
          { intros n x Hx Hwn. assert (H : dget (d_vars o) n = Some (with_delayed (stored x) delayed)) by (apply Hor; split; [done|by exists x]). by rewrite Hvo in H. }
          unfold covers in Hcov. destruct sel as [l|].
          * destruct Hcov as [[_ (n & Hn & Hn')]|[(n & mv & Hn & Em & Hd) _]].
            -- assert (n ∈ variables) by (by apply Sv'). set_solver.
            -- destruct (mo_all _ _ Hmo _ _ Em Hd) as (x & Hx & _). by apply (Hw1 n x).
          * destruct (mo_axis _ _ Hmo) as (x & Hx & _). by apply (Hw1 _ _ Hx).
        + exists o2. split; [|split_and!].
          * rewrite exec_bind. cbn [exec]. change (new_dataset (map g variables) (d_attrs o) None [] None) with (new_dataset (map g variables) (d_attrs o) (Some BLOCK_SIZE_LIMIT) [] None). by rewrite E2.
          * by rewrite V2, Hmap, Hvo.
          * done.
          * done.
          * rewrite C2. constructor.
          * by rewrite B2.
          * done.
          * by apply new_dataset_invariant in E2 as (_ & ? & _).
          * intros d m Hm. apply Di2 in Hm. destruct (decide _) as [Hin|]; [|done]. apply elem_of_list_join in Hin as (l & Hd & Hl). apply elem_of_list_In, in_map_iff in Hl as (x & <- & Hx).
            apply in_map_iff in Hx as (n & <- & Hn). apply elem_of_list_In in Hn. destruct (Hg n Hn) as (a & mv & Ha & _ & _ & _ & _ & Eg). rewrite Eg in Hd. apply elem_of_list_lookup_1 in Hd as [k Hkk].
            destruct (proj1 (Hag _ _ Ha) k d Hkk) as (m' & H1 & H2). exists n, (with_delayed a (d_delayed ds)), k. split_and!; [|done|].
            -- rewrite part_get. destruct (part_name _ _ Ha) as (_ & _ & ->). by rewrite Ha.
            -- assert (m' = m) as -> by congruence. exact H1.
      - assert (Hne : exists n x, dget (d_vars ds) n = Some x /\ wanted sel n).
        { destruct Hcase as [Hv0|(n & x & Hx)]; [by rewrite (Hnil Hv0) in Ed|].
          apply Hor in Hx as (? & x0 & ? & _). by exists n, x0. }
        assert (Hsz : forall n, n ∈ variables -> sized (d_dims o) (g n)).
        { intros n Hn. destruct (Hg n Hn) as (a & mv & Ha & Em & Hd & _ & _ & ->). intros k d Hkd. change (v_dims (with_delayed a delayed)) with (v_dims a) in Hkd.
          destruct (proj1 (Hag _ _ Ha) k d Hkd) as (m & H1 & H2). exists m. split; [done|].
          destruct (covered n mv (proj2 (proj1 (Sv' n) Hn)) Em) as [Hno'|[_ Hc]]; [destruct Hne as (n' & x & Hx & Hwn); by destruct (Hno' n' x Hx)|].
          destruct (Hc d) as (n' & x & Hx & Hwn & Hdx); [rewrite <-Hd; by eapply elem_of_list_lookup_2|]. apply elem_of_list_lookup_1 in Hdx as [k' Hk'].
          assert (Hxo : dget (d_vars o) n' = Some (with_delayed (stored x) delayed)) by (apply Hor; split; [done|by exists x]).
          destruct (proper_consistent _ Hpo _ _ Hxo) as (_ & _ & Hs1). destruct (Hs1 k' d Hk') as (m1 & S1 & D1).
          destruct (proper_consistent _ (storable_proper _ (sound_storable _ Hso)) _ _ Hx) as (_ & _ & Hs2). destruct (Hs2 k' d Hk') as (m2 & S2 & D2).
          change (v_shape (with_delayed (stored x) delayed)) with (v_shape x) in S1. congruence. }
        rewrite add_all.
        2: { apply Forall_forall. intros x Hx. apply elem_of_list_In, in_map_iff in Hx as (n & <- & Hn). apply elem_of_list_In in Hn. split; [|by apply Hsz].
             destruct (Hg n Hn) as (a & mv & _ & _ & _ & _ & _ & ->). rewrite (reads_delayed _ _ _ _ Hrd). done. }
        2: { by rewrite Hnames. }
        2: { intros x Hx. apply elem_of_list_In, in_map_iff in Hx as (n & <- & Hn). apply elem_of_list_In in Hn. destruct (Hg n Hn) as (a & mv & _ & _ & _ & En & _ & ->).
             change (v_name (with_delayed a delayed)) with (v_name a). rewrite En. by apply Hno. }
        rewrite Hmap. exists (with_vars o (d_vars o ++ map (fun n => (n, g n)) variables)). split; [|split; [|split; [|split; [|split; [|split; [|split; [|split]]]]]]].
        + rewrite Ed. rewrite exec_bind. cbn [exec pret]. done.
        + done.
        + done.
        + apply (reads_delayed _ _ _ _ Hrd).
        + apply Hpo.
        + apply Hpo.
        + intros n x Hx. cbn [with_vars d_vars] in Hx. rewrite dget_app in Hx. destruct (dget (d_vars o) n) as [y|] eqn:Ey.
          * injection Hx as <-. by apply (proper_consistent _ Hpo).
          * apply dget_elem, elem_of_list_In, in_map_iff in Hx as (n' & [= -> <-] & Hn). apply elem_of_list_In in Hn.
            pose proof (Hsz n Hn) as Hs. destruct (Hg n Hn) as (a & mv & _ & _ & _ & En & _ & Eg). rewrite Eg in Hs |- *. split; [done|]. split; [|done].
            cbn. by rewrite (reads_delayed _ _ _ _ Hrd).
        + apply Hinv.
        + intros d m Hm. cbn [with_vars d_dims] in Hm. apply Hdim in Hm as (n & x & k & Hx & H1 & H2). exists n, x, k. split_and!; [|done..]. by rewrite part_get, Hx. }
    destruct Hfin as (o2 & E2 & V2 & A2 & D2 & C2 & B2 & Co2 & N2 & Di2).
    assert (Nv2 : NoDup (dkeys (d_vars o2))).
    { rewrite V2. unfold dkeys. rewrite map_app, map_map. cbn [fst]. rewrite map_id. apply NoDup_app. split_and!; [apply Hpo| |done]. intros n Hn Hn'. by apply (Hno n). }
    exists o2. split.
    { exact E2. }
    split; [|split; [done|done]]. split.
    - intros n x. rewrite V2, dget_app. destruct (dget (d_vars o) n) as [y|] eqn:Ey.
      + apply Hor in Ey as (Hwn & x0 & E0 & ->). split.
        * intros [= <-]. split; [done|]. exists x0. split; [|done]. by rewrite part_get, E0.
        * intros (_ & x1 & E1 & ->). rewrite part_get, E0 in E1. by injection E1 as <-.
      + split.
        * intros Hx. apply dget_elem, elem_of_list_In, in_map_iff in Hx as (n' & [= -> <-] & Hn). apply elem_of_list_In in Hn. split; [by apply Sv'|].
          destruct (Hg n Hn) as (a & mv & Ha & _ & _ & En & _ & Eg). exists (with_delayed a (d_delayed ds)). split.
          -- rewrite part_get. destruct (part_name _ _ Ha) as (_ & _ & ->). by rewrite Ha.
          -- destruct (Hag _ _ Ha) as (_ & H1 & H2). rewrite Eg. rewrite (stored_tidy (with_delayed a (d_delayed ds))) by done. done.
        * intros (Hwn & x0 & E0 & ->). rewrite part_get in E0. destruct (dget (d_vars ds) n) as [y|] eqn:Eds.
          -- exfalso. assert (H : dget (d_vars o) n = Some (with_delayed (stored y) delayed)) by (apply Hor; split; [done|by exists y]). congruence.
          -- destruct (dget (vp_vars p) n) as [a|] eqn:Ha; [|done]. injection E0 as <-.
             assert (Hn : n ∈ variables) by (apply Sv'; split; [apply (kt_same _ _ _ _ Hk), dget_is_Some; by eexists|done]).
             destruct (Hg n Hn) as (a' & mv & Ha' & _ & _ & En & _ & Eg). assert (a' = a) as -> by congruence.
             destruct (Hag _ _ Ha) as (_ & H1 & H2). rewrite (stored_tidy (with_delayed a (d_delayed ds))) by done.
             apply elem_dget; [unfold dkeys; rewrite map_map; cbn [fst]; by rewrite map_id|]. apply elem_of_list_In, in_map_iff. exists n. split; [rewrite Eg; done|by apply elem_of_list_In].
    - rewrite A2. apply Hrd.
    - done.
    - split; [done|done|done| |done]. intros x Hx. rewrite V2 in Hx. unfold dvals in Hx. rewrite map_app, elem_of_app in Hx. destruct Hx as [Hx|Hx]; [by apply (proper_arrays _ Hpo)|].
      rewrite map_map in Hx. cbn [snd] in Hx. apply elem_of_list_In, in_map_iff in Hx as (n & <- & Hn). apply elem_of_list_In in Hn. destruct (Hg n Hn) as (a & mv & _ & _ & _ & _ & K & ->). apply K.
  Qed.
End load.

(** ** Several partitions *)
Section layout.
  Context (v : venv) (w : view) (Hw : viewable v w).
  Local Notation c := (w_ref w).
  Local Notation dim := (c_dim c).
  Lemma combined_layout ds1 p1 t1 ds2 p2 t2 : sound ds1 -> sound ds2 -> made_of c ds1 -> made_of c ds2 -> keeps_part v w t1 p1 -> keeps_part v w t2 p2 ->
    agrees ds1 p1 -> agrees ds2 p2 -> same_layout dim ds1 ds2 -> same_layout dim (combined ds1 p1) (combined ds2 p2).
  Proof using Hw.
    intros So1 So2 Mo1 Mo2 K1 K2 A1 A2 [Hn Hl]. split.
    - intros n. rewrite !part_keys, !elem_of_app, Hn. rewrite (kt_same _ _ _ _ K1), (kt_same _ _ _ _ K2). done.
    - intros n x1 x2. rewrite !part_get. destruct (dget (d_vars ds1) n) as [y1|] eqn:E1.
      + intros [= <-]. assert (exists y2, dget (d_vars ds2) n = Some y2) as [y2 E2] by (apply dget_is_Some, Hn, dget_is_Some; by eexists). rewrite E2. intros [= <-]. by apply (Hl n).
      + destruct (dget (d_vars ds2) n) as [y2|] eqn:E2.
        { exfalso. assert (Hin : n ∈ dkeys (d_vars ds1)) by (apply Hn, dget_is_Some; by eexists). apply dget_is_Some in Hin as [? ?]. congruence. }
        destruct (dget (vp_vars p1) n) as [a1|] eqn:H1; [|done]. destruct (dget (vp_vars p2) n) as [a2|] eqn:H2; [|done]. intros [= <-] [= <-].
        destruct (kt_vars _ _ _ _ K1 _ _ H1) as (mv & Em & F1 & L1). destruct (kt_vars _ _ _ _ K2 _ _ H2) as (mv' & Em' & F2 & L2). assert (mv' = mv) as -> by congruence.
        destruct F1 as (_ & _ & D1 & _). destruct F2 as (_ & _ & D2 & _). pose proof (kp_rank _ _ L1) as R1. pose proof (kp_rank _ _ L2) as R2.
        change (v_dims a2 = v_dims a1 /\ length (v_shape a2) = length (v_shape a1) /\ forall k, v_dims a1 !! k <> Some dim -> v_shape a2 !! k = v_shape a1 !! k).
        split; [congruence|]. split; [congruence|]. intros k Hk. destruct (v_dims a1 !! k) as [d|] eqn:Ed.
        * destruct (proj1 (A1 _ _ H1) k d Ed) as (m1 & S1 & G1). assert (Ed2 : v_dims a2 !! k = Some d) by congruence. destruct (proj1 (A2 _ _ H2) k d Ed2) as (m2 & S2 & G2).
          destruct (vw_vars _ _ Hw _ _ Em) as (_ & _ & _ & _ & Hdim & _ & n' & mv' & E' & D').
          destruct (mo_all _ _ Mo1 _ _ E' ltac:(by rewrite D')) as (x1 & X1 & Y1). destruct (mo_all _ _ Mo2 _ _ E' ltac:(by rewrite D')) as (x2 & X2 & Y2).
          destruct (Hl n' x1 x2 X1 X2) as (_ & _ & Hs). assert (Ex1 : v_dims x1 !! k = Some d) by congruence. assert (Ex2 : v_dims x2 !! k = Some d) by congruence.
          specialize (Hs k ltac:(congruence)).
          destruct (proper_consistent _ (storable_proper _ (sound_storable _ So1)) _ _ X1) as (_ & _ & Hc1). destruct (Hc1 k d Ex1) as (m3 & S3 & G3).
          destruct (proper_consistent _ (storable_proper _ (sound_storable _ So2)) _ _ X2) as (_ & _ & Hc2). destruct (Hc2 k d Ex2) as (m4 & S4 & G4). congruence.
        * apply lookup_ge_None in Ed. rewrite !(proj2 (lookup_ge_None _ _)); [done|lia|congruence || (rewrite <-R2, D2, <-D1; lia)].
  Qed.
End layout.

Lemma joint_meta v w : viewable v w -> view_metadata w = c_meta (joint w).
Proof.
  intros Hw. unfold view_metadata, joint. cbn. f_equal. pose proof (vw_nodup _ _ Hw) as Hnd.
  assert (Hno : forall n, n ∈ dkeys (md_vars (w_meta w)) -> n ∉ dkeys (md_vars (c_meta (w_ref w)))).
  { intros n Hn. apply dget_is_Some in Hn as [mv Em]. by apply (vw_vars _ _ Hw _ _ Em). }
  revert Hnd Hno. generalize (md_vars (c_meta (w_ref w))) as base. generalize (md_vars (w_meta w)) as l. clear.
  induction l as [|[n mv] l IH]; intros base Hnd Hno; cbn [fold_left]; [by rewrite app_nil_r|]. inversion Hnd as [|? ? H1 H2]; subst. cbn [fst snd]. rewrite dset_new by (apply Hno; left).
  rewrite IH; [by rewrite <-app_assoc|done|]. intros m Hm Hin. unfold dkeys in Hin. rewrite map_app, elem_of_app in Hin. destruct Hin as [Hin|Hin].
  - apply (Hno m); [by right|done].
  - cbn in Hin. apply elem_of_list_singleton in Hin as ->. done.
Qed.

(** ** Datasets that are put together in two steps *)
Section bundle.
  Context (delayed : bool) (sel : option (list str)) (dim : str).
  Record bundle (p : dataset) (ps : list dataset) (o : dataset) : Prop := {
    bu_proper : proper o;
    bu_inv : invariant o;
    bu_delayed : d_delayed o = delayed;
    bu_names : forall n, n ∈ dkeys (d_vars o) <-> wanted sel n /\ n ∈ dkeys (d_vars p);
    bu_vars : forall n v', dget (d_vars o) n = Some v' -> exists v, dget (d_vars p) n = Some v /\ same_but_records dim (with_delayed (stored v) delayed) v' /\
      (dim ∈ v_dims v -> exists rss, records_in dim n (p :: ps) rss /\ records v' dim = Some (mjoin rss));
  }.
  Lemma bundle_parts p ps o os : Forall sound (p :: ps) -> Forall (same_layout dim p) ps -> Forall2 (opens delayed sel) (p :: ps) (o :: os) ->
    exists ds, (match os with [] => Ok o | _ => ds_concat o os dim end) = Ok ds /\ bundle p ps ds.
  Proof. intros H1 H2 H3. destruct (gather_parts delayed sel dim p ps o os H1 H2 H3) as (ds & E & P1 & P2 & P3 & P4 & P5 & _). exists ds. split; [done|]. by split. Qed.

  Lemma bundle_records n gs os rss : Forall2 (fun g o => bundle g.1 g.2 o) gs os -> records_in dim n os rss ->
    exists all, records_in dim n (concat (map (fun g : dataset * list dataset => g.1 :: g.2) gs)) all /\ mjoin all = mjoin rss.
  Proof.
    intros Hb. revert rss. induction Hb as [|g o gs os Hg _ IH]; intros rss Hr; inversion Hr as [|? rs ? rss' (u & Eu & Hu) Hr']; subst; [by exists []; split; [constructor|]|].
    destruct (IH _ Hr') as (all & H1 & H2). destruct (bu_vars _ _ _ Hg _ _ Eu) as (u0 & E0 & (Hs & _) & Hrec).
    assert (Hin : dim ∈ v_dims u0).
    { destruct (decide (dim ∈ v_dims u0)) as [|Hni]; [done|]. exfalso. rewrite records_index in Hu. rewrite Hs in Hu. change (v_dims (with_array (with_delayed (stored u0) delayed) (v_array u))) with (v_dims u0) in Hu.
      destruct (index_of dim (v_dims u0)) as [k|] eqn:Ei; [|done]. apply Hni. destruct (decide (dim ∈ v_dims u0)) as [|N]; [done|]. apply index_of_None in N. congruence. }
    destruct (Hrec Hin) as (rs0 & R1 & R2). exists (rs0 ++ all). split.
    - cbn [map concat]. by apply Forall2_app.
    - rewrite mjoin_app, H2. cbn. f_equal. rewrite Hu in R2. by injection R2.
  Qed.
  Lemma bundles_gather p ps gs o os : sound p -> (forall g, g ∈ gs -> sound g.1) -> (forall g, g ∈ gs -> same_layout dim p g.1) ->
    Forall2 (fun g o => bundle g.1 g.2 o) ((p, ps) :: gs) (o :: os) ->
    exists ds, (match os with [] => Ok o | _ => ds_concat o os dim end) = Ok ds /\ bundle p (ps ++ concat (map (fun g => g.1 :: g.2) gs)) ds.
  Proof.
    intros Hso Hsg Hla Hb. inversion Hb as [|? ? ? ? Ho Hos]; subst. cbn [fst snd] in Ho. destruct os as [|o' os].
    { inversion Hos; subst. exists o. split; [done|]. cbn. by rewrite app_nil_r. }
    assert (Hnr : no_repeat o).
    { intros x Hx. apply elem_dvals in Hx as [n Hx]. apply elem_dget in Hx; [|apply Ho]. destruct (bu_vars _ _ _ Ho _ _ Hx) as (x0 & E0 & (Hs & _) & _). rewrite Hs.
      change (NoDup (v_dims x0)). apply (sound_dims _ Hso), elem_dvals. exists n. by apply dget_elem. }
    destruct (concat_spec o (o' :: os) dim) as (ds & E & Hpr & _ & Hrel & _ & _); [done|apply Ho|done| |].
    { intros x Hx. apply elem_of_list_lookup_1 in Hx as [i Hi]. destruct (Forall2_lookup_r _ _ _ _ _ Hos Hi) as (g & Hg & Hgx). split; [apply Hgx|]. split.
      - by rewrite (bu_delayed _ _ _ Hgx), (bu_delayed _ _ _ Ho).
      - intros n x1 E1. destruct (bu_vars _ _ _ Ho _ _ E1) as (y1 & Y1 & (S1 & L1 & K1 & _) & _).
        assert (Hin : n ∈ dkeys (d_vars o)) by (apply dget_is_Some; by eexists). apply (bu_names _ _ _ Ho) in Hin as [Hwn Hin].
        destruct (Hla g) as [Hn Hl]; [by eapply elem_of_list_lookup_2|]. apply Hn in Hin.
        assert (Hin' : n ∈ dkeys (d_vars x)) by (by apply (bu_names _ _ _ Hgx)). apply dget_is_Some in Hin' as [x2 E2]. exists x2. split; [done|].
        destruct (bu_vars _ _ _ Hgx _ _ E2) as (y2 & Y2 & (S2 & L2 & K2 & _) & _). destruct (Hl n y1 y2 Y1 Y2) as (D & L & K).
        change (v_shape (with_delayed (stored y1) delayed)) with (v_shape y1) in *. change (v_shape (with_delayed (stored y2) delayed)) with (v_shape y2) in *.
        change (v_dims (with_delayed (stored y1) delayed)) with (v_dims y1) in *. change (v_dims (with_delayed (stored y2) delayed)) with (v_dims y2) in *.
        assert (V1 : v_dims x1 = v_dims y1) by (by rewrite S1). assert (V2 : v_dims x2 = v_dims y2) by (by rewrite S2).
        split; [by rewrite S1, S2|]. split; [congruence|]. split; [congruence|]. intros k Hk. rewrite V1 in Hk. rewrite K1 by done. rewrite K2 by congruence. by apply K. }
    exists ds. split; [done|]. split.
    - done.
    - unfold ds_concat in E. destruct (_ =? 0); [done|]. destruct (negb _); [done|]. destruct (traverse _ _); [|done]. cbn [rbind] in E. by apply new_dataset_invariant in E.
    - destruct Hrel as (_ & _ & _ & _ & ->). apply Ho.
    - intros n. rewrite <-(bu_names _ _ _ Ho), <-!dget_is_Some. destruct (related_get _ _ _ n Hrel) as [R1 R2]. split.
      + intros [x Ex]. destruct (R2 _ Ex) as (y & ? & _). by eexists.
      + intros [x Ex]. destruct (R1 _ Ex) as (y & ? & _). by eexists.
    - intros n x Ex. destruct (related_get _ _ _ n Hrel) as [_ R2]. destruct (R2 _ Ex) as (y & Ey & (S1 & L1 & K1 & F1) & Hrs).
      destruct (bu_vars _ _ _ Ho _ _ Ey) as (z & Ez & (S0 & L0 & K0 & F0) & Hr0). exists z. split; [done|].
      change (v_dims (with_delayed (stored z) delayed)) with (v_dims z) in *. assert (Vy : v_dims y = v_dims z) by (by rewrite S0). split.
      + split; [rewrite S1, S0; by destruct z|]. split; [congruence|]. split.
        * intros k Hk. change (v_dims (with_delayed (stored z) delayed)) with (v_dims z) in Hk. rewrite K1 by congruence. by apply K0.
        * intros Hd. change (v_dims (with_delayed (stored z) delayed)) with (v_dims z) in Hd. rewrite F1 by congruence. by apply F0.
      + intros Hin. destruct (Hr0 Hin) as (rss0 & Q1 & Q2). destruct (Hrs _ Q2) as (rss & Q3 & Q4). destruct (bundle_records n gs (o' :: os) rss Hos Q3) as (all & Q5 & Q6).
        exists (rss0 ++ all). split; [|by rewrite mjoin_app, Q6]. change (p :: ps ++ ?l) with ((p :: ps) ++ l). by apply Forall2_app.
  Qed.

End bundle.
Lemma bundle_fill (c : collection) delayed sel p ps ds : bundle delayed sel (c_dim c) p ps ds -> Forall (same_layout (c_dim c) p) ps -> (forall n, n ∈ dkeys (d_vars p) -> n ∈ dkeys (md_vars (c_meta c))) ->
  exists out, ds_fill_attrs ds (c_meta c) = Ok out /\ gathered c delayed sel (p :: ps) None out.
Proof.
  intros Hb Hla Hdec. pose proof (bu_proper _ _ _ _ _ _ Hb) as Hpr2.
  assert (Hdecl : forall n, n ∈ dkeys (d_vars ds) -> n ∈ dkeys (md_vars (c_meta c))).
  { intros n Hn. apply (bu_names _ _ _ _ _ _ Hb) in Hn as [_ Hn]. by apply Hdec. }
  destruct (C17_fill_attrs ds (c_meta c) Hdecl) as (out & Ef & Ea & Edm & Ech & Ebl & Ek & Eg).
  assert (Hdo : d_delayed out = delayed).
  { unfold ds_fill_attrs in Ef. destruct (traverse _ _) as [vs|]; [|done]. cbn [rbind] in Ef. injection Ef as <-. cbn. apply Hb. }
  assert (Hget : forall n v', dget (d_vars out) n = Some v' -> exists v2 mv, dget (d_vars ds) n = Some v2 /\ dget (md_vars (c_meta c)) n = Some mv /\ v' = with_attrs v2 (mv_attrs mv)).
  { intros n v' Ev. assert (Hn : n ∈ dkeys (d_vars ds)) by (rewrite <-Ek; apply dget_is_Some; by eexists).
    pose proof (Hdecl n Hn) as Hm. apply dget_is_Some in Hn as [v2 E2']. apply dget_is_Some in Hm as [mv Em]. exists v2, mv. rewrite (Eg _ _ _ E2' Em) in Ev. split_and!; [done..|congruence]. }
  exists out. split; [done|]. split.
  - intros n. rewrite Ek, (bu_names _ _ _ _ _ _ Hb). split; intros [Hwn Hn]; (split; [done|]).
    + left. exists p. split; [left|done].
    + destruct Hn as [(q & Hq & Hn)|(i & ? & _)]; [|done]. apply elem_of_cons in Hq as [->|Hq]; [done|]. rewrite Forall_forall in Hla. by apply (Hla q Hq).
  - intros n v' p' x Ev Hhd Ep. cbn in Hhd. injection Hhd as Hhd. subst p'. destruct (Hget n v' Ev) as (v2 & mv & E2' & Em & ->).
    destruct (bu_vars _ _ _ _ _ _ Hb _ _ E2') as (x0 & E0 & (A1 & A2 & A3 & A4) & Hr). assert (x0 = x) as -> by congruence.
    exists (with_attrs (with_delayed x delayed) (mv_attrs mv)). destruct (decide (c_dim c ∈ v_dims x)) as [Hin|Hni].
    + destruct (Hr Hin) as (rss & H1 & H2). exists rss. split; [by exists mv|]. split; [|done]. split_and!; [by rewrite A1|done|done|]. intros H. by rewrite (A4 H).
    + exists []. split; [by exists mv|]. split; [|done]. split_and!; [by rewrite A1|done|done|]. intros H. by rewrite (A4 H).
  - done.
  - done.
  - done.
  - split; [rewrite Ek; apply Hpr2|rewrite Ech; apply Hpr2|rewrite Ebl; apply Hpr2| |].
    + intros x Hin. apply elem_dvals in Hin as [n Hin]. apply elem_dget in Hin; [|rewrite Ek; apply Hpr2].
      destruct (Hget _ _ Hin) as (v2 & mv & E2' & _ & ->). change (arr_wf (v_array v2)). apply (proper_arrays _ Hpr2), elem_dvals. exists n. by apply dget_elem.
    + intros n x Ev. destruct (Hget _ _ Ev) as (v2 & mv & E2' & _ & ->). rewrite Hdo, Edm, <-(bu_delayed _ _ _ _ _ _ Hb). exact (proper_consistent _ Hpr2 n v2 E2').
Qed.

Lemma layout_sym dim a b : same_layout dim a b -> same_layout dim b a.
Proof.
  intros [H1 H2]. split; [intros n; by rewrite H1|]. intros n x y Ex Ey. destruct (H2 n y x Ey Ex) as (D & L & K). split; [done|]. split; [done|].
  intros k Hk. rewrite K; [done|]. by rewrite <-D.
Qed.
Lemma layout_trans dim a b d : same_layout dim a b -> same_layout dim b d -> same_layout dim a d.
Proof.
  intros [H1 H2] [H3 H4]. split; [intros n; by rewrite H1|]. intros n x z Ex Ez.
  assert (exists y, dget (d_vars b) n = Some y) as [y Ey] by (apply dget_is_Some, H1, dget_is_Some; by eexists).
  destruct (H2 n x y Ex Ey) as (D & L & K). destruct (H4 n y z Ey Ez) as (D' & L' & K'). split; [congruence|]. split; [congruence|]. intros k Hk. rewrite K' by congruence. by apply K.
Qed.
Lemma layout_refl dim a : same_layout dim a a.
Proof. split; [done|]. intros n x y Ex Ey. assert (y = x) as -> by congruence. done. Qed.
Lemma take_layout dim ps d q : no_repeat d -> d_vars q = map (fun nv => (nv.1, var_take dim ps nv.2)) (d_vars d) -> same_layout dim d q.
Proof.
  intros Hn E. split; [intros n; by rewrite E, take_keys|]. intros n x y Ex. rewrite E, take_get, Ex. cbn. intros [= <-].
  assert (Hx : NoDup (v_dims x)) by (apply Hn, elem_dvals; exists n; by apply dget_elem). destruct (var_take_same dim ps x Hx) as (_ & L & K & _). done.
Qed.

Section part.
  Context (v : venv) (w : view) (Hw : viewable v w).
  Local Notation c := (w_ref w).
  Local Notation keys := (p_keys (c_part c)).
  Local Notation kd := (key_dirs (c_part c)).
  Local Notation dim := (c_dim c).
  Context (ds : dataset) (p : vpart) (s : store) (values : list Z).
  Context (Hso : sound ds) (Hh : holds_dataset (sub (part_dir c values) s) ds) (Hmo : made_of c ds).
  Context (Hk : keeps_part v w (sub (vdir w values) s) p) (Hag : agrees ds p) (Hlen : length values = length keys).
  Context (delayed : bool) (sel : option (list str)) (Hcov : covers w sel).

  Lemma load_bundle slices : (forall sl, sl ∈ slices -> (0 <= sl.1 /\ 0 <= sl.2)%Z) -> slices = [] \/ (exists n x, dget (d_vars ds) n = Some x /\ wanted sel n) ->
    exists o p0 ps, exec (load_part w delayed sel (zip keys values, slices)) s = (Ok (o, kd values), s) /\ bundle delayed sel dim p0 ps o /\
      match slices with [] => p0 :: ps = [combined ds p] | _ => Forall2 (extracts dim (combined ds p)) slices (p0 :: ps) end /\
      Forall (fun q => sound q /\ same_layout dim (combined ds p) q) (p0 :: ps).
  Proof using Hso Hh Hmo Hk Hag Hw Hcov Hlen.
    intros Hsl Hse. destruct (load_opens v w Hw ds p s values Hso Hh Hmo Hk Hag Hlen delayed sel Hcov) as (o & E & Ho).
    pose proof (combined_sound v w Hw ds p s values Hso Hmo Hk Hag) as Hsc.
    destruct slices as [|sl0 slices].
    { exists o, (combined ds p), []. split; [done|]. split; [|split; [done|]].
      - destruct (bundle_parts delayed sel dim (combined ds p) [] o []) as (o' & E' & Hb); [constructor; [exact Hsc|constructor]|constructor|constructor; [exact Ho|constructor]|]. by injection E' as <-.
      - constructor; [|constructor]. split; [exact Hsc|apply layout_refl]. }
    destruct Hse as [|(n0 & x0 & E0 & W0)]; [done|].
    assert (Hm : measured dim sel (combined ds p)).
    { exists n0, x0. split; [done|]. split; [by rewrite part_get, E0|]. by apply (mo_only _ _ Hmo) in E0 as [? _]. }
    assert (exists n, dget (d_dims (combined ds p)) dim = Some n) as [n Hn].
    { destruct Hm as (nm & x & _ & Ew & Hin). apply elem_of_list_lookup in Hin as [k Hkk]. destruct (proper_consistent _ (storable_proper _ (sound_storable _ Hsc)) _ _ Ew) as (_ & _ & Hc).
      destruct (Hc k dim Hkk) as (m & _ & Hm). by exists m. }
    assert (Hisel : forall sls, (forall sl, sl ∈ sls -> (0 <= sl.1 /\ 0 <= sl.2)%Z) -> exists os ps, traverse (fun sl => ds_isel o [(dim, ISlice (Some sl.1) (Some sl.2))]) sls = Ok os /\
              Forall2 (opens delayed sel) ps os /\ Forall2 (extracts dim (combined ds p)) sls ps /\ Forall (fun q => sound q /\ same_layout dim (combined ds p) q) ps).
    { induction sls as [|sl sls IH]; intros Hpos; [exists [], []; split; [done|split; [constructor|split; constructor]]|].
      destruct IH as (os & ps & Et & Hop & Hex & Hall); [intros; apply Hpos; by right|].
      destruct (Hpos sl ltac:(left)) as [Ha Hb]. pose proof (positions_range n sl.1 sl.2 Ha Hb) as Hp.
      destruct (isel_sound dim _ _ _ n Hsc Hn Hp) as (q & Ep & Hsp & Hred & Evp).
      destruct (isel_opens dim _ _ _ n Hsc Hn Hp delayed sel o q Ho Hm Ep) as (o' & Eo & Ho').
      exists (o' :: os), (q :: ps). split; [cbn [traverse]; rewrite Eo; cbn [rbind]; by rewrite Et|]. split; [by constructor|]. split.
      - constructor; [|done]. exists n. split; [done|]. exact Hred.
      - constructor; [|done]. split; [done|]. by eapply take_layout; [apply Hsc|]. }
    destruct (Hisel (sl0 :: slices) Hsl) as (os & ps & Et & Hop & Hex & Hall). inversion Hex as [|? q0 ? qs Hx0 Hxs]; subst. inversion Hop as [|? o0 ? os' Ho0 Hos]; subst.
    destruct (bundle_parts delayed sel dim q0 qs o0 os') as (of & Ef & Hb).
    - eapply Forall_impl; [exact Hall|]. by intros ? [? _].
    - inversion Hall as [|? ? [_ Hl0] Hl]; subst. eapply Forall_impl; [exact Hl|]. intros q [_ Hq]. eapply layout_trans; [by apply layout_sym|done].
    - by constructor.
    - exists of, q0, qs. split; [|done].
      unfold load_part, load_one in E |- *. cbn [fst snd] in E |- *. change (map (p_dir (c_part c)) (zip keys values)) with (kd values) in E |- *.
      set (selected := md_select_variables (c_meta c) sel None) in *.
      assert (Hsel : n0 ∈ selected).
      { apply (C47_select_variables (c_meta c) sel None (proj1 (vw_ref _ _ Hw))). split; [|split; [|done]].
        - apply dget_is_Some. by apply (mo_only _ _ Hmo n0 x0).
        - intros l ->. exact W0. }
      destruct (open_opens (part_dir c values) s ds delayed (Some selected) Hso Hh) as (oo & Eoo & Hoo). change (part_dir c values) with (c_dir c ++ kd values) in Eoo.
      rewrite exec_bind, Eoo in E |- *. cbv iota beta in E |- *. rewrite exec_bind in E |- *. destruct (exec (pseq _) s) as [[vs|ex] s1]; [|done]. cbv iota beta in E |- *.
      assert (Hne : d_dims oo <> []).
      { destruct Hoo as (Hrd & _). assert (Hx : dget (d_vars oo) n0 = Some (with_delayed (stored x0) delayed)) by (apply (reads_vars _ _ _ _ Hrd); split; [done|by exists x0]).
        destruct (proper_consistent _ (reads_proper _ _ _ _ Hrd) _ _ Hx) as (_ & _ & Hs). apply (mo_only _ _ Hmo) in E0 as [Hd _]. apply elem_of_list_lookup_1 in Hd as [k Hkk].
        destruct (Hs k _ Hkk) as (m & _ & Hm'). intros Hz. by rewrite Hz in Hm'. }
      destruct (d_dims oo) as [|dd dims]; [done|]. rewrite exec_bind in E |- *. cbn [exec] in E |- *. destruct (foldM _ _ _) as [o1|]; [|done]. cbn [exec pret] in E. injection E as -> ->.
      rewrite exec_bind. cbn [exec]. rewrite Et. rewrite exec_bind. cbn [exec]. destruct os' as [|o1' os']; [injection Ef as ->; done|]. by rewrite Ef.
  Qed.
End part.

(** The slices that an indexer gives for the partitions [ws]. *)
Lemma indexer_args c d indexer ws : plain_keys (c_part c) -> plain_path d -> StronglySorted row_lt ws -> (forall x, x ∈ ws -> length x = length (p_keys (c_part c))) ->
  exists vs, StronglySorted row_lt vs /\ (forall x, x ∈ vs <-> x ∈ ws /\ exists sl, (zip (p_keys (c_part c)) x, sl) ∈ indexer) /\
    build_indexer_args c indexer (map (fun x => d ++ key_dirs (c_part c) x) ws) = Ok (map (fun x => (zip (p_keys (c_part c)) x, slices_for indexer (zip (p_keys (c_part c)) x))) vs).
Proof.
  intros Hpk Hd Sw Lw. set (keys := p_keys (c_part c)) in *. unfold build_indexer_args.
  rewrite (traverse_map_ok (fun q => p_parse (c_part c) (path_str q)) (fun x => d ++ key_dirs (c_part c) x) (zip keys) ws).
  2: { intros x Hx. by apply (parse_key_dirs _ _ _ Hpk Hd), Lw. }
  cbn [rbind].
  destruct (sorted_keys_rows keys (List.filter (fun k => memb k (map (zip keys) ws)) (map fst indexer))) as (vs & E1 & S1 & L1 & V1).
  { intros k Hk. apply filter_elem_pred in Hk as [_ Hk]. unfold memb in Hk. apply bool_decide_eq_true in Hk. apply elem_of_list_In, in_map_iff in Hk as (x & <- & Hx). apply elem_of_list_In in Hx.
    exists x. split; [done|by apply Lw]. }
  exists vs. split; [done|]. split.
  - intros x. split.
    + intros Hx. pose proof (L1 x Hx) as Hl. apply (V1 x Hl) in Hx. apply filter_elem_pred in Hx as [Hin Hx]. unfold memb in Hx. apply bool_decide_eq_true in Hx. split.
      * apply elem_of_list_In, in_map_iff in Hx as (y & Ey & Hy). apply elem_of_list_In in Hy. assert (x = y) as ->; [|done].
        rewrite <-(snd_zip keys x), <-(snd_zip keys y), Ey by (rewrite ?(Lw y Hy), ?Hl; lia). done.
      * apply elem_of_list_In, in_map_iff in Hin as ([k sl] & Ek & Hin). cbn in Ek. subst k. exists sl. by apply elem_of_list_In.
    + intros [Hx (sl & Hin)]. apply (V1 x (Lw x Hx)). apply filter_elem_pred. split.
      * apply elem_of_list_In, in_map_iff. exists (zip keys x, sl). split; [done|by apply elem_of_list_In].
      * unfold memb. apply bool_decide_eq_true, elem_of_list_In, in_map_iff. exists x. split; [done|by apply elem_of_list_In].
  - rewrite E1, map_map. f_equal. apply map_ext. intros x. f_equal. unfold slices_for. f_equal. clear.
    induction indexer as [|i l IH]; [done|]. cbn [List.filter]. rewrite filter_cons. destruct (decide (i.1 = zip keys x)) as [Ei|Ei].
    + rewrite bool_decide_true by done. by rewrite IH.
    + rewrite bool_decide_false by done. by rewrite IH.
Qed.

Section all.
  Context (v : venv) (w : view) (Hw : viewable v w) (M : list Z -> option dataset) (I : option dataset) (V : list Z -> option vpart) (s : store).
  Local Notation c := (w_ref w).
  Local Notation keys := (p_keys (c_part c)).
  Local Notation kd := (key_dirs (c_part c)).
  Local Notation dim := (c_dim c).
  Context (Hs : represents c M I s) (Hu : uniform c M I) (Hv : holds_view v w V s).
  Context (Hmo : forall x ds, M x = Some ds -> made_of c ds) (Hag : forall x ds p, M x = Some ds -> V x = Some p -> agrees ds p).
  Context (delayed : bool) (sel : option (list str)) (Hcov : covers w sel).

  (** The partition [x], with the slices [sls]: no slice stands for all the records. *)
  Definition cut (x : list Z) (sls : list (Z * Z)) (g : dataset * list dataset) : Prop :=
    exists ds p, M x = Some ds /\ V x = Some p /\ Forall (fun q => sound q /\ same_layout dim (combined ds p) q) (g.1 :: g.2) /\
      match sls with [] => g.1 :: g.2 = [combined ds p] | _ => Forall2 (extracts dim (combined ds p)) sls (g.1 :: g.2) end.
  Lemma load_cuts vs (sls : list Z -> list (Z * Z)) : (forall x, x ∈ vs -> is_Some (M x) /\ is_Some (V x)) -> (forall x sl, x ∈ vs -> sl ∈ sls x -> (0 <= sl.1 /\ 0 <= sl.2)%Z) ->
    (forall x ds, x ∈ vs -> M x = Some ds -> sls x = [] \/ exists n a, dget (d_vars ds) n = Some a /\ wanted sel n) ->
    exists os gs, exec (pseq (map (load_part w delayed sel) (map (fun x => (zip keys x, sls x)) vs))) s = (Ok (zip os (map kd vs)), s) /\ length os = length vs /\
      Forall2 (fun g o => bundle delayed sel dim g.1 g.2 o) gs os /\ Forall2 (fun x g => cut x (sls x) g) vs gs.
  Proof using Hs Hv Hmo Hag Hcov Hw.
    intros Hin Hpos Hse.
    assert (H : exists os gs, Forall2 (fun p x => exec p s = (Ok x, s)) (map (load_part w delayed sel) (map (fun x => (zip keys x, sls x)) vs)) (zip os (map kd vs)) /\ length os = length vs /\
      Forall2 (fun g o => bundle delayed sel dim g.1 g.2 o) gs os /\ Forall2 (fun x g => cut x (sls x) g) vs gs).
    { induction vs as [|x vs IH]; [exists [], []; split; [constructor|split; [done|split; constructor]]|].
      destruct IH as (os & gs & H1 & H2 & H3 & H4).
      { intros; apply Hin; by right. }
      { intros y sl Hy; apply Hpos; by right. }
      { intros y ds Hy; apply Hse; by right. }
      destruct (Hin x ltac:(left)) as [[ds Hds] [p Hp]]. destruct (rp_part _ _ _ _ Hs _ _ Hds) as (Hl & Hso & Hh). destruct (hw_part _ _ _ _ Hv _ _ Hp) as (_ & Hk).
      destruct (load_bundle v w Hw ds p s x Hso Hh (Hmo _ _ Hds) Hk (Hag _ _ _ Hds Hp) Hl delayed sel Hcov (sls x)) as (o & p0 & ps & E & Hb & Hx & Hf).
      { intros sl. apply Hpos. left. }
      { apply (Hse x ds ltac:(left) Hds). }
      exists (o :: os), ((p0, ps) :: gs). cbn [map zip zip_with]. split; [by constructor|]. split; [cbn; lia|]. split; [by constructor|]. constructor; [|done]. exists ds, p. cbn [fst snd]. done. }
    destruct H as (os & gs & H1 & H2 & H3 & H4). exists os, gs. split; [by apply exec_pseq_pure|]. done.
  Qed.
  Lemma cut_layout x1 x2 sl1 sl2 g1 g2 q1 q2 : cut x1 sl1 g1 -> cut x2 sl2 g2 -> q1 ∈ g1.1 :: g1.2 -> q2 ∈ g2.1 :: g2.2 -> same_layout dim q1 q2.
  Proof using Hs Hu Hv Hmo Hag Hw.
    intros (ds1 & p1 & M1 & V1 & F1 & _) (ds2 & p2 & M2 & V2 & F2 & _) H1 H2. rewrite Forall_forall in F1, F2. destruct (F1 _ H1) as [_ L1]. destruct (F2 _ H2) as [_ L2].
    destruct (rp_part _ _ _ _ Hs _ _ M1) as (_ & So1 & _). destruct (rp_part _ _ _ _ Hs _ _ M2) as (_ & So2 & _).
    destruct (hw_part _ _ _ _ Hv _ _ V1) as (_ & K1). destruct (hw_part _ _ _ _ Hv _ _ V2) as (_ & K2).
    eapply layout_trans; [apply layout_sym; exact L1|]. eapply layout_trans; [|exact L2].
    eapply combined_layout; [exact Hw|done|done|by eapply Hmo|by eapply Hmo|done|done|by eapply Hag|by eapply Hag|]. by apply (un_layout _ _ _ Hu x1 x2).
  Qed.
  Lemma load_all vs (sls : list Z -> list (Z * Z)) : vs <> [] -> (forall x, x ∈ vs -> is_Some (M x) /\ is_Some (V x)) -> (forall x sl, x ∈ vs -> sl ∈ sls x -> (0 <= sl.1 /\ 0 <= sl.2)%Z) ->
    (forall x ds, x ∈ vs -> M x = Some ds -> sls x = [] \/ exists n a, dget (d_vars ds) n = Some a /\ wanted sel n) ->
    exists gs out, Forall2 (fun x g => cut x (sls x) g) vs gs /\ gathered (joint w) delayed sel (concat (map (fun g => g.1 :: g.2) gs)) None out /\
      exec (let! l <- pseq (map (load_part w delayed sel) (map (fun x => (zip keys x, sls x)) vs));
            match map fst l with
            | [] => pret None
            | ds :: others =>
                let! ds <- Ret (match others with [] => Ok ds | _ => ds_concat ds others (c_dim (w_ref w)) end);
                let! ds <- Ret (ds_fill_attrs ds (view_metadata w));
                pret (Some ds)
            end) s = (Ok (Some out), s).
  Proof using All.
    intros Hne Hin Hpos Hse. destruct (load_cuts vs sls Hin Hpos Hse) as (os & gs & E & Hl & Hb & Hc). rewrite exec_bind, E. cbv iota beta.
    assert (map fst (zip os (map kd vs)) = os) as ->. { change (map fst ?l) with (l.*1). rewrite fst_zip; [done|]. rewrite map_length. lia. }
    destruct vs as [|x vs]; [done|]. inversion Hc as [|? [p ps] ? gs' Hc0 Hcs]; subst. inversion Hb as [|? o ? os' Hb0 Hbs]; subst.
    assert (Hcut : forall g, g ∈ (p, ps) :: gs' -> exists x sl, cut x sl g).
    { intros g Hg. apply elem_of_list_lookup_1 in Hg as [i Hi]. destruct (Forall2_lookup_r _ _ _ _ _ Hc Hi) as (y & _ & Hy). by eexists _, _. }
    destruct (bundles_gather delayed sel dim p ps gs' o os') as (dsc & Ec & Hbd).
    - destruct (Hcut (p, ps) ltac:(left)) as (? & ? & ? & ? & _ & _ & Hf & _). inversion Hf as [|? ? [? _] _]; subst. done.
    - intros g Hg. destruct (Hcut g ltac:(by right)) as (? & ? & ? & ? & _ & _ & Hf & _). inversion Hf as [|? ? [? _] _]; subst. done.
    - intros g Hg. destruct (Hcut g ltac:(by right)) as (x2 & sl2 & Hg2). eapply (cut_layout _ _ _ _ (p, ps) g); [exact Hc0|exact Hg2|left|left].
    - by constructor.
    - rewrite exec_bind. cbn [exec]. rewrite Ec.
      destruct (bundle_fill (joint w) delayed sel p (ps ++ concat (map (fun g => g.1 :: g.2) gs')) dsc) as (out & Ef & Hga).
      + exact Hbd.
      + change (c_dim (joint w)) with dim. apply Forall_forall. intros q Hq. apply elem_of_app in Hq as [Hq|Hq].
        * eapply (cut_layout _ _ _ _ (p, ps) (p, ps)); [exact Hc0|exact Hc0|left|by right].
        * apply elem_of_list_In, in_concat in Hq as (l & Hl' & Hq). apply in_map_iff in Hl' as (g & <- & Hg). apply elem_of_list_In in Hg, Hq.
          destruct (Hcut g ltac:(by right)) as (x2 & sl2 & Hg2). eapply (cut_layout _ _ _ _ (p, ps) g); [exact Hc0|exact Hg2|left|done].
      + intros n Hn. destruct Hc0 as (ds & pv & HM & HV & Hf & _). inversion Hf as [|? ? [_ [Hla _]] _]; subst. cbn [fst] in *. apply Hla in Hn. rewrite part_keys, elem_of_app in Hn.
        cbn [joint c_meta md_vars]. unfold dkeys. rewrite map_app, elem_of_app. destruct Hn as [Hn|Hn]; [left; by apply (un_declared _ _ _ Hu x ds)|right].
        destruct (hw_part _ _ _ _ Hv _ _ HV) as (_ & Hk). by apply (kt_same _ _ _ _ Hk).
      + exists ((p, ps) :: gs'), out. split; [done|]. split; [exact Hga|]. rewrite exec_bind. cbn [exec]. rewrite (joint_meta v w Hw), Ef. done.
  Qed.
End all.
