(** * Writing the variables of a view *)
From Verif Require Import Py Dict NdArray_Model NdArray_Spec NdArray_Proofs Dataset_Model Dataset_Spec Dataset_Proofs Dataset_Props2 Assemble_Proofs
  Meta_Model PartPath_Model PartPath_Proofs Split_Spec DaskUtils_Model DaskUtils_Proofs Dataset_Concat FS_Model FS_Proofs Pool_Model Pool_Proofs
  Storage_Model Storage_Spec Storage_Chunks Storage_Proofs Storage_Change
  Listing_Model Listing_Spec Listing_Proofs Collection_Model Collection_Spec Collection_Proofs Collection_State Collection_Select Collection_Load
  Update_Model Update_Spec Update_State Update_Proofs Overlap_Proofs View_Model View_Spec View_State View_Proofs View_Sync View_Vars View_Props2 View_Load View_Map.

(** ** Tasks on partitions *)
Definition set_at {D} (V : list Z -> option D) (x : list Z) (d : D) (y : list Z) : option D := if decide (y = x) then Some d else V y.

Section tasks.
  Context {D : Type} (Rep : (list Z -> option D) -> store -> Prop).
  (** What [task x] does to the partitions [dom x], whose contents satisfy
      [pre]. *)
  Definition acts {X : Type} (pre : list Z -> D -> Prop) (dom : X -> list (list Z)) (task : X -> program unit)
      (rel : list Z -> D -> D -> res unit -> Prop) (region : list Z -> path -> Prop) (x : X) : Prop :=
    forall V s, Rep V s -> (forall y, y ∈ dom x -> exists old, V y = Some old /\ pre y old) ->
      exists r s' V', exec (task x) s = (r, s') /\ Rep V' s' /\ (forall y, y ∉ dom x -> V' y = V y) /\
        (forall y old, y ∈ dom x -> V y = Some old -> exists new, V' y = Some new /\ (new = old /\ is_ok r = false \/ exists ry, rel y old new ry /\ (r = Ok tt -> ry = Ok tt))) /\
        (forall ex, r = Raise ex -> exists y old new, y ∈ dom x /\ V y = Some old /\ rel y old new (Raise ex)) /\
        forall q, (forall y, y ∈ dom x -> ~ region y q) -> s' !! q = s !! q.

  Lemma acts_list {A : Type} pre (item : list Z -> A) task rel region : forall vs, NoDup vs -> (forall y, y ∈ vs -> acts pre (fun y => [y]) (fun y => task (item y)) rel region y) ->
    acts pre (fun vs => vs) (fun vs => pfor (map item vs) task) rel region vs.
  Proof using.
    induction vs as [|v vs IH]; intros Hnd Hd M s Hs Hsome.
    { exists (Ok tt), s, M. split_and!; try done. intros v old Hv. by apply elem_of_nil in Hv. }
    inversion Hnd as [|? ? Hnv Hnd']; subst.
    destruct (Hd v ltac:(left) M s Hs) as (r1 & s1 & M1 & E1 & Hs1 & Hout1 & Hin1 & Hex1 & Hreg1).
    { intros w Hw. apply Hsome. apply elem_of_list_singleton in Hw as ->. left. }
    assert (Estep : exec (pfor (map item (v :: vs)) task) s = match r1 with Ok _ => exec (pfor (map item vs) task) s1 | Raise ex => (Raise ex, s1) end).
    { unfold pfor. cbn [map pseq]. rewrite exec_bind, exec_bind, E1. destruct r1; [|done]. rewrite exec_bind, !exec_bind.
      destruct (exec (pseq (map task (map item vs))) s1) as [[]]; done. }
    rewrite Estep. destruct r1 as [[]|ex].
    - destruct (IH Hnd' (fun w Hw => Hd w (elem_of_list_further _ _ _ Hw)) M1 s1 Hs1) as (r & s' & M' & E & Hs' & Hout & Hin & Hex & Hreg).
      { intros w Hw. rewrite Hout1; [apply Hsome; by right|]. rewrite elem_of_list_singleton. intros ->. done. }
      exists r, s', M'. split_and!; try done.
      + intros w Hw. rewrite Hout, Hout1; [done|..]; [rewrite elem_of_list_singleton; intros ->; apply Hw; left|]. intros H. apply Hw. by right.
      + intros w old Hw Hold. destruct (decide (w = v)) as [->|Nw].
        * destruct (Hin1 v old ltac:(left) Hold) as (new & Enew & Hcase). exists new. rewrite Hout by done. split; [done|].
          right. destruct Hcase as [[_ ?]|(rv & Hrel & Hrv)]; [done|]. exists rv. split; [done|]. intros _. by apply Hrv.
        * apply elem_of_cons in Hw as [|Hw]; [done|]. apply (Hin w old Hw). rewrite Hout1; [done|]. by rewrite elem_of_list_singleton.
      + intros ex Eex. destruct (Hex ex Eex) as (w & old & new & Hw & Hold & Hrel). exists w, old, new. split; [by right|]. split; [|done].
        rewrite <-Hout1; [done|]. rewrite elem_of_list_singleton. intros ->. done.
      + intros q Hq. rewrite Hreg, Hreg1; [done|..].
        * intros w Hw. apply Hq. apply elem_of_list_singleton in Hw as ->. left.
        * intros w Hw. apply Hq. by right.
    - exists (Raise ex), s1, M1. split_and!; try done.
      + intros w Hw. apply Hout1. rewrite elem_of_list_singleton. intros ->. apply Hw. left.
      + intros w old Hw Hold. destruct (decide (w = v)) as [->|Nw]; [apply (Hin1 v old ltac:(left) Hold)|].
        exists old. split; [|by left]. rewrite Hout1; [done|]. by rewrite elem_of_list_singleton.
      + intros ex' Eex. destruct (Hex1 ex' Eex) as (w & old & new & Hw & ?). exists w, old, new. split; [|done].
        apply elem_of_list_singleton in Hw as ->. left.
      + intros q Hq. apply Hreg1. intros w Hw. apply Hq. apply elem_of_list_singleton in Hw as ->. left.
  Qed.

  Lemma acts_all {X : Type} pre dom task rel region : forall (items : list X), NoDup (concat (map dom items)) ->
    (forall x, x ∈ items -> acts pre dom task rel region x) -> forall M s, Rep M s -> (forall v, v ∈ concat (map dom items) -> exists old, M v = Some old /\ pre v old) ->
    exists rs s' M', exec_all (map task items) s = (rs, s') /\ Rep M' s' /\ (forall v, v ∉ concat (map dom items) -> M' v = M v) /\
      (forall v old, v ∈ concat (map dom items) -> M v = Some old -> exists new, M' v = Some new /\
         (new = old /\ is_ok (first_error rs) = false \/ exists rv, rel v old new rv /\ (is_ok (first_error rs) = true -> rv = Ok tt))) /\
      (forall ex, Raise ex ∈ rs -> exists v old new, v ∈ concat (map dom items) /\ M v = Some old /\ rel v old new (Raise ex)) /\
      forall q, (forall v, v ∈ concat (map dom items) -> ~ region v q) -> s' !! q = s !! q.
  Proof using.
    induction items as [|x items IH]; intros Hnd Hd M s Hs Hsome.
    { exists [], s, M. split_and!; try done.
      - intros v old Hv. by apply elem_of_nil in Hv.
      - intros ex Hx. by apply elem_of_nil in Hx. }
    cbn [map concat] in *. apply NoDup_app in Hnd as (Hnd1 & Hdis & Hnd2).
    destruct (Hd x ltac:(left) M s Hs) as (r1 & s1 & M1 & E1 & Hs1 & Hout1 & Hin1 & Hex1 & Hreg1).
    { intros w Hw. apply Hsome, elem_of_app. by left. }
    destruct (IH Hnd2 (fun w Hw => Hd w (elem_of_list_further _ _ _ Hw)) M1 s1 Hs1) as (rs & s' & M' & E & Hs' & Hout & Hin & Hex & Hreg).
    { intros w Hw. rewrite Hout1; [apply Hsome, elem_of_app; by right|]. intros Hw'. by apply (Hdis w). }
    exists (r1 :: rs), s', M'. cbn [exec_all]. rewrite E1, E.
    assert (Hfe : is_ok (first_error (r1 :: rs)) = true -> r1 = Ok tt /\ is_ok (first_error rs) = true).
    { cbn. destruct r1 as [[]|]; [|done]. destruct (first_error rs); done. }
    split_and!; try done.
    - intros w Hw. rewrite elem_of_app in Hw. rewrite Hout, Hout1; [done|..]; tauto.
    - intros w old Hw Hold. rewrite elem_of_app in Hw. destruct (decide (w ∈ dom x)) as [Hwx|Hwx].
      + assert (Hw' : w ∉ concat (map dom items)) by (by apply Hdis). destruct (Hin1 w old Hwx Hold) as (new & Enew & Hcase).
        exists new. rewrite Hout by done. split; [done|]. destruct Hcase as [[-> Hr1]|(rv & Hrel & Hrv)].
        * left. split; [done|]. destruct r1 as [|]; [done|]. done.
        * right. exists rv. split; [done|]. intros H. apply Hfe in H as [? _]. by apply Hrv.
      + destruct Hw as [|Hw]; [done|]. destruct (Hin w old Hw) as (new & Enew & Hcase); [by rewrite Hout1|]. exists new. split; [done|].
        destruct Hcase as [[-> Hf]|(rv & Hrel & Hrv)].
        * left. split; [done|]. cbn. destruct r1 as [[]|]; [|done]. by destruct (first_error rs).
        * right. exists rv. split; [done|]. intros H. apply Hfe in H as [_ ?]. by apply Hrv.
    - intros ex [Hx|Hx]%elem_of_cons.
      + destruct (Hex1 ex (eq_sym Hx)) as (w & old & new & Hw & ?). exists w, old, new. split; [apply elem_of_app; by left|done].
      + destruct (Hex ex Hx) as (w & old & new & Hw & Hold & Hrel). exists w, old, new. split; [apply elem_of_app; by right|].
        split; [|done]. rewrite <-Hout1; [done|]. intros Hw'. by apply (Hdis w).
    - intros q Hq. rewrite Hreg, Hreg1; [done|..]; intros w Hw; apply Hq, elem_of_app; tauto.
  Qed.
End tasks.

(** ** The values of variables of one partition *)
Definition vassign (p : vpart) (l : list (str * arr)) : vpart := VPart (vp_axis p) (map (assign l) (vp_vars p)).
Definition vfits (p : vpart) (l : list (str * arr)) : Prop :=
  forall n a, dget l n = Some a -> arr_wf a /\ exists x, dget (vp_vars p) n = Some x /\ a_shape a = v_shape x.
Lemma vassign_keys p l : dkeys (vp_vars (vassign p l)) = dkeys (vp_vars p).
Proof. unfold dkeys, vassign. cbn. by rewrite map_map. Qed.
Lemma vassign_get p l n : dget (vp_vars (vassign p l)) n = option_map (fun x => match dget l n with Some a => with_array x a | None => x end) (dget (vp_vars p) n).
Proof. unfold vassign. cbn. induction (vp_vars p) as [|[m x] vars IH]; [done|]. cbn. destruct (decide (n = m)) as [->|]; [done|apply IH]. Qed.
Lemma vassign_nil p : vassign p [] = p.
Proof. unfold vassign. destruct p as [a vars]. f_equal. cbn. rewrite <-(map_id vars) at 2. apply map_ext. by intros [n x]. Qed.
Lemma combined_vassign ds p l : (forall n, n ∈ dkeys l -> dget (d_vars ds) n = None) -> NoDup (dkeys (d_vars ds)) -> combined ds (vassign p l) = assign_all (combined ds p) l.
Proof.
  intros Hn Hnd. unfold combined, assign_all, with_vars. cbn. f_equal. rewrite map_app. f_equal.
  - rewrite <-(map_id (d_vars ds)) at 1. apply map_ext_in. intros [n x] Hin. unfold assign. cbn. f_equal. destruct (dget l n) as [a|] eqn:E; [|done]. exfalso.
    assert (dget (d_vars ds) n = None) by (apply Hn, dget_is_Some; by eexists). apply elem_of_list_In in Hin. apply (elem_dget _ _ _ Hnd) in Hin. congruence.
  - rewrite !map_map. apply map_ext. intros [n x]. unfold assign. cbn. f_equal. by destruct (dget l n).
Qed.
Lemma vassign_agrees ds p l : agrees ds p -> vfits p l -> agrees ds (vassign p l).
Proof.
  intros Ha Hf n y. rewrite vassign_get. destruct (dget (vp_vars p) n) as [x|] eqn:Ex; [|done]. intros [= <-]. destruct (Ha _ _ Ex) as (H1 & H2 & H3).
  destruct (dget l n) as [a|] eqn:El; [|done]. destruct (Hf _ _ El) as (_ & x' & Ex' & Hsh). assert (x' = x) as -> by congruence. split; [|done].
  intros k d Hk. cbn in Hk. destruct (H1 k d Hk) as (m & Hm & Hd). exists m. split; [|done]. unfold v_shape at 1. cbn. by rewrite Hsh.
Qed.

Section write.
  Context (v : venv) (w : view) (Hw : viewable v w).
  Local Notation c := (w_ref w).
  Local Notation keys := (p_keys (c_part c)).
  Local Notation kd := (key_dirs (c_part c)).
  Local Notation dim := (c_dim c).

  (** The files of one partition, after the values of [n] were written. *)
  Lemma keeps_part_write t p n x cs y : keeps_part v w t p -> dget (vp_vars p) n = Some x -> chunked (v_shape x) cs -> t !! [n; ZARRAY] = Some (CMeta (MArray (zarr_for x cs))) ->
    (forall idx, length idx = length (v_shape x) -> ~ valid (v_shape x) idx -> read_item (zarr_for x cs) (sub [n] t) idx = Ok (blank x)) -> arr_wf y -> a_shape y = v_shape x ->
    keeps_part v w (graft [n] (chunk_tree (zarr_for x cs) false y) t) (vassign p [(n, y)]).
  Proof using Hw.
    intros Hk Hx Hc Hz Hout Hy Hsh. destruct (kt_vars _ _ _ _ Hk _ _ Hx) as (mv & Em & Hf & Kx). destruct (vw_vars _ _ Hw _ _ Em) as (_ & Hnc & _).
    assert (Hsub : forall m, m <> n -> sub [m] (graft [n] (chunk_tree (zarr_for x cs) false y) t) = sub [m] t).
    { intros m Nm. apply map_eq. intros q. rewrite !sub_lookup. apply graft_lookup_out. intros (r & Er). by injection Er. }
    split.
    - intros q z Hq. rewrite graft_lookup in Hq. destruct (strip [n] q) as [r|] eqn:E.
      + apply strip_Some in E as ->. exists n, r. split; [done|]. right. apply dget_is_Some. by eexists.
      + by apply (kt_names _ _ _ _ Hk q z).
    - destruct (kt_axis _ _ _ _ Hk) as (H1 & dt & H2). split; [done|]. exists dt. rewrite Hsub by done. done.
    - rewrite vassign_keys. apply Hk.
    - intros m. rewrite vassign_keys. apply Hk.
    - intros m a. rewrite vassign_get. destruct (dget (vp_vars p) m) as [x'|] eqn:Ex'; [|done]. intros [= <-]. cbn [dget]. destruct (decide (m = n)) as [->|Nm].
      + assert (x' = x) as -> by congruence. exists mv. split; [done|]. split; [exact Hf|]. rewrite sub_graft_same.
        apply keeps_set; [done|by rewrite sub_lookup|done|apply Kx|apply Kx|done|done].
      + destruct (kt_vars _ _ _ _ Hk _ _ Ex') as (mv' & Em' & Hf' & K'). exists mv'. rewrite Hsub by done. done.
    - intros m a k. rewrite vassign_get. destruct (dget (vp_vars p) m) as [x'|] eqn:Ex'; [|done]. intros [= <-]. cbn [dget]. destruct (decide (m = n)) as [->|Nm].
      + assert (x' = x) as -> by congruence. cbn. unfold v_shape at 1. cbn. rewrite Hsh. apply (kt_sizes _ _ _ _ Hk n x k Hx).
      + apply (kt_sizes _ _ _ _ Hk m x' k Ex').
  Qed.

  Context (M : list Z -> option dataset) (I : option dataset).
  Record shown (V : list Z -> option vpart) (s : store) : Prop := {
    sh_ref : represents c M I s;
    sh_view : holds_view v w V s;
    sh_agrees : forall x ds p, M x = Some ds -> V x = Some p -> agrees ds p;
  }.
  Lemma shown_ext V V' s : (forall x, V' x = V x) -> shown V s -> shown V' s.
  Proof using.
    intros E [H1 [H2 H3] H4]. split; [done|split|].
    - intros q x Hq. destruct (H2 q x Hq) as [?|(y & f & Hy & ?)]; [by left|right]. exists y, f. by rewrite E.
    - intros y p. rewrite E. apply H3.
    - intros x ds p Hd. rewrite E. by apply H4.
  Qed.
  Lemma shown_set V s s' x p0 p : shown V s -> V x = Some p0 -> keeps_part v w (sub (vdir w x) s') p -> (forall ds, M x = Some ds -> agrees ds p) ->
    (forall q, ~ under (vdir w x) q -> s' !! q = s !! q) -> shown (set_at V x p) s'.
  Proof using Hw.
    intros [H1 H2 H3] Hx Hk Ha Hout. destruct (hw_part _ _ _ _ H2 _ _ Hx) as (Hl & _). split.
    - eapply (represents_frame w); [exact H1|]. intros q Hq. apply Hout. intros U. eapply (vw_apart _ _ Hw); [by eapply under_more|exact Hq].
    - apply (holds_view_change v w V s [x] _ s' H2).
      + intros y Hy. apply elem_of_list_singleton in Hy as ->. split; [done|]. exists p. split; [|done]. unfold set_at. by rewrite decide_True.
      + intros y Hy. rewrite elem_of_list_singleton in Hy. unfold set_at. by rewrite decide_False.
      + intros q _ Hq. apply Hout. apply Hq. left.
    - intros y ds p' Hd. unfold set_at. destruct (decide (y = x)) as [->|]; [intros [= <-]; by apply Ha|]. by apply H3.
  Qed.

  (** One variable of one partition. *)
  Lemma view_variable V s x p l n (array : program vdata) r : shown (set_at V x (vassign p l)) s -> vfits p l -> n ∉ dkeys l -> n <> CHECKSUM ->
    exec array s = (r, s) -> (forall y, r = Ok y -> vd_wf y) ->
    exists r' s', exec (update_zarr_array (vdir w x ++ [n]) array) s = (r', s') /\
      ((s' = s /\ exists ex, r' = Raise ex) \/
       exists a y, r' = Ok tt /\ dget (vp_vars p) n = Some a /\ r = Ok y /\ vd_shape y = v_shape a /\ vfits p (l ++ [(n, to_store (v_fill a) y)]) /\
         shown (set_at V x (vassign p (l ++ [(n, to_store (v_fill a) y)]))) s' /\ (forall q, ~ under (vdir w x ++ [n]) q -> s' !! q = s !! q)) /\
      (forall a y, dget (vp_vars p) n = Some a -> r = Ok y -> v_shape a <> [] -> vd_shape y = v_shape a -> r' = Ok tt).
  Proof using Hw.
    intros Hs Hf Hn Hnc Ea Hwf. set (cur := vassign p l) in *. set (V1 := set_at V x cur) in *.
    assert (E1 : V1 x = Some cur) by (unfold V1, set_at; by rewrite decide_True).
    destruct (hw_part _ _ _ _ (sh_view _ _ Hs) _ _ E1) as (Hl & Hk).
    assert (Hget : dget (vp_vars cur) n = dget (vp_vars p) n).
    { unfold cur. rewrite vassign_get. apply dget_None in Hn. rewrite Hn. by destruct (dget (vp_vars p) n). }
    unfold update_zarr_array. rewrite exec_bind, exec_read_file, <-app_assoc. cbn [app].
    destruct (dget (vp_vars p) n) as [a|] eqn:En.
    2:{ assert (s !! (vdir w x ++ [n; ZARRAY]) = None) as ->.
        { destruct (s !! (vdir w x ++ [n; ZARRAY])) as [y|] eqn:E; [|done]. rewrite <-sub_lookup in E. apply (kt_names _ _ _ _ Hk) in E as (m & f & [= <- _] & [?|Hm]); [done|].
          apply (kt_same _ _ _ _ Hk) in Hm. apply dget_is_Some in Hm as [? Hm]. congruence. }
        exists (Raise TypeError), s. split; [done|]. split; [left; eauto|done]. }
    destruct (kt_vars _ _ _ _ Hk _ _ Hget) as (mv & Em & Hfi & Ka). destruct (keeps_outside _ _ Ka) as (cs & Hc & Hz & Ho). rewrite !sub_lookup in Hz.
    assert (Hz' : s !! (vdir w x ++ [n; ZARRAY]) = Some (CMeta (MArray (zarr_for a cs)))). { rewrite <-Hz. f_equal. }
    rewrite Hz'. rewrite exec_bind, Ea. destruct r as [y|ex]; [|exists (Raise ex), s; split; [done|]; split; [left; eauto|done]].
    cbn [z_shape z_fill zarr_for]. destruct (v_shape a) as [|k sh] eqn:Es.
    { exists (Raise IndexError), s. split; [done|]. split; [left; eauto|]. intros a' y' [= <-] _ H _. by rewrite Es in H. }
    case_bool_decide as Hsh.
    2:{ exists (Raise ValueError), s. split; [done|]. split; [left; eauto|]. intros a' y' [= <-] [= <-] _ E. rewrite to_store_shape in Hsh. congruence. }
    rewrite to_store_shape in Hsh. rewrite exec_write_chunks by (cbn; by rewrite Es).
    eexists _, _. split; [reflexivity|]. split; [|done]. right. exists a, y.
    assert (Hfit : vfits p (l ++ [(n, to_store (v_fill a) y)])).
    { intros m b. rewrite dget_app. destruct (dget l m) as [b'|] eqn:El; [intros [= <-]; by apply Hf|]. cbn.
      destruct (decide (m = n)) as [->|]; [|done]. intros [= <-]. split; [by apply to_store_wf, Hwf|]. exists a. split; [done|]. rewrite to_store_shape. congruence. }
    split; [done|]. split; [done|]. split; [done|]. split; [congruence|]. split; [done|]. split; [|intros q Hq; by apply graft_lookup_out].
    apply (shown_ext (set_at V1 x (vassign p (l ++ [(n, to_store (v_fill a) y)])))).
    { intros z. unfold V1, set_at. by destruct (decide (z = x)). }
    assert (Evv : vassign p (l ++ [(n, to_store (v_fill a) y)]) = vassign cur [(n, to_store (v_fill a) y)]).
    { unfold cur, vassign. f_equal. cbn [vp_vars vp_axis]. rewrite map_map. apply map_ext. intros [m b]. unfold assign. cbn. f_equal. rewrite dget_app. cbn.
      destruct (decide (m = n)) as [->|]; [|by destruct (dget l m)]. apply dget_None in Hn. by rewrite Hn. }
    apply (shown_set V1 s _ x cur); [done|done| | |].
    - rewrite Evv. rewrite sub_graft_in. apply keeps_part_write; [done|done|by rewrite Es|by rewrite sub_lookup|by rewrite Es|by apply to_store_wf, Hwf|]. rewrite to_store_shape. congruence.
    - intros ds Hd. rewrite Evv. apply vassign_agrees; [by apply (sh_agrees _ _ Hs x)|]. intros m b. cbn. destruct (decide (m = n)) as [->|]; [|done]. intros [= <-].
      split; [by apply to_store_wf, Hwf|]. exists a. split; [done|]. rewrite to_store_shape. congruence.
    - intros q Hq. apply graft_lookup_out. intros U. apply Hq. eapply under_trans; [apply under_app|done].
  Qed.

  (** All the variables that a callback returns, for one partition. *)
  Definition writes (V : list Z -> option vpart) (x : list Z) (p : vpart) (names : list str) (body : str * result -> program unit) (Q : str * result -> vdata -> Prop) (nr : str * result) : Prop :=
    forall l s, vfits p l -> (forall m, m ∈ dkeys l -> m ∈ names) -> shown (set_at V x (vassign p l)) s ->
      (exists ex, exec (body nr) s = (Raise ex, s)) \/
      exists array r, exec array s = (r, s) /\ exec (body nr) s = exec (update_zarr_array (vdir w x ++ [nr.1]) array) s /\
        forall y, r = Ok y -> vd_wf y /\ Q nr y.
  Lemma view_loop V x p names body Q : CHECKSUM ∉ names -> forall todo dn s, NoDup (dkeys dn ++ dkeys todo) ->
    (forall m, m ∈ dkeys dn ++ dkeys todo -> m ∈ names) -> vfits p dn ->
    shown (set_at V x (vassign p dn)) s -> (forall nr, nr ∈ todo -> writes V x p names body Q nr) ->
    exists r s' xs, exec (pfor todo body) s = (r, s') /\ vfits p (dn ++ xs) /\ shown (set_at V x (vassign p (dn ++ xs))) s' /\
      (forall q, (forall n, n ∈ dkeys todo -> ~ under (vdir w x ++ [n]) q) -> s' !! q = s !! q) /\
      (exists k, Forall2 (fun nr na => na.1 = nr.1 /\ exists a y, dget (vp_vars p) nr.1 = Some a /\ Q nr y /\ vd_wf y /\ na.2 = to_store (v_fill a) y /\ vd_shape y = v_shape a) (take k todo) xs /\
         match r with
         | Ok _ => k = length todo
         | Raise ex => exists nr l s1, nr ∈ todo /\ vfits p l /\ (forall m, m ∈ dkeys l -> m ∈ names /\ m <> nr.1) /\
                         shown (set_at V x (vassign p l)) s1 /\ (exec (body nr) s1).1 = Raise ex
         end).
  Proof using Hw.
    intros Hck todo. induction todo as [|nr todo IH]; intros dn s Hnd Hna Hf Hs Hb.
    - exists (Ok tt), s, []. rewrite app_nil_r. split; [done|]. split; [done|]. split; [done|]. split; [done|]. exists 0. split; [constructor|done].
    - assert (Hn : nr.1 ∉ dkeys dn) by (intros Hin; cbn in Hnd; apply NoDup_app in Hnd as (_ & Hd & _); apply (Hd _ Hin); left).
      assert (Hnc : nr.1 <> CHECKSUM) by (intros E; apply Hck; rewrite <-E; apply Hna, elem_of_app; right; left).
      assert (Hnr := Hb nr ltac:(left) dn s Hf (fun m Hm => Hna m (proj2 (elem_of_app _ _ _) (or_introl Hm))) Hs).
      assert (Estep : forall r1 s1, exec (body nr) s = (r1, s1) -> exec (pfor (nr :: todo) body) s = match r1 with Ok _ => exec (pfor todo body) s1 | Raise ex => (Raise ex, s1) end).
      { intros r1 s1 E. unfold pfor. cbn [map pseq]. rewrite exec_bind, exec_bind, E. destruct r1; [|done].
        rewrite exec_bind, !exec_bind. destruct (exec (pseq (map body todo)) s1) as [[]]; done. }
      assert (Hfail : forall ex, (exec (body nr) s).1 = Raise ex -> (exec (body nr) s).2 = s -> exists r s' xs, exec (pfor (nr :: todo) body) s = (r, s') /\ vfits p (dn ++ xs) /\
         shown (set_at V x (vassign p (dn ++ xs))) s' /\
         (forall q, (forall n, n ∈ dkeys (nr :: todo) -> ~ under (vdir w x ++ [n]) q) -> s' !! q = s !! q) /\
         (exists k, Forall2 (fun nr na => na.1 = nr.1 /\ exists a y, dget (vp_vars p) nr.1 = Some a /\ Q nr y /\ vd_wf y /\ na.2 = to_store (v_fill a) y /\ vd_shape y = v_shape a) (take k (nr :: todo)) xs /\
         match r with
         | Ok _ => k = length (nr :: todo)
         | Raise ex => exists nr' l s1, nr' ∈ nr :: todo /\ vfits p l /\ (forall m, m ∈ dkeys l -> m ∈ names /\ m <> nr'.1) /\
                         shown (set_at V x (vassign p l)) s1 /\ (exec (body nr') s1).1 = Raise ex
         end)).
      { intros ex E1 E2. destruct (exec (body nr) s) as [r1 s1] eqn:E. cbn in E1, E2. subst r1 s1. rewrite (Estep _ _ eq_refl).
        exists (Raise ex), s, []. rewrite app_nil_r. split; [done|]. split; [done|]. split; [done|]. split; [done|]. exists 0. split; [constructor|]. exists nr, dn, s.
        split; [left|]. split; [done|]. split; [|split; [done|by rewrite E]].
        intros m Hm. split; [apply Hna, elem_of_app; by left|]. intros ->. done. }
      destruct Hnr as [(ex & E)|(array & r & Ea & Eb & Hx)]; [apply (Hfail ex); by rewrite E|].
      destruct (view_variable V s x p dn nr.1 array r Hs Hf Hn Hnc Ea (fun y Ey => proj1 (Hx y Ey))) as (r' & s1 & E & Hcase & _).
      rewrite <-Eb in E. destruct Hcase as [(-> & ex & ->)|(a & y & -> & E0 & -> & Hsh & Hfit & Hrep & Hout)]; [apply (Hfail ex); by rewrite E|].
      rewrite (Estep _ _ E).
      destruct (IH (dn ++ [(nr.1, to_store (v_fill a) y)]) s1) as (r & s' & xs & E' & Hfit' & Hrep' & Hout' & k & Hxs & Hr').
      + unfold dkeys in *. rewrite map_app, <-app_assoc. exact Hnd.
      + unfold dkeys in *. rewrite map_app, <-app_assoc. exact Hna.
      + done.
      + done.
      + intros nr' Hin. apply Hb. by right.
      + exists r, s', ((nr.1, to_store (v_fill a) y) :: xs). rewrite <-app_assoc in Hfit', Hrep'. cbn [app] in Hfit', Hrep'. split; [done|]. split; [done|]. split; [done|]. split.
        * intros q Hq. rewrite Hout'; [apply Hout, Hq; left|]. intros n Hn'. apply Hq. by right.
        * exists (S k). split.
          -- cbn [take]. constructor; [|done]. split; [done|]. exists a, y. destruct (Hx y eq_refl). done.
          -- destruct r as [|ex]; [cbn; by rewrite Hr'|]. destruct Hr' as (nr' & l & s2 & Hin & ?). exists nr', l, s2. split; [by right|done].
  Qed.
End write.

(** ** Concurrent tasks on the partitions of a view *)
Section batches.
  Context (v : venv) (w : view) (Hw : viewable v w) (M : list Z -> option dataset) (I : option dataset).
  Local Notation c := (w_ref w).
  Local Notation keys := (p_keys (c_part c)).
  Local Notation kd := (key_dirs (c_part c)).
  Definition vregion (vs : list (list Z)) (q : path) : Prop := Exists (fun x => under (vdir w x) q) vs.
  Lemma view_transaction (task : list (list Z) -> program unit) (bs : list (list (list Z))) sched s :
    NoDup (concat bs) -> (forall x, x ∈ concat bs -> length x = length keys) ->
    (forall b, b ∈ bs -> within (under (c_dir c)) (vregion b) (task b)) ->
    exec (execute_transaction CTorn sched (map task bs)) s = (first_error (exec_all (map task bs) s).1, (exec_all (map task bs) s).2).
  Proof using Hw.
    intros Hnd Hlen Hwi.
    set (W := fun i q => match bs !! i with Some b => vregion b q | None => False end).
    assert (Hlk : forall i p, map task bs !! i = Some p -> exists b, bs !! i = Some b /\ p = task b).
    { intros i p. change (map task bs) with (task <$> bs). rewrite list_lookup_fmap. destruct (bs !! i) as [b|]; [|done]. intros [= <-]. eauto. }
    assert (Hdec : forall i q, Decision (W i q)).
    { intros i q. unfold W, vregion. destruct (bs !! i); apply _. }
    assert (Hcat : forall i b x, bs !! i = Some b -> x ∈ b -> x ∈ concat bs).
    { intros i b x Hi Hx. apply elem_of_list_In, in_concat. exists b. split; [|by apply elem_of_list_In]. apply elem_of_list_In. by eapply elem_of_list_lookup_2. }
    apply (exec_transaction CTorn sched (map task bs) (fun _ q => under (c_dir c) q) W s Hdec). split.
    - intros i p E. apply Hlk in E as (b & Hi & ->). eapply within_impl; [..|apply Hwi; by eapply elem_of_list_lookup_2]; [done|].
      intros q Hq. unfold W. by rewrite Hi.
    - intros i j p p' Ei Ej N q Wi Hq. apply Hlk in Ei as (b & Hi & _), Ej as (b' & Hj & _). unfold W in Wi, Hq. rewrite Hi in Wi. rewrite Hj in Hq.
      apply Exists_exists in Wi as (x & Hx & U). pose proof (Hlen _ (Hcat _ _ _ Hi Hx)) as Hl.
      destruct Hq as [Hq|Hq].
      + apply (vw_apart _ _ Hw q); [|done]. eapply under_trans; [apply under_app|exact U].
      + apply Exists_exists in Hq as (x' & Hx' & U'). pose proof (Hlen _ (Hcat _ _ _ Hj Hx')) as Hl'.
        refine (vdirs_apart w x x' Hl Hl' _ q U U').
        intros <-. clear -Hnd N Hi Hj Hx Hx'. revert i j N Hi Hj. induction bs as [|y bs IH]; intros i j N Hi Hj; [done|].
        cbn in Hnd. apply NoDup_app in Hnd as (_ & Hd & Hnd). destruct i as [|i], j as [|j]; [done|..].
        * injection Hi as ->. apply (Hd x Hx). apply elem_of_list_In, in_concat. exists b'. split; [|by apply elem_of_list_In]. apply elem_of_list_In. by eapply elem_of_list_lookup_2.
        * injection Hj as ->. apply (Hd x Hx'). apply elem_of_list_In, in_concat. exists b. split; [|by apply elem_of_list_In]. apply elem_of_list_In. by eapply elem_of_list_lookup_2.
        * apply (IH Hnd i j); [congruence|done..].
  Qed.

  Definition in_batches {A} (sched : schedule) (n : Z) (l : list A) (one : A -> program unit) : program unit :=
    let! batches <- Ret (split_sequence l (Some n));
    let! _ <- execute_transaction CTorn sched (map (fun b => pfor b one) batches);
    pret tt.
  Lemma batches_run {A} (item : list Z -> A) (one : A -> program unit) pre rel region sched n V s vs :
    (forall x, x ∈ vs -> acts (shown v w M I) pre (fun x => [x]) (fun x => one (item x)) rel region x) ->
    (forall x, x ∈ vs -> within (under (c_dir c)) (under (vdir w x)) (one (item x))) ->
    shown v w M I V s -> NoDup vs -> (forall x, x ∈ vs -> length x = length keys) -> (forall x, x ∈ vs -> exists old, V x = Some old /\ pre x old) ->
    (exists ex, exec (in_batches sched n (map item vs) one) s = (Raise ex, s) /\ (vs <> [] -> (n <= 0)%Z)) \/
    exists r s' V', exec (in_batches sched n (map item vs) one) s = (r, s') /\ shown v w M I V' s' /\ (forall x, x ∉ vs -> V' x = V x) /\
      (forall x old, x ∈ vs -> V x = Some old -> exists new, V' x = Some new /\ (new = old /\ is_ok r = false \/ exists rv, rel x old new rv /\ (r = Ok tt -> rv = Ok tt))) /\
      (forall ex, r = Raise ex -> exists x old new, x ∈ vs /\ V x = Some old /\ rel x old new (Raise ex)) /\
      forall q, (forall x, x ∈ vs -> ~ region x q) -> s' !! q = s !! q.
  Proof using Hw.
    intros Hact Hwi Hs Hnd Hlen Hsome. unfold in_batches. rewrite exec_bind. cbn [exec].
    destruct (split_sequence (map item vs) (Some n)) as [batches|ex] eqn:Eb.
    2:{ left. exists ex. split; [done|]. intros Hne. destruct (decide (0 < n)%Z) as [Hn|]; [|lia]. exfalso. destruct vs as [|x vs]; [done|].
        pose proof (split_sequence_ok (map item (x :: vs)) (Some n) ltac:(done) Hn) as Hok. by rewrite Eb in Hok. }
    right. apply split_map in Eb as (bs & _ & -> & Hcat).
    set (task := fun b => pfor (map item b) one).
    assert (Etask : map (fun b => pfor b one) (map (map item) bs) = map task bs) by (by rewrite map_map).
    rewrite Etask, exec_bind.
    assert (Hsub : forall b x, b ∈ bs -> x ∈ b -> x ∈ vs).
    { intros b x Hb Hx. rewrite <-Hcat. apply elem_of_list_In, in_concat. exists b. split; by apply elem_of_list_In. }
    rewrite (view_transaction task bs sched s); [|by rewrite Hcat|by rewrite Hcat|].
    2:{ intros b Hb. apply within_pfor. intros q Hq. apply elem_of_list_In, in_map_iff in Hq as (x & <- & Hx). eapply within_impl; [| |apply Hwi]; [done| |].
        - intros q Hq. apply Exists_exists. exists x. split; [by apply elem_of_list_In|exact Hq].
        - apply (Hsub b); [done|by apply elem_of_list_In]. }
    assert (Hid : concat (map (fun b : list (list Z) => b) bs) = vs) by (by rewrite map_id).
    destruct (acts_all (shown v w M I) pre (fun b => b) task rel region bs) with (M := V) (s := s)
      as (rs & s' & V' & E & Hs' & Hout & Hin & Hex & Hreg).
    { by rewrite Hid. }
    { intros b Hb. apply acts_list.
      - rewrite <-Hcat in Hnd. clear -Hb Hnd. induction bs as [|x bs IH]; [by apply elem_of_nil in Hb|]. cbn in Hnd. apply NoDup_app in Hnd as (H1 & _ & H2).
        apply elem_of_cons in Hb as [->|Hb]; auto.
      - intros x Hx. apply Hact. by apply (Hsub b). }
    { done. }
    { rewrite Hid. done. }
    rewrite Hid in *. rewrite E. cbn [fst snd].
    destruct (first_error rs) as [l|ex] eqn:Ef.
    - exists (Ok tt), s', V'. split_and!; try done. intros x old Hx Hold. destruct (Hin x old Hx Hold) as (new & En & [[_ ?]|(rv & Hrel & Hrv)]); [done|].
      exists new. split; [done|]. right. exists rv. split; [done|]. intros _. by apply Hrv.
    - exists (Raise ex), s', V'. split_and!; try done.
      + intros x old Hx Hold. destruct (Hin x old Hx Hold) as (new & En & [[-> _]|(rv & Hrel & Hrv)]); exists new || exists old; (split; [done|]).
        * by left.
        * right. by exists rv.
      + intros ex' [= <-]. apply Hex. by apply first_error_Raise.
  Qed.
End batches.

(** ** One partition, with its own data *)
Section one.
  Context (v : venv) (w : view) (Hw : viewable v w) (M : list Z -> option dataset) (I : option dataset).
  Context (delayed : bool) (sel : option (list str)) (f : update_callback) (Hsane : sane f) (Hck : ~ returned f CHECKSUM) (Hcov : covers w sel).
  Context (Hmo : forall x ds, M x = Some ds -> made_of (w_ref w) ds) (o_at : list Z -> dataset).
  Local Notation c := (w_ref w).
  Local Notation keys := (p_keys (c_part c)).
  Local Notation kd := (key_dirs (c_part c)).
  Local Notation dim := (c_dim c).

  Definition vpre (x : list Z) (old : vpart) : Prop := exists ds, M x = Some ds /\ (delayed = false -> opens delayed sel (combined ds old) (o_at x)).
  Definition vrel (x : list Z) (old new : vpart) (r : res unit) : Prop :=
    vp_axis new = vp_axis old /\ forall ds, M x = Some ds -> at_most (returned f) (combined ds old) (combined ds new) /\
      ((delayed = false \/ settled f) -> match r with Ok _ => updated delayed sel None f (combined ds old) (combined ds new) | Raise _ => (forall n, returned f n -> n ∈ dkeys (md_vars (w_meta w))) -> ~ works delayed sel None f (combined ds old) end).
  Definition vregion_one (x : list Z) (q : path) : Prop := exists n, returned f n /\ under (vdir w x ++ [n]) q.
  Definition vitem (x : list Z) : list (str * Z) * (dataset * path) := (zip keys x, (o_at x, kd x)).

  Lemma vfits_fits ds p l : NoDup (dkeys (d_vars ds)) -> (forall n, n ∈ dkeys (vp_vars p) -> dget (d_vars ds) n = None) -> vfits p l -> Update_State.fits (combined ds p) l.
  Proof using.
    intros Hnd Hno Hf n a Ha. destruct (Hf n a Ha) as (Hwf & y & Ey & Hsh). split; [done|]. intros x Hx. rewrite part_get, Hno, Ey in Hx; [|apply dget_is_Some; by eexists].
    injection Hx as <-. done.
  Qed.
  Lemma opens_proper ds o : opens delayed sel ds o -> proper o.
  Proof using. intros (Hi & _). apply Hi. Qed.

  Lemma view_update_does x : acts (shown v w M I) vpre (fun x => [x]) (fun x => view_update_one w delayed sel f (vitem x)) vrel vregion_one x.
  Proof using Hw Hsane Hck Hcov Hmo.
    intros V s Hs Hsome. destruct (Hsome x ltac:(left)) as (p & Hx & ds0 & HM & Hopen). clear Hsome.
    destruct (rp_part _ _ _ _ (sh_ref _ _ _ _ _ _ Hs) _ _ HM) as (Hl & Hso & _). destruct (hw_part _ _ _ _ (sh_view _ _ _ _ _ _ Hs) _ _ Hx) as (_ & Hk).
    pose proof (sh_agrees _ _ _ _ _ _ Hs x ds0 p HM Hx) as Hag. pose proof (Hmo _ _ HM) as Hm.
    set (old := combined ds0 p) in *.
    assert (Hsold : sound old) by (by apply (combined_sound v w Hw ds0 p s x Hso Hm Hk Hag)).
    assert (Hpr : proper old) by apply Hsold.
    assert (Hnames : forall n, n ∈ dkeys (vp_vars p) -> dget (d_vars ds0) n = None).
    { intros n Hn. apply dget_is_Some in Hn as [a Ha]. by destruct (part_name v w Hw ds0 p s x Hm Hk n a Ha) as (_ & _ & ?). }
    assert (Hnd0 : NoDup (dkeys (d_vars ds0))) by apply Hso.
    assert (Hlk : forall l n, vfits p l -> n ∈ dkeys l -> dget (d_vars ds0) n = None).
    { intros l n Hf Hn. apply dget_is_Some in Hn as [a Ha]. destruct (Hf n a Ha) as (_ & y & Ey & _). apply Hnames, dget_is_Some. by eexists. }
    assert (Ecomb : forall l, vfits p l -> combined ds0 (vassign p l) = assign_all old l) by (intros l Hf; apply combined_vassign; [intros n; by apply Hlk|done]).
    assert (Hfits : forall l, vfits p l -> Update_State.fits old l) by (intros l; by apply vfits_fits).
    set (prog := view_update_one w delayed sel f (vitem x)).
    assert (Hfin : forall r s' l, exec prog s = (r, s') -> vfits p l ->
       shown v w M I (set_at V x (vassign p l)) s' -> vrel x p (vassign p l) r ->
       (forall q, ~ vregion_one x q -> s' !! q = s !! q) ->
       exists r s' V', exec prog s = (r, s') /\ shown v w M I V' s' /\ (forall y, y ∉ [x] -> V' y = V y) /\
        (forall y old, y ∈ [x] -> V y = Some old -> exists new, V' y = Some new /\ (new = old /\ is_ok r = false \/ exists ry, vrel y old new ry /\ (r = Ok tt -> ry = Ok tt))) /\
        (forall ex, r = Raise ex -> exists y old new, y ∈ [x] /\ V y = Some old /\ vrel y old new (Raise ex)) /\
        forall q, (forall y, y ∈ [x] -> ~ vregion_one y q) -> s' !! q = s !! q).
    { intros r s' l E Hf Hs' Hrel Hout. exists r, s', (set_at V x (vassign p l)). split_and!; try done.
      - intros y Hy. unfold set_at. rewrite decide_False; [done|]. intros ->. apply Hy. left.
      - intros y old' Hy Hold. apply elem_of_list_singleton in Hy as ->. assert (old' = p) as -> by congruence. exists (vassign p l).
        split; [unfold set_at; by rewrite decide_True|]. right. by exists r.
      - intros ex ->. exists x, p, (vassign p l). split; [left|done].
      - intros q Hq. apply Hout. apply Hq. left. }
    assert (Hsame : shown v w M I (set_at V x (vassign p [])) s).
    { apply (shown_ext v w M I V); [|done]. intros y. unfold set_at. rewrite vassign_nil. destruct (decide (y = x)) as [->|]; [by rewrite Hx|done]. }
    assert (Hnone : forall r, exec prog s = (r, s) -> is_ok r = false -> ((delayed = false \/ settled f) -> (forall n, returned f n -> n ∈ dkeys (md_vars (w_meta w))) -> ~ works delayed sel None f old) -> exists l, vfits p l /\
       shown v w M I (set_at V x (vassign p l)) s /\ vrel x p (vassign p l) r).
    { intros r E Hko Hwk. exists []. split; [done|]. split; [done|]. rewrite vassign_nil. split; [done|]. intros ds HM'. assert (ds = ds0) as -> by congruence. fold old.
      split; [by apply at_most_refl|]. destruct r; done. }
    set (reload := let! r <- load_part w delayed sel (zip keys x, []); pret r.1).
    (* reading the partition *)
    assert (Hread : forall l s1, vfits p l -> shown v w M I (set_at V x (vassign p l)) s1 -> exists o, exec reload s1 = (Ok o, s1) /\ opens delayed sel (assign_all old l) o).
    { intros l s1 Hf Hs1. destruct (load_part_data v w M I _ s1 Hw (sh_ref _ _ _ _ _ _ Hs1) Hmo (sh_view _ _ _ _ _ _ Hs1) (sh_agrees _ _ _ _ _ _ Hs1) delayed sel Hcov x (assign_all old l)) as (o & E & Ho).
      - unfold data_at. rewrite HM. unfold set_at. rewrite decide_True by done. by rewrite Ecomb.
      - exists o. split; [|done]. unfold reload. by rewrite exec_bind, E. }
    assert (Hcur : exists ds, exec (current delayed reload (o_at x)) s = (Ok ds, s) /\ opens delayed sel old ds).
    { unfold current. destruct delayed eqn:Ed.
      - destruct (Hread [] s ltac:(done) Hsame) as (o & E & Ho). rewrite assign_nil in Ho. by exists o.
      - exists (o_at x). split; [done|]. by apply Hopen. }
    destruct Hcur as (ds & Eds & Hods). pose proof (opens_seen _ _ _ _ Hods) as Hseen. pose proof (opens_proper _ _ Hods) as Hpds.
    unfold prog, view_update_one in *. cbn [vitem fst snd] in *. fold reload in Hfin, Hnone |- *. rewrite exec_bind, Eds in *. rewrite exec_bind in *. cbn [exec] in *.
    destruct (cb_call f ds None) as [l0|ex] eqn:Ecb; cbn [call_dict rbind] in *.
    2:{ destruct (Hnone (Raise ex)) as (l & Hf & Hs' & Hrel); [done..| |by eapply (Hfin _ s l)].
        intros _ _ Hwk. destruct (Hwk ds Hseen) as (l & E & _). congruence. }
    set (todo := dict_of l0) in *.
    set (body := fun nr : str * result => update_zarr_array (w_dir w ++ kd x ++ [nr.1]) (evaluate reload delayed ds nr.2)) in *.
    assert (Hin0 : forall nr, nr ∈ todo -> nr ∈ l0) by (intros [n r] Hnr; apply dict_of_elem, elem_dget; [apply dict_of_NoDup|done]).
    assert (Hkeys : forall m, m ∈ dkeys todo -> m ∈ dkeys l0) by (intros m Hm'; by apply dict_of_keys).
    assert (Hret : forall m, m ∈ dkeys todo -> returned f m) by (intros m Hm'; exists ds, None, l0; split; [done|by apply Hkeys]).
    assert (Hnck : CHECKSUM ∉ dkeys todo) by (intros H; by apply Hck, Hret).
    (* what the arrays are *)
    assert (Harr : forall nr l s1, nr ∈ todo -> vfits p l -> (forall m, m ∈ dkeys l -> m ∈ dkeys todo) -> shown v w M I (set_at V x (vassign p l)) s1 ->
       exists r, exec (evaluate reload delayed ds nr.2) s1 = (r, s1) /\ (forall y, r = Ok y -> vd_wf y) /\ ((delayed = false \/ settled f) -> r = value ds nr.2)).
    { intros [n r] l s1 Hnr Hf Hml Hs1. cbn [snd].
      assert (Hwf : forall ds' y, proper ds' -> value ds' r = Ok y -> vd_wf y) by (intros ds' y Hp' Hy; exact (Hsane ds None l0 n r Hpds Ecb (Hin0 _ Hnr) ds' y Hp' Hy)).
      destruct r as [d|g]; cbn [evaluate].
      - exists (Ok d). split; [done|]. split; [|done]. intros y [= <-]. by apply (Hwf ds).
      - destruct (Hread l s1 Hf Hs1) as (ds' & E1 & Ho1). destruct delayed eqn:Ed.
        + rewrite exec_bind, E1. exists (g ds'). split; [done|]. split; [intros y Hy; apply (Hwf ds'); [|done]; apply Ho1|]. intros [|Hset]; [done|]. cbn [value].
          apply (Hset ds None l0 n g Ecb (Hin0 _ Hnr)). intros m Hm'. apply (seen_same true sel None old (assign_all old l) ds ds' m Hseen (opens_seen _ _ _ _ Ho1)).
          rewrite assign_get. assert (dget l m = None) as -> by (apply dget_None; intros Hin; apply Hm', Hkeys, Hml, Hin). by destruct (dget (d_vars old) m).
        + exists (g ds). split; [done|]. split; [intros y Hy; by apply (Hwf ds)|done]. }
    assert (Ebody : forall nr, body nr = update_zarr_array (vdir w x ++ [nr.1]) (evaluate reload delayed ds nr.2)) by (intros nr; unfold body, vdir; by rewrite <-app_assoc).
    destruct (view_loop v w Hw M I V x p (dkeys todo) body (fun nr y => (delayed = false \/ settled f) -> value ds nr.2 = Ok y) Hnck todo [] s)
      as (r & s' & xs & E & Hf & Hs' & Hout & k & Hxs & Hkk).
    { cbn [app dkeys map]. apply dict_of_NoDup. }
    { done. }
    { done. }
    { done. }
    { intros nr Hnr l s1 Hf Hml Hs1. right. destruct (Harr nr l s1 Hnr Hf Hml Hs1) as (r & Er & Hwf & Hval). exists (evaluate reload delayed ds nr.2), r.
      split; [done|]. split; [by rewrite Ebody|]. intros y ->. split; [by apply Hwf|]. intros Hg. symmetry. by apply Hval. }
    cbn [app] in *.
    assert (Hdk : forall n, n ∈ dkeys xs -> n ∈ dkeys todo).
    { intros n Hn. apply elem_of_list_In, in_map_iff in Hn as ([n' a] & <- & Hin). apply elem_of_list_In in Hin. apply elem_of_list_lookup in Hin as [i Hi'].
      destruct (Forall2_lookup_r _ _ _ _ _ Hxs Hi') as ([n2 r2] & Hl2 & E2 & _). cbn in E2. subst n2. apply elem_of_list_lookup_2 in Hl2.
      apply elem_of_take in Hl2 as (j & Hj & _). apply elem_of_list_lookup_2 in Hj. apply elem_of_list_In, in_map_iff. exists (n', r2). split; [done|]. by apply elem_of_list_In. }
    assert (Hvget : forall n a, dget (vp_vars p) n = Some a -> dget (d_vars old) n = Some (with_delayed a (d_delayed ds0))).
    { intros n a Ha. unfold old. rewrite part_get, Hnames, Ha; [done|]. apply dget_is_Some. by eexists. }
    apply (Hfin r s' xs E Hf Hs').
    - split; [done|]. intros ds1 HM'. assert (ds1 = ds0) as -> by congruence. fold old. rewrite (Ecomb xs Hf). split.
      + apply at_most_assign; [done|by apply Hfits|]. intros n Hn. apply Hret, Hdk, Hn.
      + intros Hg. destruct r as [[]|ex].
        * subst k. rewrite take_ge in Hxs by lia.
          assert (exists ys, Forall2 (fun nr (nx : str * vdata) => nx.1 = nr.1 /\ value ds nr.2 = Ok nx.2) todo ys /\
             Forall2 (fun (nx : str * vdata) (na : str * arr) => na.1 = nx.1 /\ exists v0, dget (d_vars old) nx.1 = Some v0 /\ vd_wf nx.2 /\ na.2 = to_store (v_fill v0) nx.2) ys xs) as (ys & H1 & H2).
          { clear -Hxs Hg Hvget. induction Hxs as [|nr na todo xs (E1 & v0 & y & E2 & HQ & Hw & Ea & _) _ (ys & IH1 & IH2)]; [by exists []|].
            exists ((nr.1, y) :: ys). split; constructor; [| |cbn|]; eauto. split; [done|]. exists (with_delayed v0 (d_delayed ds0)). split; [by apply Hvget|]. split; [done|]. exact Ea. }
          exists ds, l0, ys. split_and!; [done|done|done|]. by apply assigned_all.
        * intros Hret' Hwk. destruct (Hwk ds Hseen) as (l' & El' & Hall). assert (l' = l0) as -> by congruence.
          destruct Hkk as ([n rr] & l & s1 & Hnr & Hfl & Hml & Hs1 & Eb). destruct (Hall n rr (Hin0 _ Hnr)) as (v0 & d & Ev0 & Ed & Hsh & Hne).
          destruct (Harr (n, rr) l s1 Hnr Hfl (fun m Hm => proj1 (Hml m Hm)) Hs1) as (r1 & Er1 & Hwf & Hval). cbn [snd] in *. specialize (Hval Hg). subst r1.
          assert (Hnl : n ∉ dkeys l) by (intros Hn; by apply (Hml n) in Hn as [_ ?]).
          assert (Hn1 : n <> CHECKSUM) by (intros ->; apply Hnck; apply elem_of_list_In, in_map_iff; exists (CHECKSUM, rr); split; [done|by apply elem_of_list_In]).
          destruct (view_variable v w Hw M I V s1 x p l n (evaluate reload delayed ds rr) (value ds rr) Hs1 Hfl Hnl Hn1 Er1 Hwf) as (r' & s2 & E' & _ & Hok).
          rewrite Ebody in Eb. cbn [fst snd] in Eb. rewrite E' in Eb. cbn in Eb. subst r'.
          assert (Hnp : n ∈ dkeys (vp_vars p)).
          { apply (kt_same _ _ _ _ Hk), Hret', Hret. apply elem_of_list_In, in_map_iff. exists (n, rr). split; [done|by apply elem_of_list_In]. }
          apply dget_is_Some in Hnp as [a Ha]. rewrite (Hvget n a Ha) in Ev0. injection Ev0 as <-. by specialize (Hok a d Ha Ed Hne Hsh).
    - intros q Hq. apply Hout. intros n Hn Un. apply Hq. exists n. split; [|done]. by apply Hret.
  Qed.
End one.

(** ** The whole call *)
Lemma zip_fun {A} (d0 : A) (vs : list (list Z)) : NoDup vs -> forall os, length os = length vs -> exists g : list Z -> A, os = map g vs.
Proof.
  induction vs as [|x vs IH]; intros Hnd os Hl; [exists (fun _ => d0); by destruct os|]. inversion Hnd as [|? ? Hn Hnd']; subst.
  destruct os as [|o os]; [done|]. destruct (IH Hnd' os ltac:(by injection Hl)) as [g ->]. exists (fun y => if decide (y = x) then o else g y). cbn. rewrite decide_True by done. f_equal.
  apply map_ext_in. intros y Hy. rewrite decide_False; [done|]. intros ->. apply Hn. by apply elem_of_list_In.
Qed.
Section call.
  Context (v : venv) (w : view) (M : list Z -> option dataset) (I : option dataset) (V : list Z -> option vpart) (s : store).
  Local Notation c := (w_ref w).
  Local Notation keys := (p_keys (c_part c)).
  Local Notation kd := (key_dirs (c_part c)).
  Local Notation dim := (c_dim c).
  Context (Hw : viewable v w) (Hmo : forall x ds, M x = Some ds -> made_of c ds) (Hsh : shown v w M I V s) (Hvar : md_vars (w_meta w) <> []).
  Context (delayed : bool) (sel : option (list str)) (Hcov : covers w sel).
  Context (filt : filter) (P : list Z -> Prop) (Hf : filt = NoFilter \/ filterable c) (HP : forall x, is_Some (M x) -> says (c_part c) filt x (P x)).
  Context (sched : schedule) (workers : Z) (f : update_callback) (depth : Z) (np : option Z) (trim : bool).

  Lemma opens_dim d o : measured dim sel d -> opens delayed sel d o -> exists n, dget (d_dims o) dim = Some n.
  Proof using.
    intros (n & a & Hn & Ha & Hd) (Hr & _). apply elem_of_list_lookup_1 in Hd as [k Hk].
    assert (Hv : dget (d_vars o) n = Some (with_delayed (stored a) delayed)) by (apply (reads_vars _ _ _ _ Hr); split; [done|]; by exists a).
    destruct (proper_consistent _ (reads_proper _ _ _ _ Hr) _ _ Hv) as (_ & _ & Hs'). destruct (Hs' k dim Hk) as (m & ? & ?). by exists m.
  Qed.

  Lemma view_update_call : exists vs o_at,
    StronglySorted row_lt vs /\ NoDup vs /\ (forall x, x ∈ vs <-> is_Some (M x) /\ is_Some (V x) /\ P x) /\ (forall x, x ∈ vs -> length x = length keys) /\
    (forall x, x ∈ vs -> exists ds p, M x = Some ds /\ V x = Some p /\ opens delayed sel (combined ds p) (o_at x)) /\
    let run := view_update v sched workers w f delayed depth filt np sel trim in
    let n := match np with Some n => if (n =? 0)%Z then workers else n | None => workers end in
    let item := vitem w o_at in
    match vs with
    | [] => exec run s = (Ok tt, s)
    | x :: _ =>
        exists m, dget (d_dims (o_at x)) dim = Some m /\
        ((exists ex, exec run s = (Raise ex, s) /\ ~ (exists l, call_with f (o_at x) (dim, (0, m)) = Ok l /\ forall n, n ∈ dkeys l -> n ∈ dkeys (md_vars (w_meta w)))) \/
         exists l, call_with f (o_at x) (dim, (0, m)) = Ok l /\ (forall n, n ∈ dkeys l -> n ∈ dkeys (md_vars (w_meta w))) /\
           (depth = 0%Z -> exec run s = exec (in_batches sched n (map item vs) (view_update_one w delayed sel f)) s) /\
           ((0 < depth)%Z -> (exists ex, exec run s = (Raise ex, s) /\ exists ns, sel = Some ns /\ forall n, n ∈ dkeys l -> n ∉ ns) \/
              (forall ns, sel = Some ns -> exists n, n ∈ dkeys l /\ n ∈ ns) /\
              exec run s = exec (in_batches sched n (map item vs) (view_update_overlap w delayed depth sel trim f (map item vs))) s))
    end.
  Proof using All.
    destruct (load_list_ok v w M I V s Hw (sh_ref _ _ _ _ _ _ Hsh) Hmo (sh_view _ _ _ _ _ _ Hsh) (sh_agrees _ _ _ _ _ _ Hsh) delayed sel Hcov filt P Hf HP) as (vs & olds & os & Sv & Hvs & Hl & Ho & Hop & E).
    assert (Hnd : NoDup vs) by (by apply sorted_nodup_rows).
    assert (L1 : length vs = length olds) by (by eapply Forall2_length). assert (L2 : length olds = length os) by (by eapply Forall2_length).
    destruct (zip_fun (Dataset [] [] [] [] 0 false) vs Hnd os ltac:(lia)) as [o_at ->]. exists vs, o_at. split; [done|]. split; [done|]. split; [done|]. split; [done|].
    assert (Hop' : forall x, x ∈ vs -> exists d, data_at M V x = Some d /\ opens delayed sel d (o_at x)).
    { intros x Hx. apply elem_of_list_lookup_1 in Hx as [i Hi]. destruct (Forall2_lookup_l _ _ _ _ _ Ho Hi) as (d & Hd & Hda). exists d. split; [done|].
      destruct (Forall2_lookup_l _ _ _ _ _ Hop Hd) as (o & Eo & Hoo). change (map o_at vs) with (o_at <$> vs) in Eo. rewrite list_lookup_fmap, Hi in Eo. by injection Eo as <-. }
    split. { intros x Hx. destruct (Hop' x Hx) as (d & Hd & Hod). apply data_at_some in Hd as (ds & p & ? & ? & ->). by exists ds, p. }
    assert (El : zip (map (zip keys) vs) (zip (map o_at vs) (map kd vs)) = map (vitem w o_at) vs).
    { clear. induction vs as [|x vs IH]; [done|]. cbn [map zip zip_with]. f_equal. exact IH. }
    rewrite El in E. cbv zeta. destruct vs as [|x vs]; [|].
    { unfold view_update. rewrite exec_bind. cbn [exec]. unfold assert_have_variables. destruct (md_vars (w_meta w)); [done|]. rewrite exec_bind, E. done. }
    destruct (Hop' x ltac:(left)) as (d & Hd & Hod).
    destruct (data_sound v w M I V s Hw (sh_ref _ _ _ _ _ _ Hsh) Hmo (sh_view _ _ _ _ _ _ Hsh) (sh_agrees _ _ _ _ _ _ Hsh) sel Hcov x d Hd) as (_ & _ & Hme).
    destruct (opens_dim d (o_at x) Hme Hod) as [m Em]. exists m. split; [done|].
    set (l := map (vitem w o_at) (x :: vs)) in *.
    assert (Erun : exec (view_update v sched workers w f delayed depth filt np sel trim) s =
      exec (let! names <- Ret (match call_dict (call_with f (o_at x) (dim, (0, m))) with Raise _ => Raise RuntimeError | Ok r => Ok (dkeys r) end);
            let! _ <- Ret (traverse (assert_handled w) names);
            let! one <- Ret (if (depth =? 0)%Z then Ok (view_update_one w delayed sel f)
                       else if (match sel with None => false | Some s => negb (existsb (fun n => memb n s) names) end) then Raise ValueError
                       else if (depth <? 0)%Z then Raise ValueError
                       else Ok (view_update_overlap w delayed depth sel trim f l));
            in_batches sched (match np with Some n => if (n =? 0)%Z then workers else n | None => workers end) l one) s).
    { unfold view_update. rewrite exec_bind. cbn [exec]. unfold assert_have_variables. destruct (md_vars (w_meta w)) as [|mv0 mvs]; [done|]. rewrite exec_bind, E.
      unfold l at 1. cbn [map]. cbv zeta. cbn [vitem fst snd]. rewrite Em. reflexivity. }
    clear Hop' Hop El E.
    rewrite Erun. rewrite exec_bind. cbn [exec]. destruct (call_with f (o_at x) (dim, (0, m))) as [l0|ex]; cbn [call_dict rbind].
    2:{ left. exists RuntimeError. split; [done|]. by intros (? & ? & _). }
    rewrite exec_bind. cbn [exec].
    assert (Hk : forall n, n ∈ dkeys (dict_of l0) <-> n ∈ dkeys l0) by (intros n; apply dict_of_keys).
    destruct (traverse (assert_handled w) (dkeys (dict_of l0))) as [us|ex] eqn:Et.
    2:{ left. exists ex. split; [done|]. intros (l' & [= <-] & Hall). destruct (traverse_exists (assert_handled w) (fun _ _ => True) (dkeys (dict_of l0))) as (us & Eus & _); [|congruence].
        intros n Hn. apply Hk, Hall in Hn. unfold assert_handled. apply dget_is_Some in Hn as [mv Hmv]. destruct (vw_vars _ _ Hw n mv Hmv) as (_ & _ & _ & _ & _ & Hno & _).
        assert (dmem (md_vars (c_meta c)) n = false) as -> by (by apply dmem_false). assert (dmem (md_vars (w_meta w)) n = true) as -> by (apply dmem_true; apply dget_is_Some; by eexists). cbn. by exists tt. }
    right. exists l0. split; [done|]. split.
    { intros n Hn. apply Hk in Hn. apply elem_of_list_lookup_1 in Hn as [i Hi]. apply traverse_inv in Et. destruct (Forall2_lookup_l _ _ _ _ _ Et Hi) as (u & _ & Hu).
      unfold assert_handled in Hu. destruct (dmem (md_vars (c_meta c)) n); [done|]. destruct (dmem (md_vars (w_meta w)) n) eqn:Ed; [|done]. by apply dmem_true in Ed. }
    rewrite exec_bind. split.
    - intros ->. cbn [exec Z.eqb]. done.
    - intros Hd0. assert ((depth =? 0)%Z = false) as -> by lia. assert ((depth <? 0)%Z = false) as -> by lia.
      destruct sel as [ns|].
      2:{ right. split; [done|]. done. }
      destruct (existsb (fun n => memb n ns) (dkeys (dict_of l0))) eqn:Ex.
      + right. split; [|done]. intros ns' [= <-]. apply existsb_exists in Ex as (n & Hn & Hns). exists n. split; [by apply Hk, elem_of_list_In|]. unfold memb in Hns. by apply bool_decide_eq_true in Hns.
      + left. exists ValueError. split; [done|]. exists ns. split; [done|]. intros n Hn Hns. assert (existsb (fun n => memb n ns) (dkeys (dict_of l0)) = true); [|congruence].
        apply existsb_exists. exists n. split; [by apply elem_of_list_In, Hk|]. unfold memb. by apply bool_decide_eq_true.
  Qed.
End call.

Section within_one.
  Context (v : venv) (w : view) (Hw : viewable v w) (delayed : bool) (sel : option (list str)) (f : update_callback) (o_at : list Z -> dataset).
  Local Notation c := (w_ref w).
  Local Notation keys := (p_keys (c_part c)).
  Lemma within_load_own (W : path -> Prop) x : (forall q, under (vdir w x) q -> under (c_dir c) q \/ W q) -> within (under (c_dir c)) W (load_part w delayed sel (zip keys x, [])).
  Proof using.
    intros HW. unfold load_part, load_one. cbv zeta. apply within_bind; [apply within_open_group; intros q Hq; left; eapply under_trans; [apply under_app|exact Hq]|]. intros ds.
    apply within_bind.
    - apply within_pseq. intros p Hp. apply elem_of_list_In, in_map_iff in Hp as (n & <- & _). apply within_bind; [apply within_get_tree|by intros].
      intros q Hq. apply HW. eapply under_trans; [|exact Hq]. rewrite app_assoc. apply under_app.
    - intros vs. destruct (d_dims ds); [apply within_bind; [done|by intros]|]. apply within_bind; [done|]. by intros ds'.
  Qed.
  Lemma within_view_one x : within (under (c_dir c)) (under (vdir w x)) (view_update_one w delayed sel f (vitem w o_at x)).
  Proof using.
    unfold view_update_one. cbv zeta. cbn [vitem fst snd].
    assert (Hre : within (under (c_dir c)) (under (vdir w x)) (let! r <- load_part w delayed sel (zip keys x, []); pret r.1)).
    { apply within_bind; [|by intros]. apply within_load_own. by right. }
    apply within_bind; [unfold current; by destruct delayed|]. intros ds. apply within_bind; [done|]. intros l. apply within_pfor. intros [n r] _.
    apply within_update_array.
    - intros q Hq. eapply under_trans; [|exact Hq]. cbn [fst]. rewrite app_assoc. apply under_app.
    - destruct r as [d|g]; [done|]. cbn [evaluate snd]. destruct delayed; [|done]. apply within_bind; [done|]. by intros.
  Qed.
End within_one.
