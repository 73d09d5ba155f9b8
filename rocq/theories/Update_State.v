(** * Changes of the partitions of a collection *)
From Verif Require Import Py Dict NdArray_Model NdArray_Spec NdArray_Proofs Dataset_Model Dataset_Spec Dataset_Proofs Meta_Model PartPath_Model PartPath_Proofs
  Split_Spec DaskUtils_Model DaskUtils_Proofs FS_Model FS_Proofs Pool_Model Pool_Proofs Storage_Model Storage_Chunks Storage_Spec Storage_Proofs
  Listing_Model Listing_Spec Listing_Proofs Collection_Model Collection_Spec Collection_Split Collection_Proofs Collection_State Collection_Select Collection_Load
  Update_Model Update_Spec Storage_Change.

Definition set_part (M : list Z -> option dataset) (v : list Z) (ds : dataset) (w : list Z) : option dataset :=
  if decide (w = v) then Some ds else M w.

(** The values of some variables replaced. *)
Definition assign (l : list (str * arr)) (nv : str * variable) : str * variable :=
  (nv.1, match dget l nv.1 with Some a => with_array nv.2 a | None => nv.2 end).
Definition assign_all (ds : dataset) (l : list (str * arr)) : dataset := with_vars ds (map (assign l) (d_vars ds)).
Lemma assign_keys ds l : dkeys (d_vars (assign_all ds l)) = dkeys (d_vars ds).
Proof. unfold dkeys, assign_all. cbn. by rewrite map_map. Qed.
Lemma assign_get ds l n : dget (d_vars (assign_all ds l)) n = option_map (fun v => match dget l n with Some a => with_array v a | None => v end) (dget (d_vars ds) n).
Proof.
  unfold assign_all. cbn. induction (d_vars ds) as [|[m v] vars IH]; [done|]. cbn. destruct (decide (n = m)) as [->|]; [done|apply IH].
Qed.
Lemma assign_nil ds : assign_all ds [] = ds.
Proof.
  unfold assign_all, with_vars. destruct ds. f_equal. cbn. rewrite <-(map_id d_vars) at 2. apply map_ext. by intros [n v].
Qed.
Lemma dset_map_keys {V} (vars : list (str * V)) n (v : V) : NoDup (dkeys vars) -> n ∈ dkeys vars ->
  dset vars n v = map (fun nv => (nv.1, if decide (nv.1 = n) then v else nv.2)) vars.
Proof.
  induction vars as [|[m w] vars IH]; intros Hnd Hn; [by apply elem_of_nil in Hn|]. cbn in *. inversion Hnd as [|? ? Hm Hnd']; subst.
  destruct (decide (n = m)) as [->|N].
  - rewrite decide_True by done. f_equal. rewrite <-(map_id vars) at 1. apply map_ext_in. intros [k x] Hin. cbn. rewrite decide_False; [done|].
    intros ->. apply Hm. apply elem_of_list_In, in_map_iff. by exists (m, x).
  - rewrite decide_False by done. f_equal. apply IH; [done|]. by apply elem_of_cons in Hn as [|].
Qed.
Lemma assign_snoc ds l n a : proper ds -> n ∈ dkeys (d_vars ds) -> n ∉ dkeys l -> forall v, dget (d_vars ds) n = Some v ->
  dset (d_vars (assign_all ds l)) n (with_array v a) = d_vars (assign_all ds (l ++ [(n, a)])).
Proof.
  intros Hp Hn Hl v Ev. rewrite dset_map_keys.
  - unfold assign_all. cbn. rewrite map_map. apply map_ext_in. intros [m w] Hin. unfold assign. cbn. f_equal. rewrite dget_app.
    destruct (decide (m = n)) as [->|N].
    + apply dget_None in Hl. rewrite Hl. cbn. rewrite decide_True by done. apply elem_of_list_In in Hin. apply (elem_dget _ _ _ (proper_names _ Hp)) in Hin. congruence.
    + destruct (dget l m); [done|]. cbn. by rewrite decide_False.
  - rewrite assign_keys. apply Hp.
  - by rewrite assign_keys.
Qed.
(** The assigned arrays are arrays with the shapes of the variables. *)
Definition fits (ds : dataset) (l : list (str * arr)) : Prop :=
  forall n a, dget l n = Some a -> arr_wf a /\ forall v, dget (d_vars ds) n = Some v -> a_shape a = v_shape v.
Lemma assign_sound ds l : sound ds -> fits ds l -> sound (assign_all ds l).
Proof.
  intros [[Hp Hrk Hpl] Hnr] Hf.
  assert (Hget : forall v', v' ∈ dvals (d_vars (assign_all ds l)) -> exists n v, dget (d_vars ds) n = Some v /\ v' = match dget l n with Some a => with_array v a | None => v end).
  { intros v' Hv. apply elem_dvals in Hv as [n Hv]. apply elem_dget in Hv; [|rewrite assign_keys; apply Hp]. rewrite assign_get in Hv.
    destruct (dget (d_vars ds) n) as [v|] eqn:E; [|done]. injection Hv as <-. eauto. }
  assert (Hin : forall n v, dget (d_vars ds) n = Some v -> v ∈ dvals (d_vars ds)) by (intros n v E; eapply vals_elem; by apply dget_elem).
  split; [split; [split|..]|].
  - rewrite assign_keys. apply Hp.
  - apply Hp.
  - apply Hp.
  - intros v' Hv. destruct (Hget _ Hv) as (n & v & E & ->). destruct (dget l n) as [a|] eqn:El.
    + cbn. by apply (Hf n).
    + apply Hp. eauto.
  - intros n v' Hv. rewrite assign_get in Hv. destruct (dget (d_vars ds) n) as [v|] eqn:E; [|done]. injection Hv as <-.
    destruct (proper_consistent _ Hp _ _ E) as (H1 & H2 & H3). destruct (dget l n) as [a|] eqn:El; [|by split_and!].
    split_and!; [done|done|]. intros k d Hk. cbn in Hk. destruct (H3 k d Hk) as (m & Hm & Hd). exists m. split; [|done]. unfold v_shape at 1. cbn.
    rewrite (proj2 (Hf n a El) v E). done.
  - intros v' Hv. destruct (Hget _ Hv) as (n & v & E & ->). destruct (dget l n) as [a|] eqn:El.
    + unfold v_shape. cbn. rewrite (proj2 (Hf n a El) v E). apply Hrk. eauto.
    + apply Hrk. eauto.
  - intros n. rewrite assign_keys. apply Hpl.
  - intros v' Hv. destruct (Hget _ Hv) as (n & v & E & ->). pose proof (Hnr v (Hin _ _ E)) as Hn. by destruct (dget l n).
Qed.
Lemma stored_assign ds l : stored_vars (d_vars (assign_all ds l)) = map (assign l) (stored_vars (d_vars ds)).
Proof.
  unfold stored_vars, assign_all. cbn. rewrite !map_map. apply map_ext. intros [n v]. unfold assign. cbn. f_equal. by destruct (dget l n).
Qed.

Section change.
  Context (e : env) (c : collection) (Hr : regular e c).
  Local Notation keys := (p_keys (c_part c)).

  Lemma represents_change M M' I s s' : represents c M I s ->
    (forall v, is_Some (M v) <-> is_Some (M' v)) ->
    (forall v ds, M' v = Some ds -> (M v = Some ds /\ forall q, under (part_dir c v) q -> s' !! q = s !! q) \/
       (sound ds /\ holds_dataset (sub (part_dir c v) s') ds)) ->
    (forall q, q <> c_dir c ++ [CONFIG] -> (forall v, is_Some (M v) -> ~ under (part_dir c v) q) -> s' !! q = s !! q) ->
    represents c M' I s'.
  Proof.
    intros Hs Hdom Hpart Hout. destruct (select_all e c Hr M I s Hs) as (vss & _ & Hvss & _). split.
    - intros q x E. destruct (decide (Exists (fun v => under (part_dir c v) (c_dir c ++ q)) vss)) as [X|X].
      + apply Exists_exists in X as (v & Hv & f & Ef). unfold part_dir in Ef. rewrite <-app_assoc in Ef. apply app_inv_head in Ef as ->.
        right. right. exists v, f. split; [|done]. by apply Hdom, Hvss.
      + destruct (decide (q = [CONFIG])) as [->|Nq]; [by left|]. rewrite Hout in E.
        * destruct (rp_files _ _ _ _ Hs q x E) as [?|[?|(v & f & Hv & ->)]]; [by left|right; by left|right; right]. exists v, f. split; [by apply Hdom|done].
        * intros Eq. by apply app_inv_head in Eq.
        * intros v Hv U. apply X, Exists_exists. exists v. split; [by apply Hvss|done].
    - intros v ds E. assert (is_Some (M v)) as [d Hd] by (apply Hdom; by eexists). destruct (rp_part _ _ _ _ Hs _ _ Hd) as (Hl & _ & _).
      split; [done|]. destruct (Hpart v ds E) as [[E' Hsame]|?]; [|done]. destruct (rp_part _ _ _ _ Hs _ _ E') as (_ & ? & Hh). split; [done|].
      replace (sub _ s') with (sub (part_dir c v) s); [done|]. apply map_eq. intros q. rewrite !sub_lookup. symmetry. apply Hsame, under_app.
    - intros ds E. destruct (rp_immutable _ _ _ _ Hs _ E) as [? Hh]. split; [done|].
      replace (sub _ s') with (sub (c_dir c ++ [IMMUTABLE]) s); [done|]. apply map_eq. intros q. rewrite !sub_lookup. symmetry. apply Hout.
      + rewrite <-app_assoc. intros Eq. apply app_inv_head in Eq. by injection Eq.
      + intros v [d Hd] (f & U). destruct (rp_part _ _ _ _ Hs _ _ Hd) as (Hl & _ & _).
        destruct (key_head e c Hr v Hl) as (a & r & Ea & Ha & _). unfold part_dir in U. rewrite Ea, <-!app_assoc in U. apply app_inv_head in U. injection U as <- _. done.
  Qed.
  Lemma represents_set M I s s' v old new : represents c M I s -> M v = Some old -> sound new ->
    holds_dataset (sub (part_dir c v) s') new -> (forall q, ~ under (part_dir c v) q -> s' !! q = s !! q) ->
    represents c (set_part M v new) I s'.
  Proof.
    intros Hs Hv Hso Hh Hout. apply (represents_change M _ I s s' Hs).
    - intros w. unfold set_part. destruct (decide (w = v)) as [->|]; [|done]. rewrite Hv. split; by eexists.
    - intros w ds. unfold set_part. destruct (decide (w = v)) as [->|N]; [intros [= <-]; by right|]. intros E. left. split; [done|].
      intros q Hq. apply Hout. intros U. destruct (rp_part _ _ _ _ Hs _ _ E) as (Hl & _). destruct (rp_part _ _ _ _ Hs _ _ Hv) as (Hl' & _).
      by apply (parts_apart c w v Hl Hl' N q).
    - intros q _ Hq. apply Hout. apply Hq. by eexists.
  Qed.

  (** One variable of one partition. *)
  Lemma update_variable M I s v old l n (array : program vdata) r : represents c (set_part M v (assign_all old l)) I s -> sound old -> fits old l ->
    n ∉ dkeys l -> exec array s = (r, s) -> (forall x, r = Ok x -> vd_wf x) ->
    exists r' s', exec (update_zarr_array (part_dir c v ++ [n]) array) s = (r', s') /\
      ((s' = s /\ exists ex, r' = Raise ex) \/
       exists v0 x, r' = Ok tt /\ dget (d_vars old) n = Some v0 /\ r = Ok x /\ vd_shape x = v_shape v0 /\
         fits old (l ++ [(n, to_store (v_fill v0) x)]) /\
         represents c (set_part M v (assign_all old (l ++ [(n, to_store (v_fill v0) x)]))) I s' /\
         (forall q, ~ under (part_dir c v ++ [n]) q -> s' !! q = s !! q)) /\
      (forall v0 x, dget (d_vars old) n = Some v0 -> r = Ok x -> v_shape v0 <> [] -> vd_shape x = v_shape v0 -> r' = Ok tt).
  Proof.
    intros Hs Hso Hf Hn Ea Hwf. set (cur := assign_all old l) in *. set (M1 := set_part M v cur) in *.
    assert (E1 : M1 v = Some cur) by (unfold M1, set_part; by rewrite decide_True).
    destruct (rp_part _ _ _ _ Hs _ _ E1) as (Hl & Hsc & Hh0 & Hh). pose proof (storable_proper _ (sound_storable _ Hso)) as Hp.
    assert (Hget : dget (stored_vars (d_vars cur)) n = option_map stored (dget (d_vars old) n)).
    { rewrite dget_stored. unfold cur. rewrite assign_get. destruct (dget (d_vars old) n); [|done]. cbn. apply dget_None in Hn. by rewrite Hn. }
    destruct (update_array_spec (part_dir c v) n array s _ _ r Hh Ea) as (r' & s' & E & Hcase & Htot).
    exists r', s'. split; [done|]. split.
    - destruct Hcase as [?|(v' & x & -> & Ev & -> & Hne & Hsh & Hout & Hmeta & Hg)]; [by left|]. right.
      rewrite Hget in Ev. destruct (dget (d_vars old) n) as [v0|] eqn:E0; [|done]. injection Ev as <-. cbn [stored v_fill with_attrs] in *.
      assert (Hfit : fits old (l ++ [(n, to_store (v_fill v0) x)])).
      { intros m a. rewrite dget_app. destruct (dget l m) as [a'|] eqn:El; [intros [= <-]; by apply Hf|]. cbn.
        destruct (decide (m = n)) as [->|]; [|done]. intros [= <-]. split; [by apply to_store_wf, Hwf|]. intros w Ew. assert (w = v0) as -> by congruence. by rewrite to_store_shape. }
      exists v0, x. split_and!; try done.
      assert (Eset : forall w, set_part M v (assign_all old (l ++ [(n, to_store (v_fill v0) x)])) w = set_part M1 v (assign_all old (l ++ [(n, to_store (v_fill v0) x)])) w).
      { intros w. unfold M1, set_part. by destruct (decide (w = v)). }
      assert (Hrep : represents c (set_part M1 v (assign_all old (l ++ [(n, to_store (v_fill v0) x)]))) I s').
      { apply (represents_set M1 I s s' v cur); try done.
        - by apply assign_sound.
        - split.
          + rewrite sub_lookup, app_nil_r. rewrite Hout; [|intros (f & U); rewrite <-(app_nil_r (part_dir c v)), <-!app_assoc in U; by apply app_inv_head in U].
            rewrite sub_lookup, app_nil_r in Hh0. done.
          + cbn [d_attrs assign_all with_vars]. specialize (Hg (Hwf x eq_refl)).
            replace (stored_vars (d_vars (assign_all old (l ++ [(n, to_store (v_fill v0) x)])))) with (dset (stored_vars (d_vars cur)) n (with_array (stored v0) (to_store (v_fill v0) x))); [done|].
            rewrite stored_assign. unfold cur. rewrite stored_assign. rewrite dset_map_keys.
            * rewrite map_map. apply map_ext_in. intros [m w] Hin. unfold assign. cbn. f_equal. rewrite dget_app. destruct (decide (m = n)) as [->|N].
              -- apply dget_None in Hn. rewrite Hn. cbn. rewrite decide_True by done. apply elem_of_list_In in Hin.
                 apply elem_dget in Hin; [|rewrite keys_stored; apply Hp]. rewrite dget_stored, E0 in Hin. injection Hin as <-. done.
              -- destruct (dget l m); [done|]. cbn. by rewrite decide_False.
            * unfold dkeys. rewrite map_map. cbn. change (NoDup (dkeys (stored_vars (d_vars old)))). rewrite keys_stored. apply Hp.
            * unfold dkeys. rewrite map_map. cbn. change (n ∈ dkeys (stored_vars (d_vars old))). rewrite keys_stored. apply dget_is_Some. by eexists.
        - intros q Hq. apply Hout. intros U. apply Hq. eapply under_trans; [apply under_app|done]. }
      destruct Hrep as [R1 R2 R3]. split; [|intros w ds; rewrite Eset; apply R2|done].
      intros q y Ey. destruct (R1 q y Ey) as [?|[?|(w & f & Hw & ?)]]; [by left|right; by left|right; right]. exists w, f. by rewrite Eset.
    - intros v0 x E0 -> Hne Hsh. apply (Htot (stored v0) x); [|done|done|done]. by rewrite Hget, E0.
  Qed.

  (** All the variables that a callback returns, for one partition. *)
  Definition body_ok (M : list Z -> option dataset) (I : option dataset) (v : list Z) (old : dataset) (names : list str)
      (body : str * result -> program unit) (Q : str * result -> vdata -> Prop) (nr : str * result) : Prop :=
    forall l s, fits old l -> (forall m, m ∈ dkeys l -> m ∈ names) -> represents c (set_part M v (assign_all old l)) I s ->
      (exists ex, exec (body nr) s = (Raise ex, s)) \/
      exists array r, exec array s = (r, s) /\ exec (body nr) s = exec (update_zarr_array (part_dir c v ++ [nr.1]) array) s /\
        forall x, r = Ok x -> vd_wf x /\ Q nr x.
  Lemma update_loop M I v old names body Q : sound old -> forall todo done_ s, NoDup (dkeys done_ ++ dkeys todo) ->
    (forall m, m ∈ dkeys done_ ++ dkeys todo -> m ∈ names) -> fits old done_ ->
    represents c (set_part M v (assign_all old done_)) I s -> (forall nr, nr ∈ todo -> body_ok M I v old names body Q nr) ->
    exists r s' xs, exec (pfor todo body) s = (r, s') /\ fits old (done_ ++ xs) /\ represents c (set_part M v (assign_all old (done_ ++ xs))) I s' /\
      (forall q, (forall n, n ∈ dkeys todo -> ~ under (part_dir c v ++ [n]) q) -> s' !! q = s !! q) /\
      (exists k, Forall2 (fun nr na => na.1 = nr.1 /\ exists v0 x, dget (d_vars old) nr.1 = Some v0 /\ Q nr x /\ vd_wf x /\ na.2 = to_store (v_fill v0) x /\ vd_shape x = v_shape v0) (take k todo) xs /\
         match r with
         | Ok _ => k = length todo
         | Raise ex => exists nr l s1, nr ∈ todo /\ fits old l /\ (forall m, m ∈ dkeys l -> m ∈ names /\ m <> nr.1) /\
                         represents c (set_part M v (assign_all old l)) I s1 /\ (exec (body nr) s1).1 = Raise ex
         end).
  Proof.
    intros Hso todo. induction todo as [|nr todo IH]; intros dn s Hnd Hna Hf Hs Hb.
    - exists (Ok tt), s, []. rewrite app_nil_r. split_and!; try done. exists 0. split; [constructor|done].
    - assert (Hn : nr.1 ∉ dkeys dn) by (intros Hin; cbn in Hnd; apply NoDup_app in Hnd as (_ & Hd & _); apply (Hd _ Hin); left).
      assert (Hnr := Hb nr ltac:(left) dn s Hf (fun m Hm => Hna m (proj2 (elem_of_app _ _ _) (or_introl Hm))) Hs).
      assert (Estep : forall r1 s1, exec (body nr) s = (r1, s1) -> exec (pfor (nr :: todo) body) s = match r1 with Ok _ => exec (pfor todo body) s1 | Raise ex => (Raise ex, s1) end).
      { intros r1 s1 E. unfold pfor. cbn [map pseq]. rewrite exec_bind, exec_bind, E. destruct r1; [|done].
        rewrite exec_bind, !exec_bind. destruct (exec (pseq (map body todo)) s1) as [[]]; done. }
      assert (Hfail : forall ex, (exec (body nr) s).1 = Raise ex -> (exec (body nr) s).2 = s -> exists r s' xs, exec (pfor (nr :: todo) body) s = (r, s') /\ fits old (dn ++ xs) /\
         represents c (set_part M v (assign_all old (dn ++ xs))) I s' /\
         (forall q, (forall n, n ∈ dkeys (nr :: todo) -> ~ under (part_dir c v ++ [n]) q) -> s' !! q = s !! q) /\
         (exists k, Forall2 (fun nr na => na.1 = nr.1 /\ exists v0 x, dget (d_vars old) nr.1 = Some v0 /\ Q nr x /\ vd_wf x /\ na.2 = to_store (v_fill v0) x /\ vd_shape x = v_shape v0) (take k (nr :: todo)) xs /\
         match r with
         | Ok _ => k = length (nr :: todo)
         | Raise ex => exists nr' l s1, nr' ∈ nr :: todo /\ fits old l /\ (forall m, m ∈ dkeys l -> m ∈ names /\ m <> nr'.1) /\
                         represents c (set_part M v (assign_all old l)) I s1 /\ (exec (body nr') s1).1 = Raise ex
         end)).
      { intros ex E1 E2. destruct (exec (body nr) s) as [r1 s1] eqn:E. cbn in E1, E2. subst r1 s1. rewrite (Estep _ _ eq_refl).
        exists (Raise ex), s, []. rewrite app_nil_r. split_and!; try done. exists 0. split; [constructor|]. exists nr, dn, s. split_and!; try done; [left| |by rewrite E].
        intros m Hm. split; [apply Hna, elem_of_app; by left|]. intros ->. done. }
      destruct Hnr as [(ex & E)|(array & r & Ea & Eb & Hx)]; [apply (Hfail ex); by rewrite E|].
      destruct (update_variable M I s v old dn nr.1 array r Hs Hso Hf Hn Ea (fun x Ex => proj1 (Hx x Ex))) as (r' & s1 & E & Hcase & _).
      rewrite <-Eb in E. destruct Hcase as [(-> & ex & ->)|(v0 & x & -> & E0 & -> & Hsh & Hfit & Hrep & Hout)]; [apply (Hfail ex); by rewrite E|].
      rewrite (Estep _ _ E).
      destruct (IH (dn ++ [(nr.1, to_store (v_fill v0) x)]) s1) as (r & s' & xs & E' & Hfit' & Hrep' & Hout' & k & Hxs & Hr').
      + unfold dkeys in *. rewrite map_app, <-app_assoc. exact Hnd.
      + unfold dkeys in *. rewrite map_app, <-app_assoc. exact Hna.
      + done.
      + done.
      + intros nr' Hin. apply Hb. by right.
      + exists r, s', ((nr.1, to_store (v_fill v0) x) :: xs). rewrite <-app_assoc in Hfit', Hrep'. cbn [app] in Hfit', Hrep'. split_and!; try done.
        * intros q Hq. rewrite Hout'; [apply Hout, Hq; left|]. intros n Hn'. apply Hq. by right.
        * exists (S k). split.
          -- cbn [take]. constructor; [|done]. split; [done|]. exists v0, x. destruct (Hx x eq_refl). done.
          -- destruct r as [|ex]; [cbn; by rewrite Hr'|]. destruct Hr' as (nr' & l & s2 & Hin & ?). exists nr', l, s2. split; [by right|done].
  Qed.
End change.
