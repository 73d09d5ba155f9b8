(** * Listing, selecting and dropping the partitions of a collection *)
From Verif Require Import Py Dict NdArray_Model Dataset_Model Dataset_Spec Meta_Model PartPath_Model PartPath_Proofs
  Split_Model Split_Spec FS_Model FS_Proofs Pool_Model Pool_Proofs Storage_Model Storage_Spec Storage_Proofs
  Listing_Model Listing_Spec Listing_Proofs Listing_Expr Listing_Props Collection_Model Collection_Spec Collection_Split Collection_Proofs Collection_State.

Lemma filter_res_sub {A} (f : A -> res bool) l : forall l', filter_res f l = Ok l' ->
  exists g : A -> bool, l' = List.filter g l /\ forall x, x ∈ l -> f x = Ok (g x).
Proof.
  induction l as [|x l IH]; intros l' H; cbn in H.
  - injection H as <-. exists (fun _ => true). split; [done|]. intros x Hx. by apply elem_of_nil in Hx.
  - destruct (f x) as [b|] eqn:Ef; [|done]. cbn in H. destruct (filter_res f l) as [r|]; [|done]. cbn in H. injection H as <-.
    exists (fun x => match f x with Ok b => b | Raise _ => true end). destruct (IH r eq_refl) as (g & -> & Hg). split.
    + cbn. rewrite Ef. rewrite (filter_ext_in _ (fun x => match f x with Ok b => b | Raise _ => true end)); [done|].
      intros y Hy. apply elem_of_list_In in Hy. by rewrite (Hg y Hy).
    + intros y [->|Hy]%elem_of_cons; [by rewrite Ef|]. by rewrite (Hg y Hy).
Qed.
Lemma filter_map {A B} (f : A -> B) (g : B -> bool) l : List.filter g (map f l) = map f (List.filter (fun x => g (f x)) l).
Proof. induction l as [|x l IH]; [done|]. cbn. destruct (g (f x)); cbn; by rewrite IH. Qed.
Lemma sorted_filter {A} (R : A -> A -> Prop) (g : A -> bool) l : StronglySorted R l -> StronglySorted R (List.filter g l).
Proof.
  induction 1 as [|x l Hs IH Hall]; [constructor|]. cbn. destruct (g x); [|done]. constructor; [done|].
  apply Forall_forall. intros y Hy. apply elem_of_list_In, filter_In in Hy as [Hy _]. rewrite Forall_forall in Hall. apply Hall. by apply elem_of_list_In.
Qed.
Lemma sub_root (s : store) : sub [] s = s.
Proof. apply map_eq. intros q. by rewrite sub_lookup. Qed.

Section select.
  Context (e : env) (c : collection) (Hr : regular e c).
  Local Notation keys := (p_keys (c_part c)).

  Lemma represents_laid_out M I s : represents c M I s -> laid_out (c_part c) (c_dir c) s.
  Proof.
    intros Hs q x E. pose proof E as E0. apply (rp_files _ _ _ _ Hs) in E as [->|[(_ & f & ->)|(v & f & [d Hv] & ->)]].
    - right. left. exists CONFIG, []. split; [done|]. by eexists.
    - right. left. exists IMMUTABLE, f. split; [done|]. by eexists.
    - right. right. destruct (rp_part _ _ _ _ Hs _ _ Hv) as (Hl & _ & Hh). destruct f as [|a f]; [|by exists v, a, f].
      destruct Hh as [Hh _]. rewrite sub_lookup in Hh. unfold part_dir in Hh. rewrite !app_nil_r in Hh. rewrite app_nil_r in E0. congruence.
  Qed.
  Lemma represents_directory M I s v : represents c M I s ->
    (length v = length keys /\ directory s (c_dir c ++ key_dirs (c_part c) v)) <-> is_Some (M v).
  Proof.
    intros Hs. split.
    - intros [Hl (a & f & x & E)]. destruct (M v) as [d|] eqn:EM; [by eexists|].
      rewrite (part_nothing e c Hr M I s v Hs Hl EM) in E; [done|]. apply under_app.
    - intros [d Hd]. destruct (rp_part _ _ _ _ Hs _ _ Hd) as (Hl & _ & Hh). split; [done|].
      exists ZGROUP, [], (CMeta MGroup). change (c_dir c ++ key_dirs (c_part c) v) with (part_dir c v). rewrite <-sub_lookup. apply Hh.
  Qed.

  (** The listing of the partitions, for any filter. *)
  Definition present (s : store) (v : list Z) : Prop := length v = length keys /\ directory s (part_dir c v).
  Lemma select_laid s f : laid_out (c_part c) (c_dir c) s ->
    exists vss, StronglySorted row_lt vss /\ (forall v, v ∈ vss <-> present s v) /\
      exec (select_parts e c f) s = (filter_res (fun item => is_selected (c_part c) f (str_remove (path_str (c_dir c)) (path_str item))) (map (part_dir c) vss), s).
  Proof.
    intros Hs. destruct (list_partitions_laid_out (e_order e) (rg_order _ _ Hr) (c_part c) (c_dir c) s (rg_keys _ _ Hr) (rg_path _ _ Hr) Hs)
      as (vss & E & Hso & Hv).
    exists vss. split_and!; [done|done|].
    unfold select_parts. rewrite exec_bind, exec_get_tree, sub_root. cbn [exec]. f_equal. unfold partitions. rewrite E. cbn [rbind].
    assert (Hne : forall v, v ∈ vss -> Some (part_dir c v) <> immutable_path c).
    { intros v Hin. apply Hv in Hin as [Hl _]. unfold immutable_path. destruct (c_immutable c); [|done]. intros [= Ei]. unfold part_dir in Ei.
      apply app_inv_head in Ei. destruct (key_head e c Hr v Hl) as (a & r & Ea & Ha & _). rewrite Ea in Ei. injection Ei as -> _. done. }
    change (fun v => c_dir c ++ key_dirs (c_part c) v) with (part_dir c). clear -Hne. induction vss as [|v l IH]; [done|]. cbn.
    rewrite (bool_decide_eq_false_2 (Some (part_dir c v) = immutable_path c)) by (apply Hne; left). destruct (is_selected _ _ _); [|done]. cbn. rewrite IH; [done|].
    intros w Hw. apply Hne. by right.
  Qed.
  Lemma select_any M I s f : represents c M I s ->
    exists vss, StronglySorted row_lt vss /\ (forall v, v ∈ vss <-> is_Some (M v)) /\
      select_parts e c NoFilter = (let! t <- get_tree []; Ret (partitions (e_order e) (c_part c) (c_dir c) (immutable_path c) None NoFilter t)) /\
      exec (select_parts e c f) s = (filter_res (fun item => is_selected (c_part c) f (str_remove (path_str (c_dir c)) (path_str item))) (map (part_dir c) vss), s).
  Proof.
    intros Hs. destruct (select_laid s f (represents_laid_out M I s Hs)) as (vss & H1 & H2 & H3). exists vss. split_and!; [done| |done|done].
    intros v. rewrite H2. by apply (represents_directory M I s v).
  Qed.
  Lemma select_all M I s : represents c M I s -> exists vss, StronglySorted row_lt vss /\ (forall v, v ∈ vss <-> is_Some (M v)) /\
    exec (select_parts e c NoFilter) s = (Ok (map (part_dir c) vss), s).
  Proof.
    intros Hs. destruct (select_any M I s NoFilter Hs) as (vss & H1 & H2 & _ & H3). exists vss. split_and!; [done..|]. rewrite H3. f_equal.
    clear. induction (map (part_dir c) vss) as [|x l IH]; [done|]. cbn [filter_res]. by rewrite IH.
  Qed.
  Lemma select_filter_laid s f (P : list Z -> Prop) : laid_out (c_part c) (c_dir c) s -> filterable c ->
    (forall v, present s v -> says (c_part c) f v (P v)) ->
    exists vss, StronglySorted row_lt vss /\ (forall v, v ∈ vss <-> present s v /\ P v) /\ exec (select_parts e c f) s = (Ok (map (part_dir c) vss), s).
  Proof.
    intros Hs [Hb Hrg] HP. destruct (select_laid s f Hs) as (vss & H1 & H2 & H3).
    assert (Hlen : Forall (fun v => length v = length keys) vss).
    { apply Forall_forall. intros v Hv. by apply H2 in Hv as [? _]. }
    assert (Hsel : forall v, v ∈ vss -> exists b, is_selected (c_part c) f (str_remove (path_str (c_dir c)) (path_str (c_dir c ++ key_dirs (c_part c) v))) = Ok b /\ (b = true <-> P v)).
    { intros v Hin. rewrite Forall_forall in Hlen. destruct (parse_relative (c_part c) (c_dir c) v (rg_keys _ _ Hr) (rg_path _ _ Hr) Hb (Hlen v Hin)) as [E1 E2].
      pose proof (HP v (proj1 (H2 v) Hin)) as Hsay. unfold says in Hsay. destruct f as [|x|g]; cbn [is_selected].
      - exists true. split; [done|]. by split.
      - rewrite E1. cbn [rbind]. rewrite E2. destruct (call_means (zip keys v) x (P v)) as (w & Hw & Hi).
        + apply dget_None. unfold dkeys. change (map fst (zip keys v)) with ((zip keys v).*1).
          rewrite fst_zip by (rewrite (Hlen v Hin); lia). done.
        + done.
        + rewrite Hw. cbn. by exists (truth w).
      - rewrite E1. cbn [rbind]. rewrite E2. done. }
    destruct (filter_res _ (map (part_dir c) vss)) as [l'|ex] eqn:Ef.
    - apply filter_res_sub in Ef as (g & -> & Hg). exists (List.filter (fun v => g (part_dir c v)) vss). split_and!.
      + by apply sorted_filter.
      + intros v. rewrite elem_of_list_In, filter_In, <-elem_of_list_In, <-H2. split; intros [Hin HH]; (split; [done|]);
          destruct (Hsel v Hin) as (b & Eb & Hb'); change (c_dir c ++ key_dirs (c_part c) v) with (part_dir c v) in Eb;
          rewrite Hg in Eb by (apply elem_of_list_In, in_map_iff; exists v; split; [done|by apply elem_of_list_In]); injection Eb as <-; tauto.
      + rewrite H3. f_equal. f_equal. apply filter_map.
    - exfalso. clear H1 H2 H3 HP. induction vss as [|v l IH]; [done|]. cbn in Ef.
      destruct (Hsel v ltac:(left)) as (b & Eb & _). change (c_dir c ++ key_dirs (c_part c) v) with (part_dir c v) in Eb. rewrite Eb in Ef. cbn in Ef.
      destruct (filter_res _ (map (part_dir c) l)) as [|ex'] eqn:El; [done|]. cbn in Ef. injection Ef as ->.
      apply IH; try done; [by inversion Hlen|]. intros w Hw. apply Hsel. by right.
  Qed.
  Lemma select_filter M I s f (P : list Z -> Prop) : represents c M I s -> filterable c ->
    (forall v, is_Some (M v) -> says (c_part c) f v (P v)) ->
    exists vss, StronglySorted row_lt vss /\ (forall v, v ∈ vss <-> is_Some (M v) /\ P v) /\ exec (select_parts e c f) s = (Ok (map (part_dir c) vss), s).
  Proof.
    intros Hs Hb HP. destruct (select_filter_laid s f P (represents_laid_out M I s Hs) Hb) as (vss & H1 & H2 & H3).
    - intros v Hv. apply HP. by apply (represents_directory M I s v).
    - exists vss. split_and!; [done| |done]. intros v. rewrite H2. unfold present. by rewrite <-(represents_directory M I s v).
  Qed.

  Lemma represents_shows M I s : represents c M I s -> shows e c M s.
  Proof.
    intros Hs. split.
    - destruct (select_all M I s Hs) as (vss & H1 & H2 & H3). by exists vss.
    - intros v d delayed sel Hd. destruct (rp_part _ _ _ _ Hs _ _ Hd) as (_ & Hso & Hh).
      destruct (holds_reads _ _ delayed sel Hso Hh) as (d' & E & Hrd). exists d'. split; [|done].
      unfold open_zarr_group. rewrite exec_bind, exec_get_tree. cbn [exec]. by rewrite E.
  Qed.

  (** ** Dropping *)
  Definition without (M : list Z -> option dataset) (vs : list (list Z)) (v : list Z) : option dataset :=
    if decide (v ∈ vs) then None else M v.
  Definition prune_all (s : store) (vs : list (list Z)) : store := foldr (fun v u => prune (part_dir c v) u) s vs.
  Lemma prune_all_lookup s vs q : prune_all s vs !! q = if decide (Exists (fun v => under (part_dir c v) q) vs) then None else s !! q.
  Proof.
    induction vs as [|v vs IH]; cbn.
    - rewrite decide_False; [done|]. by intros ?%Exists_nil.
    - rewrite prune_lookup. unfold prune_all in IH. rewrite IH. destruct (decide (under (part_dir c v) q)) as [U|U].
      + rewrite decide_True; [done|]. by left.
      + destruct (decide (Exists _ vs)) as [X|X]; [by rewrite decide_True by (by right)|]. rewrite decide_False; [done|].
        intros [?|?]%Exists_cons; done.
  Qed.
  Lemma represents_without M I s vs : represents c M I s -> (forall v, v ∈ vs -> length v = length keys) -> represents c (without M vs) I (prune_all s vs).
  Proof.
    intros Hs Hl. unfold without. split.
    - intros q x E. rewrite prune_all_lookup in E. destruct (decide _) as [|Hno]; [done|].
      apply (rp_files _ _ _ _ Hs) in E as [?|[?|(v & f & Hv & ->)]]; [by left|right; by left|right; right]. exists v, f. split; [|done].
      rewrite decide_False; [done|]. intros Hin. apply Hno, Exists_exists. exists v. split; [done|]. unfold part_dir. rewrite app_assoc. apply under_app.
    - intros v d Hv. destruct (decide (v ∈ vs)) as [|Hni]; [done|]. destruct (rp_part _ _ _ _ Hs _ _ Hv) as (H1 & H2 & H3). split_and!; [done..|].
      replace (sub _ _) with (sub (part_dir c v) s); [done|]. apply map_eq. intros q. rewrite !sub_lookup, prune_all_lookup, decide_False; [done|].
      intros (w & Hw & U)%Exists_exists. assert (N : w <> v) by congruence. eapply (parts_apart c w v); [by apply Hl|done|done|exact U|apply under_app].
    - intros d Hd. destruct (rp_immutable _ _ _ _ Hs _ Hd) as [H1 H2]. split; [done|].
      replace (sub _ _) with (sub (c_dir c ++ [IMMUTABLE]) s); [done|]. apply map_eq. intros q. rewrite !sub_lookup, prune_all_lookup, decide_False; [done|].
      intros (w & Hw & U)%Exists_exists. destruct (key_head e c Hr w (Hl w Hw)) as (a & r & Ea & Ha & _). destruct U as (f & U).
      unfold part_dir in U. rewrite Ea, <-!app_assoc in U. apply app_inv_head in U. injection U as <- _. done.
  Qed.
  Lemma exec_rm_all M I s sched vs : represents c M I s -> NoDup vs -> (forall v, v ∈ vs -> is_Some (M v)) ->
    exec (execute_transaction CTorn sched (map rm (map (part_dir c) vs))) s = (Ok (map (fun _ => tt) vs), prune_all s vs).
  Proof.
    intros Hs Hnd Hv. set (ps := map rm (map (part_dir c) vs) : list (program unit)).
    assert (Hlen : forall v, v ∈ vs -> length v = length keys).
    { intros v Hin. apply Hv in Hin as [d Hd]. by apply (rp_part _ _ _ _ Hs) in Hd as [? _]. }
    set (W := fun i q => match vs !! i with Some v => under (part_dir c v) q | None => False end).
    assert (Hlk : forall i p, ps !! i = Some p -> exists v, vs !! i = Some v /\ p = rm (part_dir c v)).
    { intros i p. unfold ps. rewrite map_map. change (map ?f vs) with (f <$> vs). rewrite list_lookup_fmap. destruct (vs !! i) as [v|]; [|done]. intros [= <-]. eauto. }
    assert (Hind : independent ps (fun _ _ => False) W).
    { split.
      - intros i p E. apply Hlk in E as (v & Ei & ->). apply within_rm. intros q Hq. unfold W. by rewrite Ei.
      - intros i j p p' Ei Ej N q Wi [?|Wj]; [done|]. apply Hlk in Ei as (v & Ei & _), Ej as (v' & Ej & _). unfold W in *. rewrite Ei in Wi. rewrite Ej in Wj.
        refine (parts_apart c v v' _ _ _ q Wi Wj); try (apply Hlen; by eapply elem_of_list_lookup_2). intros ->. apply N. by eapply NoDup_lookup. }
    assert (Hdec : forall i q, Decision (W i q)) by (intros i q; unfold W; destruct (vs !! i); apply _).
    rewrite (exec_transaction CTorn sched ps (fun _ _ => False) W s Hdec Hind).
    destruct (exec_all_spec CTorn ps (fun _ _ => False) W s Hind) as (E1 & E2 & E3).
    assert (Hex : forall v, v ∈ vs -> exec (rm (part_dir c v)) s = (Ok tt, prune (part_dir c v) s)).
    { intros v Hin. rewrite exec_rm. destruct (empty_at (part_dir c v) s) eqn:Em; [|done]. exfalso. apply nothing_empty in Em.
      apply Hv, (represents_directory M I s v Hs) in Hin as [_ (a & f & x & Ex)]. rewrite (Em _ (under_app _ _)) in Ex. done. }
    f_equal.
    - rewrite E1. apply first_error_Ok. unfold ps. rewrite !map_map. apply map_ext_in. intros v Hin. rewrite Hex by (by apply elem_of_list_In). done.
    - apply map_eq. intros q. rewrite prune_all_lookup. destruct (decide _) as [X|X].
      + apply Exists_exists in X as (v & Hin & U). pose proof Hin as Hin'. apply elem_of_list_lookup in Hin as [i Hi].
        rewrite (E2 i (rm (part_dir c v)) q).
        * rewrite Hex by done. cbn. by rewrite prune_lookup, decide_True.
        * unfold ps. rewrite map_map. change (map ?f vs) with (f <$> vs). by rewrite list_lookup_fmap, Hi.
        * right. unfold W. by rewrite Hi.
      + apply E3. intros i p Ei Wi. apply Hlk in Ei as (v & Ei & _). unfold W in Wi. rewrite Ei in Wi. apply X, Exists_exists. exists v.
        split; [by eapply elem_of_list_lookup_2|done].
  Qed.
  Lemma sorted_nodup_rows vss : StronglySorted row_lt vss -> NoDup vss.
  Proof.
    induction 1 as [|x l Hs IH Hall]; constructor; [|done]. intros Hin. rewrite Forall_forall in Hall. by apply (row_lt_irrefl x), Hall.
  Qed.

  (** Any call of drop_partitions either changes nothing or removes the
      partitions it returns. *)
  Lemma drop_spec M I s sched f older r s' : represents c M I s ->
    exec (drop_partitions e sched c f older) s = (r, s') ->
    match r with
    | Raise _ => s' = s
    | Ok dirs => exists vs, dirs = map (part_dir c) vs /\ (forall v, v ∈ vs -> is_Some (M v)) /\ StronglySorted row_lt vs /\
        represents c (without M vs) I s' /\ forall q, ~ (exists v, v ∈ vs /\ under (part_dir c v) q) -> s' !! q = s !! q
    end.
  Proof.
    intros Hs. unfold drop_partitions. destruct (c_readonly c); [by intros [= <- <-]|]. rewrite exec_bind.
    destruct (select_any M I s f Hs) as (vss & H1 & H2 & _ & H3). rewrite H3.
    destruct (filter_res _ _) as [l|ex] eqn:Ef; [|by intros [= <- <-]]. apply filter_res_sub in Ef as (g & -> & _). rewrite filter_map.
    set (vs0 := List.filter (fun v => g (part_dir c v)) vss).
    assert (Hs0 : StronglySorted row_lt vs0) by (by apply sorted_filter).
    assert (Hin0 : forall v, v ∈ vs0 -> is_Some (M v)).
    { intros v Hv. apply elem_of_list_In, filter_In in Hv as [Hv _]. apply H2. by apply elem_of_list_In. }
    set (vs := match older with None => vs0 | Some o => List.filter (fun v => o (part_dir c v)) vs0 end).
    assert (Hso : StronglySorted row_lt vs) by (subst vs; destruct older; [by apply sorted_filter|done]).
    assert (Hin : forall v, v ∈ vs -> is_Some (M v)).
    { intros v Hv. apply Hin0. subst vs. destruct older; [|done]. apply elem_of_list_In, filter_In in Hv as [Hv _]. by apply elem_of_list_In. }
    assert (Hfin : exec (let! _ <- execute_transaction CTorn sched (map rm (map (part_dir c) vs)); pret (map (part_dir c) vs)) s = (Ok (map (part_dir c) vs), prune_all s vs)).
    { rewrite exec_bind, (exec_rm_all M I s sched vs Hs); [done|by apply sorted_nodup_rows|done]. }
    intros E. destruct (map (part_dir c) vs0) as [|x l] eqn:El.
    - injection E as <- <-. exists [].
      assert (Hnil : forall v : list Z, v ∈ [] -> False) by (intros v Hv; by apply elem_of_nil in Hv).
      split; [done|]. split; [intros v Hv; by apply Hnil in Hv|]. split; [constructor|]. split; [|done].
      apply (represents_without M I s []); [done|]. intros v Hv; by apply Hnil in Hv.
    - assert (Ed : match older with None => x :: l | Some o => List.filter o (x :: l) end = map (part_dir c) vs).
      { rewrite <-El. subst vs. destruct older; [apply filter_map|done]. }
      rewrite Ed in E. rewrite Hfin in E. injection E as <- <-. exists vs. split_and!; try done.
      + apply represents_without; [done|]. intros v Hv. apply Hin in Hv as [d Hd]. by apply (rp_part _ _ _ _ Hs) in Hd as [? _].
      + intros q Hq. rewrite prune_all_lookup, decide_False; [done|]. intros (v & Hv & U)%Exists_exists. eauto.
  Qed.
  (** With a filter that makes sense, it removes the partitions the filter
      selects, among those old enough. *)
  Lemma drop_filter M I s sched f older (P : list Z -> Prop) : c_readonly c = false -> represents c M I s -> filterable c ->
    (forall v, is_Some (M v) -> says (c_part c) f v (P v)) ->
    exists vs s', exec (drop_partitions e sched c f older) s = (Ok (map (part_dir c) vs), s') /\
      forall v, v ∈ vs <-> is_Some (M v) /\ P v /\ match older with None => True | Some o => o (part_dir c v) = true end.
  Proof.
    intros Hro Hs Hfi HP. destruct (select_filter M I s f P Hs Hfi HP) as (vs0 & H1 & H2 & H3). unfold drop_partitions. rewrite Hro.
    set (vs := match older with None => vs0 | Some o => List.filter (fun v => o (part_dir c v)) vs0 end).
    assert (Hin : forall v, v ∈ vs <-> is_Some (M v) /\ P v /\ match older with None => True | Some o => o (part_dir c v) = true end).
    { intros v. subst vs. destruct older as [o|]; [|rewrite H2; tauto].
      rewrite elem_of_list_In, filter_In, <-elem_of_list_In, H2. tauto. }
    exists vs. rewrite exec_bind, H3.
    destruct (map (part_dir c) vs0) as [|x l] eqn:El.
    - assert (vs0 = []) as Ev0 by (by destruct vs0). exists s. split; [|done]. subst vs. rewrite Ev0. by destruct older.
    - assert (Ed : match older with None => x :: l | Some o => List.filter o (x :: l) end = map (part_dir c) vs).
      { rewrite <-El. subst vs. destruct older; [apply filter_map|done]. }
      rewrite Ed. exists (prune_all s vs). split; [|done].
      rewrite exec_bind, (exec_rm_all M I s sched vs Hs); [done| |].
      + subst vs. apply sorted_nodup_rows. destruct older; [by apply sorted_filter|done].
      + intros v Hv. by apply Hin in Hv as [? _].
  Qed.
End select.
