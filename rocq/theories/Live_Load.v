(** * Loading partitions while the others change *)
From Verif Require Import Py Dict Order NdArray_Model Dataset_Model Dataset_Spec Meta_Model PartPath_Model PartPath_Proofs Split_Model Split_Spec FS_Model FS_Proofs Pool_Model Pool_Proofs
  Storage_Model Storage_Spec Storage_Proofs Listing_Model Listing_Spec Listing_Proofs Listing_Expr Listing_Props Collection_Model Collection_Spec Collection_Split Collection_Proofs Collection_State
  Collection_Prepare Collection_Insert Collection_Select Collection_Crash Crash_Spec Live_Model Live_Spec Live_Proofs.

(** A reader that sees one state ends as if it was alone. *)
Lemma live_exec {A : Type} (Phi : store -> Prop) (Q : res A -> Prop) (p : program A) s : live Phi Q p -> Phi s -> Q (exec p s).1 /\ (exec p s).2 = s.
Proof.
  intros H Hs. induction p as [r|o k IH]; cbn in *; [done|]. destruct o; try done. cbn. apply IH. by apply H.
Qed.

Section select.
  Context (e : env) (c : collection) (Hr : regular e c).
  Local Notation keys := (p_keys (c_part c)).
  Local Notation here := (Collection_Select.present c).

  (** The files of the collection: hidden, or in a partition. *)
  Definition tidy (u : store) : Prop := forall q x, u !! (c_dir c ++ q) = Some x ->
    (exists n f, q = n :: f /\ starts_with_dot n) \/ (exists v n f, length v = length keys /\ q = key_dirs (c_part c) v ++ n :: f).
  Lemma represents_tidy M I s : represents c M I s -> tidy s.
  Proof using All.
    intros Hs q x E. destruct (represents_laid_out c M I s Hs q x E) as [(n & -> & _)|[H|H]]; [|by left|by right].
    left. pose proof E as E0. apply (rp_files _ _ _ _ Hs) in E as [[= ->]|[(_ & f & [= -> _])|(v & f & [d Hv] & H)]].
    - exists CONFIG, []. split; [done|]. by eexists.
    - exists IMMUTABLE, []. split; [done|]. by eexists.
    - exfalso. destruct (rp_part _ _ _ _ Hs _ _ Hv) as (Hl & _ & Hh). destruct Hh as [Hh _].
      destruct (key_head e c Hr v Hl) as (a & r & Ea & _). rewrite Ea in H. injection H as -> Hf. symmetry in Hf. apply app_eq_nil in Hf as [-> ->].
      rewrite sub_lookup, app_nil_r in Hh. unfold part_dir in Hh. rewrite Ea in Hh. congruence.
  Qed.

  (** What a filter keeps of a list of partitions. *)
  Lemma filter_says f (P : list Z -> Prop) vss : filterable c -> StronglySorted row_lt vss -> (forall v, v ∈ vss -> length v = length keys) ->
    (forall v, v ∈ vss -> says (c_part c) f v (P v)) ->
    exists l, filter_res (fun item => if bool_decide (Some item = immutable_path c) then Ok false
                                      else is_selected (c_part c) f (str_remove (path_str (c_dir c)) (path_str item))) (map (part_dir c) vss) = Ok (map (part_dir c) l) /\
      StronglySorted row_lt l /\ (forall v, v ∈ l <-> v ∈ vss /\ P v).
  Proof using All.
    intros [Hb Hrg] Hso Hlen HP.
    assert (Hsel : forall v, v ∈ vss -> exists b, is_selected (c_part c) f (str_remove (path_str (c_dir c)) (path_str (c_dir c ++ key_dirs (c_part c) v))) = Ok b /\ (b = true <-> P v)).
    { intros v Hin. destruct (parse_relative (c_part c) (c_dir c) v (rg_keys _ _ Hr) (rg_path _ _ Hr) Hb (Hlen v Hin)) as [E1 E2].
      pose proof (HP v Hin) as Hsay. unfold says in Hsay. destruct f as [|x|g]; cbn [is_selected].
      - exists true. split; [done|]. by split.
      - rewrite E1. cbn [rbind]. rewrite E2. destruct (call_means (zip keys v) x (P v)) as (w & Hw & Hi).
        + apply dget_None. unfold dkeys. change (map fst (zip keys v)) with ((zip keys v).*1).
          rewrite fst_zip by (rewrite (Hlen v Hin); lia). done.
        + done.
        + rewrite Hw. cbn. by exists (truth w).
      - rewrite E1. cbn [rbind]. rewrite E2. done. }
    assert (Hne : forall v, v ∈ vss -> Some (part_dir c v) <> immutable_path c).
    { intros v Hin. pose proof (Hlen v Hin) as Hl. unfold immutable_path. destruct (c_immutable c); [|done]. intros [= Ei]. unfold part_dir in Ei.
      apply app_inv_head in Ei. destruct (key_head e c Hr v Hl) as (a & r & Ea & Ha & _). rewrite Ea in Ei. injection Ei as -> _. done. }
    clear HP Hlen. induction Hso as [|v vss Hso IH Hall].
    - exists []. split_and!; [done|constructor|]. intros v. rewrite elem_of_nil. tauto.
    - destruct IH as (l & E & Hl & Hin); [intros w Hw; apply Hsel; by right|intros w Hw; apply Hne; by right|].
      destruct (Hsel v ltac:(left)) as (b & Eb & HPb). change (c_dir c ++ key_dirs (c_part c) v) with (part_dir c v) in Eb.
      cbn [map filter_res]. rewrite (bool_decide_eq_false_2 (Some (part_dir c v) = immutable_path c)) by (apply Hne; left). rewrite Eb. cbn [rbind]. rewrite E. cbn [rbind].
      destruct b.
      + exists (v :: l). split_and!; [done| |].
        * constructor; [done|]. apply Forall_forall. intros w Hw. rewrite Forall_forall in Hall. apply Hall. by apply Hin in Hw as [? _].
        * intros w. rewrite !elem_of_cons, Hin. split; [|tauto]. intros [->|[? ?]]; [|tauto]. split; [by left|]. by apply HPb.
      + exists l. split_and!; [done|done|]. intros w. rewrite elem_of_cons, Hin. split; [tauto|]. intros [[->|?] ?]; [|tauto]. exfalso. assert (false = true) by (by apply HPb). done.
  Qed.

  (** The selected partitions are the same whatever happens to the others. *)
  Lemma live_select_same (Phi : store -> Prop) f (P : list Z -> Prop) vs : filterable c -> StronglySorted row_lt vs -> (exists u, Phi u) ->
    (forall u, Phi u -> tidy u) -> (forall u v, Phi u -> here u v -> says (c_part c) f v (P v)) ->
    (forall u v, Phi u -> here u v -> P v -> v ∈ vs) -> (forall u v, Phi u -> v ∈ vs -> here u v /\ P v) ->
    live Phi (fun r => r = Ok (map (part_dir c) vs)) (live_select e c f).
  Proof using All.
    intros Hfi Hvs [u0 Hu0] Ht HP H1 H2. pose proof (plain_len _ (rg_keys _ _ Hr)) as Hlen.
    assert (Hpos : 0 < length keys) by (pose proof (plain_some _ (rg_keys _ _ Hr)); destruct keys; [done|cbn; lia]).
    unfold live_select, live_partitions. eapply (live_bind Phi (fun r => exists vss, r = Ok (map (part_dir c) vss) /\ StronglySorted row_lt vss /\
      (forall v, v ∈ vss -> exists u, Phi u /\ here u v) /\ (forall v, v ∈ vs -> v ∈ vss))).
    - eapply live_bind; [eapply (live_root_found Phi (e_order e) (rg_order _ _ Hr) (p_len (c_part c)) (c_dir c)); [lia|]| |by intros ex (l & ? & _)].
      + intros a Ha u r Hu Hl. destruct (u !! ((c_dir c ++ [a]) ++ r)) as [x|] eqn:E; [|done]. exfalso. rewrite <-app_assoc in E. cbn [app] in E.
        apply (Ht u Hu) in E as [(n & f0 & [= <- _] & ?)|(v & n & f0 & Hl' & E)]; [done|]. apply (f_equal length) in E. unfold key_dirs in E.
        rewrite app_length, map_length, zip_with_length in E. cbn in E. rewrite Hlen in Hl. lia.
      + intros l (l' & [= <-] & Hnd & Hl1 & Hl2). cbn [live].
        assert (Hws : exists ws, l = map (part_dir c) ws /\ forall v, v ∈ ws -> exists u, Phi u /\ here u v).
        { clear Hnd Hl2. induction l as [|x l IH]; [exists []; split; [done|]; intros v H; by apply elem_of_nil in H|].
          destruct IH as (ws & -> & Hws); [intros y Hy; apply Hl1; by right|].
          destruct (Hl1 x ltac:(left)) as (u & a & r & Hu & -> & Ha & Hl & Hpr).
          assert (Hv : exists v, a :: r = key_dirs (c_part c) v /\ length v = length keys /\ directory u (c_dir c ++ a :: r)).
          { destruct Hpr as [[x Hx]|(n & f0 & x & Hx)].
            - exfalso. apply (Ht u Hu) in Hx as [(n & f0 & [= <- _] & ?)|(v & n & f0 & Hl' & E)]; [done|]. apply (f_equal length) in E. unfold key_dirs in E.
              rewrite app_length, map_length, zip_with_length in E. cbn in E, Hl. lia.
            - pose proof Hx as Hx0. rewrite <-app_assoc in Hx. cbn [app] in Hx. apply (Ht u Hu) in Hx as [(m & g & [= <- _] & ?)|(v & m & g & Hl' & E)]; [done|].
              exists v. split_and!; [|done|by exists n, f0, x]. change (a :: r ++ n :: f0) with ((a :: r) ++ n :: f0) in E.
              apply app_inj_1 in E as [E _]; [done|]. unfold key_dirs. rewrite map_length, zip_with_length. lia. }
          destruct Hv as (v & Ev & Hlv & Hd). exists (v :: ws). split; [cbn; unfold part_dir; by rewrite Ev|]. intros w [->|Hw]%elem_of_cons; [|by apply Hws].
          exists u. split; [done|]. split; [done|]. unfold part_dir. by rewrite <-Ev. }
        destruct Hws as (ws & -> & Hws).
        destruct (sorted_listing (c_part c) (c_dir c) ws (rg_keys _ _ Hr) (rg_path _ _ Hr)) as (vss & E & Hso & Hperm).
        { apply Forall_forall. intros v Hv. destruct (Hws v Hv) as (u & _ & ? & _). done. }
        { by apply NoDup_fmap_1 in Hnd. }
        exists vss. split_and!; [exact E|done|intros v Hv; apply Hws; by rewrite <-Hperm|].
        intros v Hv. rewrite Hperm. destruct (H2 u0 v Hu0 Hv) as [[Hlv _] _].
        assert (Hin : part_dir c v ∈ map (part_dir c) ws).
        { destruct (key_head e c Hr v Hlv) as (a & r & Ea & _ & Ha). unfold part_dir. rewrite Ea. apply Hl2; [done| |].
          - rewrite <-Ea. unfold key_dirs. rewrite map_length, zip_with_length. lia.
          - intros u Hu. rewrite <-Ea. by destruct (H2 u v Hu Hv) as [[_ ?] _]. }
        apply elem_of_list_In, in_map_iff in Hin as (w & E' & Hw). apply elem_of_list_In in Hw.
        destruct (decide (w = v)) as [<-|N]; [done|]. exfalso. destruct (Hws w Hw) as (u & _ & Hlw & _).
        apply (parts_apart c w v Hlw Hlv N (part_dir c v)); [rewrite E'|]; apply under_refl.
    - intros items (vss & [= ->] & Hso & Hin & Hvss). cbn [live].
      destruct (filter_says f P vss Hfi Hso) as (l & -> & Hl & Hl2).
      { intros v Hv. by destruct (Hin v Hv) as (u & _ & ? & _). }
      { intros v Hv. destruct (Hin v Hv) as (u & Hu & Hp). by eapply HP. }
      f_equal. f_equal. apply (sorted_rows_unique (length keys)); [done|done| |].
      + intros v Hv. apply Hl2 in Hv as [Hv _]. by destruct (Hin v Hv) as (u & _ & ? & _).
      + intros v. rewrite Hl2. split.
        * intros [Hv HPv]. destruct (Hin v Hv) as (u & Hu & Hp). by eapply H1.
        * intros Hv. split; [by apply Hvss|]. by destruct (H2 u0 v Hu0 Hv).
    - by intros ex (vss & ? & _).
  Qed.

  (** Loading. *)
  Lemma live_open_same (Phi : store -> Prop) s d delayed sel : (forall u, Phi u -> read_group (sub d u) delayed sel = read_group (sub d s) delayed sel) ->
    live Phi (fun r => r = (exec (open_zarr_group d delayed sel) s).1) (open_zarr_group d delayed sel).
  Proof using. intros H. unfold open_zarr_group. rewrite exec_bind, exec_get_tree. cbn. exact H. Qed.
  Lemma live_open_all (Phi : store -> Prop) s delayed sel l : (forall d u, d ∈ l -> Phi u -> read_group (sub d u) delayed sel = read_group (sub d s) delayed sel) ->
    live Phi (fun r => r = (exec (pseq (map (fun q => open_zarr_group q delayed sel) l)) s).1) (pseq (map (fun q => open_zarr_group q delayed sel) l)).
  Proof using.
    induction l as [|d l IH]; intros H; cbn [map pseq]; [done|]. assert (Hd := live_open_same Phi s d delayed sel ltac:(intros u; apply H; left)).
    unfold open_zarr_group in Hd. rewrite exec_bind, exec_get_tree in Hd. cbn [exec fst] in Hd.
    rewrite exec_bind. unfold open_zarr_group at 1. rewrite exec_bind, exec_get_tree. cbn [exec]. eapply live_bind; [exact Hd| |by intros ex <-].
    intros ds <-. cbv iota. rewrite exec_bind.
    assert (Hl : live Phi (fun r => r = (exec (pseq (map (fun q => open_zarr_group q delayed sel) l)) s).1) (pseq (map (fun q => open_zarr_group q delayed sel) l))).
    { apply IH. intros d' u Hd'. apply H. by right. }
    eapply live_bind; [exact Hl| |].
    - intros dss E. destruct (exec _ s) as [[dss'|] s'] eqn:Ex; cbn in E; [|done]. injection E as ->. done.
    - intros ex E. destruct (exec _ s) as [[dss'|] s'] eqn:Ex; cbn in E; [done|]. injection E as ->. done.
  Qed.
  Lemma live_load_same (Phi : store -> Prop) f (P : list Z -> Prop) vs s delayed sel : filterable c -> StronglySorted row_lt vs -> Phi s ->
    (forall u, Phi u -> tidy u) -> (forall u v, Phi u -> here u v -> says (c_part c) f v (P v)) ->
    (forall u v, Phi u -> here u v -> P v -> v ∈ vs) -> (forall u v, Phi u -> v ∈ vs -> here u v /\ P v) ->
    (forall u v, Phi u -> v ∈ vs -> read_group (sub (part_dir c v) u) delayed sel = read_group (sub (part_dir c v) s) delayed sel) ->
    (forall u, Phi u -> untouched s u (c_dir c ++ [IMMUTABLE])) ->
    live Phi (fun r => r = (exec (load_live e c delayed f sel) s).1) (load_live e c delayed f sel).
  Proof using All.
    intros Hfi Hvs Hs Ht HP H1 H2 H3 H4. pose proof (live_select_same Phi f P vs Hfi Hvs ltac:(by exists s) Ht HP H1 H2) as Hsel.
    destruct (live_exec Phi _ _ s Hsel Hs) as [E1 E2].
    assert (Es : exec (live_select e c f) s = (Ok (map (part_dir c) vs), s)) by (destruct (exec (live_select e c f) s); cbn in *; by subst).
    unfold load_live. rewrite exec_bind, Es. eapply live_bind; [exact Hsel| |intros ex Hex; discriminate Hex]. intros first [= ->].
    destruct vs as [|v0 vs0]; [done|]. cbn [map]. change (part_dir c v0 :: map (part_dir c) vs0) with (map (part_dir c) (v0 :: vs0)).
    set (vs := v0 :: vs0) in *. clearbody vs. rewrite exec_bind, Es. eapply live_bind; [exact Hsel| |intros ex Hex; discriminate Hex]. intros parts [= ->].
    assert (Hopen : live Phi (fun r => r = (exec (pseq (map (fun q => open_zarr_group q delayed sel) (map (part_dir c) vs))) s).1) (pseq (map (fun q => open_zarr_group q delayed sel) (map (part_dir c) vs)))).
    { apply live_open_all. intros d u Hd Hu. apply elem_of_list_In, in_map_iff in Hd as (v & <- & Hv). apply H3; [done|by apply elem_of_list_In]. }
    rewrite exec_bind. eapply live_bind; [exact Hopen| |].
    2:{ intros ex E. destruct (exec (pseq _) s) as [[arrays|] s'] eqn:Ex; cbn in E; [done|]. injection E as ->. done. }
    intros arrays E. destruct (exec (pseq _) s) as [[arrays'|] s'] eqn:Ex; cbn in E; [|done]. injection E as ->.
    assert (s' = s) as ->.
    { destruct (live_exec Phi _ _ s Hopen Hs) as [_ E']. by rewrite Ex in E'. }
    apply (live_still Phi (under (c_dir c ++ [IMMUTABLE]))).
    - apply within_bind; [|intros i; by destruct (assemble c arrays' i)].
      unfold load_immutable, immutable_path. destruct (c_immutable c); [|done]. apply within_bind; [|done]. apply within_open_group. intros q Hq. by left.
    - intros u Hu q U. symmetry. by eapply H4.
  Qed.

  (** A writer that stays in partitions that the filter rejects. *)
  Lemma live_load_elsewhere M I s (Phi : store -> Prop) (T : list Z -> Prop) f (P : list Z -> Prop) delayed sel :
    represents c M I s -> filterable c -> Phi s ->
    (forall v, is_Some (M v) \/ T v -> says (c_part c) f v (P v)) -> (forall v, T v -> ~ P v /\ length v = length keys) ->
    (forall u q, Phi u -> u !! q = s !! q \/ exists v n x, T v /\ q = part_dir c v ++ n :: x) ->
    live Phi (fun r => r = (exec (load_live e c delayed f sel) s).1) (load_live e c delayed f sel).
  Proof using All.
    intros Hs Hfi H0 HP HT HPhi.
    assert (HP' : forall v, is_Some (M v) -> says (c_part c) f v (P v)) by (intros v Hv; apply HP; by left).
    destruct (select_filter e c Hr M I s f P Hs Hfi HP') as (vs & Hvs & Hin & _).
    assert (Hsame : forall u v, Phi u -> P v -> length v = length keys -> untouched s u (part_dir c v)).
    { intros u v Hu Hv Hl q Hq. destruct (HPhi u q Hu) as [|(w & n & x & Hw & ->)]; [done|]. exfalso. destruct (HT w Hw) as [Nw Hlw].
      assert (Nvw : w <> v) by (by intros ->). apply (parts_apart c w v Hlw Hl Nvw _ (under_app _ _) Hq). }
    assert (Hhere : forall u v, Phi u -> P v -> here u v <-> is_Some (M v)).
    { intros u v Hu Hv. rewrite <-(represents_directory e c Hr M I s v Hs). unfold Collection_Select.present. change (c_dir c ++ key_dirs (c_part c) v) with (part_dir c v).
      split; intros [Hl (n & f0 & x & E)]; (split; [done|]); exists n, f0, x; [rewrite <-(Hsame u v Hu Hv Hl)|rewrite (Hsame u v Hu Hv Hl)]; try done; apply under_app. }
    apply (live_load_same Phi f P vs s delayed sel); try done.
    - intros u Hu q x E. destruct (HPhi u (c_dir c ++ q) Hu) as [E'|(v & n & y & Hv & E')].
      + rewrite E' in E. by eapply represents_tidy.
      + right. destruct (HT v Hv) as [_ Hl]. exists v, n, y. split; [done|]. unfold part_dir in E'. rewrite <-app_assoc in E'. by apply app_inv_head in E'.
    - intros u v Hu [Hl (n & f0 & x & E)]. destruct (HPhi u (part_dir c v ++ n :: f0) Hu) as [E'|(w & m & y & Hw & E')].
      + apply HP. left. apply (represents_directory e c Hr M I s v Hs). split; [done|]. exists n, f0, x. by rewrite E' in E.
      + destruct (decide (w = v)) as [->|N]; [apply HP; by right|]. exfalso. destruct (HT w Hw) as [_ Hlw].
        apply (parts_apart c w v Hlw Hl N (part_dir c v ++ n :: f0)); [rewrite E'|]; apply under_app.
    - intros u v Hu Hh Hv. apply Hin. split; [by apply (Hhere u v Hu Hv)|done].
    - intros u v Hu Hv. apply Hin in Hv as [Hv HPv]. split; [by apply (Hhere u v Hu HPv)|done].
    - intros u v Hu Hv. apply Hin in Hv as [[d Hv] HPv]. f_equal. apply map_eq. intros q. rewrite !sub_lookup.
      apply (Hsame u v Hu HPv); [by apply (rp_part _ _ _ _ Hs) in Hv as [? _]|apply under_app].
    - intros u Hu q (f0 & ->). destruct (HPhi u ((c_dir c ++ [IMMUTABLE]) ++ f0) Hu) as [|(w & m & y & Hw & E')]; [done|]. exfalso. destruct (HT w Hw) as [_ Hlw].
      destruct (key_head e c Hr w Hlw) as (a & r & Ea & Ha & _). unfold part_dir in E'. rewrite <-!app_assoc in E'. apply app_inv_head in E'. rewrite Ea in E'. injection E' as <- _. done.
  Qed.
End select.

(** ** An insertion of new partitions *)
Definition inside (d q : path) : Prop := exists n f, q = d ++ n :: f.
Lemma inside_under d q : inside d q -> under d q.
Proof. intros (n & f & ->). apply under_app. Qed.
Lemma within_inside_init d : within (fun _ => True) (inside d) (init_group d).
Proof.
  assert (H : forall n, inside d (d ++ [n])) by (intros n; by exists n, []).
  unfold init_group. apply within_bind; [apply within_read_file; auto|]. intros a. apply within_bind; [apply within_read_file; auto|]. intros g.
  destruct (bool_decide _); [done|]. destruct (bool_decide _); [done|]. by apply within_write.
Qed.
Lemma within_inside_write d ds sched : storable ds -> within (fun _ => True) (inside d) (write_zarr_group d ds (Some sched)).
Proof.
  assert (H : forall n, inside d (d ++ [n])) by (intros n; by exists n, []).
  intros Hs. rewrite write_group_eq. apply within_bind.
  - cbn [write_vars]. apply within_transaction. intros p Hp. apply elem_of_list_In, in_map_iff in Hp as ([n v] & <- & Hin). apply elem_of_list_In in Hin.
    destruct (storable_elem ds n v Hs Hin) as (Hn & _ & _ & Hpl). apply within_write_variable; [done|]. intros q (t & ->). exists n, t. by rewrite <-app_assoc.
  - intros _. unfold write_meta. apply within_bind; [by apply within_write|]. intros _. apply within_bind; [by apply within_write|]. intros _.
    unfold consolidate. apply within_bind; [apply within_get_tree; auto|]. intros t. apply within_bind; [done|]. intros m.
    apply within_bind; [by apply within_write|]. intros _. by destruct (bool_decide _).
Qed.

Section new_partitions.
  Context (e : env) (c : collection) (Hr : regular e c) (ds : dataset) (n : nat) (merge : option merge_callable).
  Context (Hds : sound ds) (Hn : dget (d_dims ds) (c_dim c) = Some n) (Hm : merges_sound c merge).
  Local Notation keys := (p_keys (c_part c)).
  Definition only_inside (s : store) (kparts : list (list Z * (nat * nat))) (u : store) : Prop :=
    forall q, u !! q = s !! q \/ exists ks, ks ∈ kparts /\ inside (part_dir c ks.1) q.

  Lemma always_new_partition M I s inner values sl : represents c M I s -> length values = length keys -> sl.1 <= sl.2 <= n -> M values = None ->
    always CTorn (fun u => forall q, ~ inside (part_dir c values) q -> u !! q = s !! q) (insert_partition e inner c ds merge (key_dirs (c_part c) values, sl)) s.
  Proof using All.
    intros Hs Hl Hsl EM. destruct (slice_ok c ds n Hds Hn sl Hsl) as (piece & E & Hp & Hrel & _).
    unfold insert_partition. cbv zeta. cbn [fst snd]. fold (slice_of c sl). rewrite E. fold (part_dir c values). set (d := part_dir c values) in *.
    generalize (inner d) as sc. intros sc.
    apply always_bind; [by apply always_exists|]. intros x s' Ex. rewrite exec_exists in Ex. injection Ex as <- <-.
    pose proof (part_nothing e c Hr M I s values Hs Hl EM) as Hno. fold d in Hno.
    assert (empty_at (d ++ [ZMETADATA]) s = true) as ->.
    { apply nothing_empty. intros q Hq. apply Hno. by eapply under_snoc. }
    cbn [negb].
    assert (Hw := exec_write_new d piece (Some sc) s (sound_storable _ Hp) Hno).
    apply always_catch.
    - apply (always_region CTorn (fun _ => True) (inside d)). apply within_bind; [apply within_inside_init|]. intros _. apply within_inside_write. by apply sound_storable.
    - intros ex s' Ex. exfalso. change (exec (let! _ <- init_group d; write_zarr_group d piece (Some sc)) s = (Raise ex, s')) in Ex. by rewrite Hw in Ex.
  Qed.
  Lemma always_new_batch M I s sched inner kparts : represents c M I s -> fit e c n kparts -> (forall ks, ks ∈ kparts -> M ks.1 = None) ->
    always CTorn (only_inside s kparts) (execute_transaction CTorn sched (tasks e c ds merge inner kparts)) s.
  Proof using All.
    intros Hs Hf Hnew.
    assert (Hlen : length (tasks e c ds merge inner kparts) = length kparts) by (unfold tasks; by rewrite !map_length).
    eapply always_impl; [|apply (always_transaction CTorn sched _ _ _ (fun i u => match kparts !! i with
        Some ks => forall q, part_region e (part_dir c ks.1) q -> ~ inside (part_dir c ks.1) q -> u !! q = s !! q | None => True end) s
       (tasks_independent e c Hr ds n merge inner kparts Hf))].
    - intros u [H1 H2] q. destruct (decide (Exists (fun ks => part_region e (part_dir c ks.1) q) kparts)) as [X|X].
      + apply Exists_exists in X as (ks & Hin & Hq). pose proof Hin as Hin'. apply elem_of_list_lookup in Hin as [i Hi].
        specialize (H1 i ltac:(rewrite Hlen; by eapply lookup_lt_Some)). rewrite Hi in H1. 
        destruct (decide (under (part_dir c ks.1) q)) as [(f & ->)|U].
        * destruct f as [|m f]; [|right; exists ks; split; [done|by exists m, f]]. left. apply H1; [done|]. intros (m & f & E). apply app_inv_head in E. done.
        * left. apply H1; [done|]. by intros ?%inside_under.
      + left. apply H2. intros i Hi W. unfold task_region in W. destruct (kparts !! i) as [ks|] eqn:E; [|done].
        apply X, Exists_exists. exists ks. split; [by eapply elem_of_list_lookup_2|done].
    - intros i Hi u u' Ha H. destruct (kparts !! i) as [ks|] eqn:E; [|done]. intros q Hq Hno. rewrite <-(H q Hq Hno). symmetry. apply Ha. right. unfold task_region. by rewrite E.
    - intros i p Ei. apply tasks_lookup in Ei as (ks & Hi & ->). rewrite Hi. assert (Hin : ks ∈ kparts) by (by eapply elem_of_list_lookup_2).
      destruct (fit_len _ _ _ _ Hf _ Hin) as [Hl Hb]. destruct ks as [v sl]. eapply always_impl; [|eapply always_new_partition; [exact Hs|exact Hl|exact Hb|by apply (Hnew (v, sl))]].
      intros u H q _ Hno. by apply H.
  Qed.
  Lemma always_new_batches I scheds inner kbs : forall M s (g : nat -> nat), represents c M I s -> fit e c n (concat kbs) -> (forall ks, ks ∈ concat kbs -> M ks.1 = None) ->
    always CTorn (only_inside s (concat kbs)) (pseq (map (fun ib => execute_transaction CTorn (scheds ib.1) (map (insert_partition e inner c ds merge) ib.2))
      (imap (fun i b => (g i, b)) (map (map (fun ks => (key_dirs (c_part c) ks.1, ks.2))) kbs)))) s.
  Proof using All.
    induction kbs as [|b kbs IH]; intros M s g Hs Hf Hnew.
    - cbn. split; [|done]. intros q. by left.
    - cbn [concat] in Hf, Hnew |- *. destruct (fit_app e c n b (concat kbs) Hf) as (F1 & F2 & F3).
      cbn [map imap pseq fst snd]. change (map (insert_partition e inner c ds merge) (map _ b)) with (tasks e c ds merge inner b).
      assert (Hb : always CTorn (only_inside s b) (execute_transaction CTorn (scheds (g 0)) (tasks e c ds merge inner b)) s).
      { apply (always_new_batch M I); [done|done|]. intros ks Hks. apply Hnew, elem_of_app. by left. }
      assert (Hmono : forall u, only_inside s b u -> only_inside s (b ++ concat kbs) u).
      { intros u H q. destruct (H q) as [|(ks & Hks & Hq)]; [by left|]. right. exists ks. split; [apply elem_of_app; by left|done]. }
      apply always_bind.
      + eapply always_impl; [|exact Hb]. done.
      + intros us s' E. assert (Hs' : only_inside s b s').
        { pose proof (exec_steps CTorn (execute_transaction CTorn (scheds (g 0)) (tasks e c ds merge inner b)) s) as Hst. rewrite E in Hst. exact (always_sound CTorn _ _ _ _ _ Hb Hst). }
        rewrite (exec_batch e c Hr ds n merge Hds Hn Hm M I s (scheds (g 0)) inner b Hs F1) in E. injection E as _ <-.
        pose proof (IH (after c ds merge M s b) (patch c ds merge s b) (g ∘ S) (represents_patch e c Hr ds n merge Hds Hn Hm M I s b Hs F1) F2) as H.
        assert (Htrans : forall u, only_inside (patch c ds merge s b) (concat kbs) u -> only_inside s (b ++ concat kbs) u).
        { intros u Hu q. destruct (Hu q) as [->|(ks & Hks & Hq)]; [by apply Hmono|]. right. exists ks. split; [apply elem_of_app; by right|done]. }
        eapply (always_impl CTorn _ (only_inside s (b ++ concat kbs))) in H; [|exact Htrans|].
        * apply always_bind; [exact H|]. intros us' s' E. cbn. split; [|done].
          match type of E with exec ?p ?s0 = _ => pose proof (exec_steps CTorn p s0) as Hst end. rewrite E in Hst. exact (always_sound CTorn _ _ _ _ _ H Hst).
        * intros ks Hks. unfold after. assert (dget b ks.1 = None) as ->.
          { apply dget_None. intros Hin. apply elem_of_list_In, in_map_iff in Hin as (k & Ek & Hk). apply elem_of_list_In in Hk. by apply (F3 k ks Hk Hks). }
          apply Hnew, elem_of_app. by right.
  Qed.
End new_partitions.

Section insert_new.
  Context (e : env) (c : collection) (Hr : regular e c) (Hc : declared c).
  Context (ds : dataset) (rows : list (list Z)) (merge : option merge_callable) (Hi : insertable e c ds rows merge).

  (** The states of an insertion that creates all its partitions. *)
  Lemma always_insert_new M I s scheds inner np validate : represents c M I s -> is_Some I \/ c_immutable c = false -> (forall v, v ∈ rows -> M v = None) ->
    always CTorn (fun u => forall q, u !! q = s !! q \/ exists v, v ∈ rows /\ inside (part_dir c v) q) (insert e scheds inner c ds merge np validate) s.
  Proof using All.
    intros Hs HI Hnew. assert (H0 : forall q, s !! q = s !! q \/ exists v, v ∈ rows /\ inside (part_dir c v) q) by (intros; by left).
    unfold insert. destruct (c_readonly c); [by cbn|].
    destruct (prepare c ds validate) as [out|ex] eqn:Ep; [|by cbn]. cbn [pbind].
    destruct (exec_insert_immutable e c Hr Hc ds (in_sound _ _ _ _ _ Hi) (in_conforms _ _ _ _ _ Hi) M I s validate out Ep Hs)
      as (part & I' & s1 & E & Hp & Hf & Hs1 & Hout & HI').
    assert (Hidle : s1 = s).
    { destruct I; [by destruct HI'|]. destruct HI as [[? ?]|Ei]; [done|]. rewrite Ei in HI'. by destruct HI'. }
    apply always_bind.
    - eapply always_impl; [|by eapply (immutable_idle c I M s out)]. by intros u ->.
    - intros part' s1' E'. rewrite E in E'. injection E' as <- <-. subst s1.
      destruct (split_dataset (c_part c) part) as [parts|ex] eqn:Es; cbn [pbind]; [|by cbn].
      destruct (batches_of parts np) as [bs|ex] eqn:Eb; cbn [pbind]; [|by cbn].
      destruct (part_rows e c Hr Hc ds rows merge Hi part Hp Hf) as [Hrk Hn].
      destruct (split_sound _ _ _ _ (rg_keys _ _ Hr) Hrk (in_size _ _ _ _ _ Hi) Es) as (kparts & -> & Hk & Hlz).
      apply batches_concat in Eb as [Ec Hne]. apply concat_map_inv in Ec as (kbs & -> & Ec).
      assert (Hsorted : never_decreases row_lt rows).
      { destruct (in_sorted _ _ _ _ _ Hi) as [Hd|]; [|done]. apply Hlz. by rewrite (ft_delayed _ _ _ _ Hf). }
      assert (Hfit : fit e c (length rows) (concat kbs)) by (rewrite Ec; by eapply kparts_fit).
      assert (Hrows : forall ks, ks ∈ concat kbs -> ks.1 ∈ rows).
      { intros ks Hks. rewrite Ec in Hks. apply (keyed_keys _ _ Hk); [by apply (ks_files _ _ Hk)|]. by apply (elem_of_list_fmap_1 fst). }
      pose proof (always_new_batches e c Hr part (length rows) merge Hp Hn (in_merge _ _ _ _ _ Hi) I' scheds inner kbs M s (fun i => i) Hs1 Hfit) as Ha.
      unfold pfor. apply (always_pbind_end _ _ (fun _ => Ok _)). apply (always_pbind_end _ _ (fun _ => Ok tt)).
      eapply always_impl; [|apply Ha; intros ks Hks; by apply Hnew, Hrows]. intros u Hu q. destruct (Hu q) as [|(ks & Hks & Hq)]; [by left|]. right. exists ks.1. split; [by apply Hrows|done].
  Qed.
End insert_new.
