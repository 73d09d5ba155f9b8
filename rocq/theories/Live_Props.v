(** * Properties of a collection read while another process changes it *)
From Verif Require Import Py Dict NdArray_Model NdArray_Spec NdArray_Proofs Dataset_Model Dataset_Spec Dataset_Proofs Dataset_Props Dataset_Props2 Meta_Model PartPath_Model PartPath_Proofs
  Split_Model Split_Spec DaskUtils_Model DaskUtils_Proofs FS_Model FS_Proofs Pool_Model Pool_Proofs Storage_Model Storage_Chunks Storage_Spec Storage_Proofs
  Listing_Model Listing_Spec Listing_Proofs Collection_Model Collection_Spec Collection_Split Collection_Proofs Collection_State Collection_Select Collection_Load Collection_Insert Collection_Total Collection_Props
  Crash_Spec Collection_Crash Crash_Props Collection_Example Update_Model Update_Spec Storage_Change Update_State Update_Proofs Update_Example Update_Props Validate_Proofs Update_Crash Recovery_Props
  Live_Model Live_Spec Live_Proofs Live_Load.

(** ** Schedules *)
Lemma beside_steps_left {A B : Type} (p p' : program A) (q : program B) s s' : rtc (step CTorn) (p, s) (p', s') -> rtc beside ((p, q), s) ((p', q), s').
Proof.
  intros H. remember (p, s) as x eqn:Ex. remember (p', s') as y eqn:Ey. revert p s Ex. induction H as [x|x [p1 s1] y H1 H2 IH]; intros p s ->.
  - injection Ey as -> ->. constructor.
  - eapply rtc_l; [by constructor|]. by apply IH.
Qed.
Lemma beside_steps_right {A B : Type} (p : program A) (q q' : program B) s s' : rtc (step CTorn) (q, s) (q', s') -> rtc beside ((p, q), s) ((p, q'), s').
Proof.
  intros H. remember (q, s) as x eqn:Ex. remember (q', s') as y eqn:Ey. revert q s Ex. induction H as [x|x [p1 s1] y H1 H2 IH]; intros q s ->.
  - injection Ey as -> ->. constructor.
  - eapply rtc_l; [by constructor|]. by apply IH.
Qed.
Lemma may_return_stopped {A B : Type} (p : program A) (q : program B) s u : stopped_at q s u -> may_return p q s (exec p u).1 (exec p u).2.
Proof.
  intros [q' Hq]. exists q'. etrans; [by apply beside_steps_right|]. apply beside_steps_left, exec_steps.
Qed.

(** ** C90: the changes made elsewhere *)
(** Listing the directories one after the other is the same as listing them at
    once, when nothing changes. *)
Theorem C90_alone e c delayed f selected s : exec (load_live e c delayed f selected) s = exec (load e c delayed f selected) s.
Proof. apply exec_load_live. Qed.
Print Assumptions C90_alone.

Section C90.
Context (e : env) (c : collection) (M : list Z -> option dataset) (I : option dataset) (s : store).
Context (f : filter) (P : list Z -> Prop) (delayed : bool) (selected : option (list str)).
Context (Hr : regular e c) (Hs : represents c M I s) (Hf : filterable c).
Local Notation alone := (exec (load e c delayed f selected) s).

Lemma loads_elsewhere {A : Type} (q : program A) (T : list Z -> Prop) r u :
  (forall v, is_Some (M v) \/ T v -> says (c_part c) f v (P v)) -> (forall v, T v -> ~ P v /\ length v = length (p_keys (c_part c))) ->
  (forall u q', stopped_at q s u -> u !! q' = s !! q' \/ exists v n x, T v /\ q' = part_dir c v ++ n :: x) ->
  may_return (load_live e c delayed f selected) q s r u -> alone = (r, s) /\ stopped_at q s u.
Proof using All.
  intros HP HT Hst [q' H].
  assert (Hl : live (stopped_at q s) (fun r => r = (exec (load_live e c delayed f selected) s).1) (load_live e c delayed f selected)).
  { apply (live_load_elsewhere e c Hr M I s (stopped_at q s) T f P delayed selected Hs Hf); [|done|done|done]. exists q. constructor. }
  destruct (live_exec _ _ _ s Hl ltac:(exists q; constructor)) as [_ E2].
  destruct (live_beside (stopped_at q s) _ _ _ _ _ _ _ Hl ltac:(intros q'' t Ht; by exists q'') H) as [-> Hq].
  rewrite <-C90_alone. split; [|by exists q']. by destruct (exec _ s); cbn in *; subst.
Qed.

(** Loading the partitions chosen by a filter gives, whatever the schedule, what
    it gives when nothing changes, while another process inserts new partitions
    that the filter rejects; *)
Theorem C90_insert ds rows merge scheds inner npartitions validate r u :
  declared c -> insertable e c ds rows merge -> is_Some I \/ c_immutable c = false ->
  (forall v, v ∈ rows -> M v = None /\ ~ P v) -> (forall v, is_Some (M v) \/ v ∈ rows -> says (c_part c) f v (P v)) ->
  may_return (load_live e c delayed f selected) (insert e scheds inner c ds merge npartitions validate) s r u ->
  alone = (r, s) /\ stopped_at (insert e scheds inner c ds merge npartitions validate) s u.
Proof using All.
  intros Hc Hi HI Hnew HP. apply (loads_elsewhere _ (fun v => v ∈ rows)); [done| |].
  - intros v Hv. split; [by apply Hnew|]. eapply record_keys_length; [apply (in_keys _ _ _ _ _ Hi)|done].
  - intros u' q [p Hst].
    pose proof (always_sound CTorn _ _ _ _ _ (always_insert_new e c Hr Hc ds rows merge Hi M I s scheds inner npartitions validate Hs HI ltac:(intros v Hv; by apply Hnew)) Hst q) as H.
    destruct H as [|(v & Hv & n & x & ->)]; [by left|]. right. by exists v, n, x.
Qed.
(** while it removes partitions that the filter rejects; *)
Theorem C90_drop sched g older (Q : list Z -> Prop) r u :
  (forall v, is_Some (M v) -> says (c_part c) f v (P v) /\ says (c_part c) g v (Q v)) -> (forall v, is_Some (M v) -> Q v -> ~ P v) ->
  may_return (load_live e c delayed f selected) (drop_partitions e sched c g older) s r u ->
  alone = (r, s) /\ stopped_at (drop_partitions e sched c g older) s u.
Proof using All.
  intros HP HQ. assert (Hlen : forall v, is_Some (M v) -> length v = length (p_keys (c_part c))) by (intros v [d Hd]; by apply (rp_part _ _ _ _ Hs) in Hd as [? _]).
  apply (loads_elsewhere _ (fun v => is_Some (M v) /\ Q v)).
  - intros v Hv. apply HP. by destruct Hv as [|[? _]].
  - intros v [Hv Hq]. split; [by apply HQ|by apply Hlen].
  - intros u' q Hst. destruct (C50_drop_stopped e c M I s sched g older Q u' Hr Hs Hf ltac:(intros v Hv; by apply HP) Hst q) as [|(E & v & Hv & Hq & _ & x & ->)]; [by left|].
    destruct x as [|n x]; [|right; by exists v, n, x]. left. rewrite E. destruct Hv as [d Hd]. destruct (rp_part _ _ _ _ Hs _ _ Hd) as (_ & _ & Hh). destruct Hh as [Hh _].
    by rewrite sub_lookup in Hh.
Qed.
(** while it updates partitions that the filter rejects; *)
Theorem C90_update sched workers (callback : update_callback) delayed' g npartitions selected' trim variables (Q : list Z -> Prop) r u :
  (forall v, is_Some (M v) -> says (c_part c) f v (P v) /\ says (c_part c) g v (Q v)) -> (forall v, is_Some (M v) -> Q v -> ~ P v) ->
  may_return (load_live e c delayed f selected) (update e sched workers c callback delayed' 0 g npartitions selected' trim variables) s r u ->
  alone = (r, s) /\ stopped_at (update e sched workers c callback delayed' 0 g npartitions selected' trim variables) s u.
Proof using All.
  intros HP HQ. assert (Hlen : forall v, is_Some (M v) -> length v = length (p_keys (c_part c))) by (intros v [d Hd]; by apply (rp_part _ _ _ _ Hs) in Hd as [? _]).
  destruct (select_filter e c Hr M I s g Q Hs Hf ltac:(intros v Hv; by apply HP)) as (vs & _ & Hin & Esel).
  assert (Hvs : forall v, v ∈ vs -> is_Some (M v)) by (intros v Hv; by apply Hin).
  apply (loads_elsewhere _ (fun v => is_Some (M v) /\ Q v)).
  - intros v Hv. apply HP. by destruct Hv as [|[? _]].
  - intros v [Hv Hq]. split; [by apply HQ|by apply Hlen].
  - intros u' q Hst. pose proof (stopped_out e c Hr M I s Hs callback delayed' selected' vs Hvs g Esel _ _ _ _ _ s u' ltac:(done) Hst q) as H.
    destruct (decide (u' !! q = s !! q)) as [|N]; [by left|]. right.
    destruct (decide (Exists (fun v => under (part_dir c v) q) vs)) as [X|X].
    + apply Exists_exists in X as (v & Hv & [|n x] & ->).
      * exfalso. apply N, H. intros (w & m & ci & Hw & _ & E). destruct (part_dir_inj c v w [] [m; chunk_key ci] (Hlen v (Hvs v Hv)) (Hlen w (Hvs w Hw)) E) as [_ ?]. done.
      * exists v, n, x. split; [by apply Hin|done].
    + exfalso. apply N, H. intros (w & m & ci & Hw & _ & ->). apply X, Exists_exists. exists w. split; [done|apply under_app].
Qed.
(** and while it updates, in any partition, variables that are not loaded. *)
Theorem C90_variables sched workers (callback : update_callback) delayed' g npartitions selected' trim variables (Q : list Z -> Prop) r u :
  (forall v, is_Some (M v) -> says (c_part c) f v (P v) /\ says (c_part c) g v (Q v)) -> (forall n, returned callback n -> ~ wanted selected n) ->
  may_return (load_live e c delayed f selected) (update e sched workers c callback delayed' 0 g npartitions selected' trim variables) s r u ->
  alone = (r, s) /\ stopped_at (update e sched workers c callback delayed' 0 g npartitions selected' trim variables) s u.
Proof using All.
  intros HP HX [q' H].
  destruct (select_filter e c Hr M I s g Q Hs Hf ltac:(intros v Hv; by apply HP)) as (vs & _ & Hin & Esel).
  assert (Hvs : forall v, v ∈ vs -> is_Some (M v)) by (intros v Hv; by apply Hin).
  destruct (select_filter e c Hr M I s f P Hs Hf ltac:(intros v Hv; by apply HP)) as (ws & Hso & Hws & _).
  set (q := update e sched workers c callback delayed' 0 g npartitions selected' trim variables) in *.
  assert (Hout : forall u, stopped_at q s u -> agree_out (chunk_files c (returned callback) vs) s u).
  { intros u' Hst. exact (stopped_out e c Hr M I s Hs callback delayed' selected' vs Hvs g Esel _ _ _ _ _ s u' ltac:(done) Hst). }
  assert (Hhere : forall u v, stopped_at q s u -> Collection_Select.present c u v <-> is_Some (M v)).
  { intros u' v Hu. destruct (laid_blind e c Hr M I s Hs (returned callback) vs Hvs u' (Hout u' Hu)) as [_ ->]. by apply (represents_directory e c Hr M I s v Hs). }
  assert (Hl : live (stopped_at q s) (fun r => r = (exec (load_live e c delayed f selected) s).1) (load_live e c delayed f selected)).
  { apply (live_load_same e c Hr (stopped_at q s) f P ws s delayed selected Hf Hso).
    - exists q. constructor.
    - intros u' Hu x y E. destruct (decide (u' !! (c_dir c ++ x) = s !! (c_dir c ++ x))) as [Es|N]; [rewrite Es in E; by eapply (represents_tidy e c Hr M I s Hs)|].
      right. destruct (decide (Exists (fun v => under (part_dir c v) (c_dir c ++ x)) vs)) as [X|X].
      + apply Exists_exists in X as (v & Hv & t & Et). pose proof (Hvs v Hv) as [d Hd]. destruct (rp_part _ _ _ _ Hs _ _ Hd) as (Hlv & _ & Hh).
        unfold part_dir in Et. rewrite <-app_assoc in Et. apply app_inv_head in Et. destruct t as [|n t]; [|by exists v, n, t].
        exfalso. apply N, (Hout u' Hu). intros (w & m & ci & Hw & _ & E'). rewrite Et, app_nil_r in E'.
        assert (Hlw : length w = length (p_keys (c_part c))) by (pose proof (Hvs w Hw) as [d' Hd']; by apply (rp_part _ _ _ _ Hs) in Hd' as [? _]).
        destruct (part_dir_inj c v w [] [m; chunk_key ci] Hlv Hlw) as [_ ?]; [by rewrite app_nil_r|done].
      + exfalso. apply N, (Hout u' Hu). intros (w & m & ci & Hw & _ & E'). apply X, Exists_exists. exists w. split; [done|]. rewrite E'. apply under_app.
    - intros u' v Hu Hv. apply HP. by apply (Hhere u' v Hu).
    - intros u' v Hu Hv HPv. apply Hws. split; [by apply (Hhere u' v Hu)|done].
    - intros u' v Hu Hv. apply Hws in Hv as [Hv HPv]. split; [by apply (Hhere u' v Hu)|done].
    - intros u' v Hu Hv. apply Hws in Hv as [[d Hd] _]. destruct (rp_part _ _ _ _ Hs _ _ Hd) as (Hlv & _).
      pose proof (open_blind c M I s Hs (returned callback) selected HX vs Hvs u' v delayed (Hout u' Hu) Hlv) as E. unfold open_zarr_group in E.
      rewrite !exec_bind, !exec_get_tree in E. exact E.
    - intros u' Hu x (t & ->). rewrite <-!sub_lookup. by rewrite (immutable_blind e c Hr M I s Hs (returned callback) vs Hvs u' (Hout u' Hu)). }
  destruct (live_exec _ _ _ s Hl ltac:(exists q; constructor)) as [_ E2].
  destruct (live_beside (stopped_at q s) _ _ _ _ _ _ _ Hl ltac:(intros q'' t Ht; by exists q'') H) as [-> Hq].
  rewrite <-C90_alone. split; [|by exists q']. by destruct (exec _ s); cbn in *; subst.
Qed.
End C90.
Print Assumptions C90_insert.
Print Assumptions C90_drop.
Print Assumptions C90_update.
Print Assumptions C90_variables.

(** ** C91: the changes made to what is read *)
Lemma pseq_unreadable (c : collection) delayed selected (u : store) vs v : v ∈ vs -> unreadable u (part_dir c v) ->
  exists ex, exec (pseq (map (fun q => open_zarr_group q delayed selected) (map (part_dir c) vs))) u = (Raise ex, u).
Proof.
  intros Hv Hu. induction Hv as [vs|v w vs Hv IH]; cbn [map pseq]; rewrite exec_bind.
  - destruct (Hu delayed selected) as [ex ->]. by exists ex.
  - assert (exists r, exec (open_zarr_group (part_dir c w) delayed selected) u = (r, u)) as [[o|ex] ->]; [|rewrite exec_bind; destruct (IH Hu) as [ex ->]; by exists ex|by exists ex].
    unfold open_zarr_group. rewrite exec_bind, exec_get_tree. cbn [exec]. by eexists.
Qed.
(** The claim "loading while another process inserts shows the partitions as they
    were, or as they will be" is false of the code. A reader that looks while a
    partition is replaced cannot load anything, whatever its filter. *)
Theorem C91_replaced_refuted e c ds v rest inner validate M I s dirs s' f delayed selected :
  regular e c -> declared c -> insertable e c ds (v :: rest) None -> represents c M I s -> is_Some (M v) ->
  is_Some I \/ c_immutable c = false -> p_len (c_part c) = 1 ->
  exec (insert e (fun _ => []) inner c ds None None validate) s = (Ok dirs, s') ->
  exists ex u, may_return (load_live e c delayed f selected) (insert e (fun _ => []) inner c ds None None validate) s (Raise ex) u.
Proof.
  intros Hr Hc Hi Hs HM HI Hl Hx.
  destruct (C23_gone_refuted e c ds v rest inner validate M I s dirs s' Hr Hc Hi Hs HM HI Hl Hx) as (u & Hu & _ & _ & H).
  destruct (H f delayed selected) as [ex E]. exists ex, u. pose proof (may_return_stopped (load_live e c delayed f selected) _ s u Hu) as Hm.
  rewrite C90_alone, E in Hm. exact Hm.
Qed.
Print Assumptions C91_replaced_refuted.
(** A reader whose filter selects a new partition cannot load anything while the
    partition is written. *)
Theorem C91_new_refuted e c ds v rest merge inner validate M I s dirs s' f P delayed selected :
  regular e c -> declared c -> insertable e c ds (v :: rest) merge -> represents c M I s -> M v = None ->
  is_Some I \/ c_immutable c = false -> filterable c -> (forall w, is_Some (M w) \/ w = v -> says (c_part c) f w (P w)) -> P v ->
  exec (insert e (fun _ => []) inner c ds merge None validate) s = (Ok dirs, s') ->
  exists ex u, may_return (load_live e c delayed f selected) (insert e (fun _ => []) inner c ds merge None validate) s (Raise ex) u.
Proof.
  intros Hr Hc Hi Hs HM HI Hf HP HPv Hx.
  assert (Hl : length v = length (p_keys (c_part c))) by (eapply record_keys_length; [apply (in_keys _ _ _ _ _ Hi)|left]).
  destruct (first_partition e c ds v rest merge inner validate M I s dirs s' Hr Hc Hi Hs HI Hx) as (part & sl & _ & _ & _ & _ & _ & Hst).
  destruct (Hst s ltac:(intros q _; reflexivity)) as [Hst' _]. clear Hst Hx.
  pose proof (part_nothing e c Hr M I s v Hs Hl HM) as Hno.
  set (d := part_dir c v) in *. set (u := <[d ++ [ZGROUP] := CMeta MGroup]> s : store).
  assert (Hu : stopped_at (insert e (fun _ => []) inner c ds merge None validate) s u).
  { apply Hst'. unfold insert_partition. cbv zeta. cbn [fst snd]. change (c_dir c ++ key_dirs (c_part c) v) with d.
    eapply stopped_then; [apply exec_exists|].
    assert (empty_at (d ++ [ZMETADATA]) s = true) as -> by (apply empty_at_true; intros q Hq; apply Hno; by eapply under_snoc). cbn [negb].
    apply stopped_catch. eapply stopped_then; [by apply exec_init_group|].
    by exists (let! piece <- Ret (ds_isel part [(c_dim c, ISlice (Some (Z.of_nat sl.1)) (Some (Z.of_nat sl.2)))]); write_zarr_group d piece (Some (inner d))). }
  assert (Hun : unreadable u d).
  { apply unreadable_cons. left. unfold u. rewrite lookup_insert_ne by (intros E; by apply app_inv_head in E). apply Hno, under_app. }
  assert (Hpre : forall w, Collection_Select.present c u w <-> is_Some (M w) \/ w = v).
  { intros w. split.
    - intros [Hlw (a & x & y & E)]. destruct (decide (w = v)) as [|N]; [by right|left]. apply (represents_directory e c Hr M I s w Hs). split; [done|].
      exists a, x, y. unfold u in E. rewrite lookup_insert_ne in E; [done|]. intros E'. destruct (part_dir_inj c v w [ZGROUP] (a :: x) Hl Hlw E') as [-> _]. done.
    - intros [H| ->].
      + apply (represents_directory e c Hr M I s w Hs) in H as [Hlw (a & x & y & E)]. split; [done|].
        destruct (decide (d ++ [ZGROUP] = part_dir c w ++ a :: x)) as [E'|N].
        * exists a, x, (CMeta MGroup). unfold u. rewrite E'. apply lookup_insert.
        * exists a, x, y. unfold u. by rewrite lookup_insert_ne.
      + split; [done|]. exists ZGROUP, [], (CMeta MGroup). apply lookup_insert. }
  assert (Hlay : laid_out (c_part c) (c_dir c) u).
  { intros q x E. destruct (decide (c_dir c ++ q = d ++ [ZGROUP])) as [Eq|N].
    - right. right. exists v, ZGROUP, []. split; [done|]. unfold d, part_dir in Eq. rewrite <-app_assoc in Eq. by apply app_inv_head in Eq.
    - unfold u in E. rewrite lookup_insert_ne in E by done. destruct (represents_tidy e c Hr M I s Hs q x E) as [H|(w & n & t & Hw & ->)]; [right; left|right; right; by exists w, n, t].
      exact H. }
  destruct (select_filter_laid e c Hr u f P Hlay Hf ltac:(intros w Hw; apply HP; by apply Hpre)) as (vss & _ & Hin & Esel).
  assert (Hv : v ∈ vss) by (apply Hin; split; [apply Hpre; by right|done]).
  destruct (pseq_unreadable c delayed selected u vss v Hv Hun) as [ex Eo].
  exists ex, u. pose proof (may_return_stopped (load_live e c delayed f selected) _ s u Hu) as Hm. rewrite C90_alone in Hm.
  assert (exec (load e c delayed f selected) u = (Raise ex, u)) as E; [|by rewrite E in Hm].
  unfold load. rewrite exec_bind, Esel. destruct vss as [|w vss]; [by apply elem_of_nil in Hv|]. cbn [map] in *. rewrite exec_bind, Eo. done.
Qed.
Print Assumptions C91_new_refuted.
(** A reader that has listed the partitions raises when one of them is removed
    before it is read. *)
Theorem C91_drop_refuted e c M I s f (P : list Z -> Prop) sched g (Q : list Z -> Prop) delayed selected v :
  regular e c -> c_readonly c = false -> represents c M I s -> filterable c ->
  (forall w, is_Some (M w) -> says (c_part c) f w (P w) /\ says (c_part c) g w (Q w)) -> is_Some (M v) -> P v -> Q v ->
  exists ex u, may_return (load_live e c delayed f selected) (drop_partitions e sched c g None) s (Raise ex) u.
Proof.
  intros Hr Hw Hs Hf HP HM HPv HQv.
  destruct (C28_drop e c M I s sched g None Q Hr Hw Hs Hf ltac:(intros w Hv; by apply HP)) as (vs & s' & Ed & _ & Hin & Hgone & _).
  destruct (select_filter e c Hr M I s f P Hs Hf ltac:(intros w Hv; by apply HP)) as (ws & _ & Hws & Esel).
  assert (Hv : v ∈ ws) by (by apply Hws).
  assert (Hun : unreadable s' (part_dir c v)) by (apply unreadable_cons; left; apply (Hgone v); [by apply Hin|apply under_app]).
  destruct (pseq_unreadable c delayed selected s' ws v Hv Hun) as [ex Eo]. exists ex, s'.
  destruct ws as [|w ws]; [by apply elem_of_nil in Hv|].
  set (opening := let! arrays <- pseq (map (fun q => open_zarr_group q delayed selected) (map (part_dir c) (w :: ws)));
                  let! i <- load_immutable c delayed selected; let! ds <- Ret (assemble c arrays i); pret (Some ds) : program (option dataset)).
  assert (H1 : rtc (step CTorn) (load_live e c delayed f selected, s) (opening, s)).
  { pose proof (exec_steps CTorn (live_select e c f) s) as Hl. rewrite exec_live_select, Esel in Hl. cbn [fst snd] in Hl.
    unfold load_live. etrans; [exact (steps_bind _ _ _ _ _ Hl)|]. cbn [pbind map]. exact (steps_bind _ _ _ _ _ Hl). }
  assert (H2 : rtc (step CTorn) (opening, s') (Ret (Raise ex), s')).
  { pose proof (exec_steps CTorn opening s') as Hl. unfold opening in Hl at 2 3. rewrite exec_bind, Eo in Hl. exact Hl. }
  exists (Ret (exec (drop_partitions e sched c g None) s).1).
  etrans; [apply beside_steps_left, H1|]. etrans; [apply beside_steps_right, exec_steps|]. rewrite Ed. apply beside_steps_left, H2.
Qed.
Print Assumptions C91_drop_refuted.

(** ** Cases *)
(** A third half orbit, inserted beside the two others. *)
Definition L_vars : list variable :=
  [X_var (lit "time") (lit "int64") [lit "time"] [3] [40; 50; 60]%Z;
   X_var (lit "pass") (lit "int64") [lit "time"] [3] [3; 3; 3]%Z;
   X_var (lit "height") (lit "float64") [lit "time"; lit "x"] [3; 2] [1; 2; 3; 4; 5; 6]%Z;
   X_var (lit "bias") (lit "float64") [lit "x"] [2] [3; 4]%Z].
Definition L_ds : dataset :=
  Dataset [(lit "time", 3); (lit "x", 2)] (map (fun v => (v_name v, v)) L_vars) [(lit "title", lit "t")] [(lit "time", 2)] 64%Z true.
Definition L_rows : list (list Z) := [[3]; [3]; [3]]%Z.
Lemma L_var_in n v : dget (d_vars L_ds) n = Some v -> v ∈ L_vars /\ v_name v = n.
Proof.
  intros H. apply dget_elem in H. unfold L_ds, d_vars in H. apply elem_of_list_In, in_map_iff in H as (w & [= <- <-] & Hw). split; [by apply elem_of_list_In|done].
Qed.
Lemma L_sound : sound L_ds.
Proof.
  split; [split|].
  - split.
    + apply (bool_decide_unpack _). vm_compute. done.
    + apply (bool_decide_unpack _). vm_compute. done.
    + done.
    + intros v Hv. change (v ∈ L_vars) in Hv. by cases_var Hv.
    + intros n v Hv. apply L_var_in in Hv as [Hv <-]. split_and!; [done|by cases_var Hv|].
      intros k d Hk. cases_var Hv; destruct k as [|[|k]]; cbn in Hk; try done; injection Hk as <-; eexists; split; vm_compute; reflexivity.
  - intros v Hv. change (v ∈ L_vars) in Hv. by cases_var Hv.
  - intros n Hn. apply dget_is_Some in Hn as [v Hv]. apply L_var_in in Hv as [Hv <-]. unfold plain_name.
    cases_var Hv; apply (bool_decide_unpack _); vm_compute; done.
  - intros v Hv. change (v ∈ L_vars) in Hv. cases_var Hv; apply (bool_decide_unpack _); vm_compute; done.
Qed.
Lemma L_insertable : insertable X_env X_coll L_ds L_rows None.
Proof.
  split; [apply L_sound| | |done|by left|done|].
  - intros n v Hv. apply L_var_in in Hv as [Hv <-]. cases_var Hv; eexists; split; vm_compute; reflexivity.
  - exists [[3; 3; 3]%Z]. split.
    + intros i r Hr. destruct i as [|[|[|i]]]; cbn in Hr; try done; injection Hr as <-; by repeat constructor.
    + constructor; [|constructor]. split; [done|]. eexists. split; vm_compute; reflexivity.
  - intros v v' Hv Hv'. unfold L_rows in *. repeat (apply elem_of_cons in Hv as [->|Hv]); try (by apply elem_of_nil in Hv);
      repeat (apply elem_of_cons in Hv' as [->|Hv']); try (by apply elem_of_nil in Hv'); done.
Qed.
(** The filter "pass == 1". *)
Definition L_filter : filter := FExpr (ECmp Eq (EName (lit "pass")) (EInt 1)).
Lemma L_says a : says X_part L_filter [a] (a = 1%Z).
Proof. change (a = 1%Z) with (compares Eq a 1). by apply m_cmp; constructor. Qed.
(** The second half orbit is loaded while the third one is inserted, or while the
    first one is removed; the dates are loaded while the heights of the second one
    are changed. *)
Example C90_case : exists M I s, represents X_coll M I s /\ is_Some (M [1%Z]) /\ is_Some (M [2%Z]) /\
  (forall r u, may_return (load_live X_env X_coll true X_filter None) (insert X_env X_scheds X_inner X_coll L_ds None None true) s r u ->
     exec (load X_env X_coll true X_filter None) s = (r, s)) /\
  (forall r u, may_return (load_live X_env X_coll true X_filter None) (drop_partitions X_env [(0, true)] X_coll L_filter None) s r u ->
     exec (load X_env X_coll true X_filter None) s = (r, s)) /\
  (forall r u, may_return (load_live X_env X_coll false NoFilter (Some [lit "time"])) (update X_env [] 7 X_coll X_zero true 0 X_filter None None false [lit "height"]) s r u ->
     exec (load X_env X_coll false NoFilter (Some [lit "time"])) s = (r, s)).
Proof.
  destruct X_filled as (M & i & s & Hs & Hu & HM). pose proof HM as (p1 & p2 & H1 & H2 & H3 & _).
  assert (Hone : forall v, is_Some (M v) -> exists a, v = [a]).
  { intros v [d Hd]. destruct (decide (v = [1%Z])) as [->|N1]; [by eexists|]. destruct (decide (v = [2%Z])) as [->|N2]; [by eexists|]. by rewrite H3 in Hd. }
  assert (HL : forall v, v ∈ L_rows -> v = [3%Z]).
  { intros v Hv. unfold L_rows in Hv. repeat (apply elem_of_cons in Hv as [->|Hv]); try done. by apply elem_of_nil in Hv. }
  destruct (X_chosen M HM) as [HP _].
  exists M, (Some i), s. split; [exact Hs|]. split; [by eexists|]. split; [by eexists|]. split; [|split]; intros r u Hm.
  - destruct (C90_insert X_env X_coll M (Some i) s X_filter (fun v => hd 0%Z v = 2%Z) true None X_regular Hs X_filterable L_ds L_rows None X_scheds X_inner None true r u X_declared L_insertable) as [E _];
      [by left; eexists| | |exact Hm|exact E].
    + intros v ->%HL. split; [by apply H3|]. cbn. lia.
    + intros v [Hv| ->%HL]; [by apply HP|exact (X_says 3)].
  - destruct (C90_drop X_env X_coll M (Some i) s X_filter (fun v => hd 0%Z v = 2%Z) true None X_regular Hs X_filterable [(0, true)] L_filter None (fun v => hd 0%Z v = 1%Z) r u) as [E _];
      [| |exact Hm|exact E].
    + intros v Hv. split; [by apply HP|]. destruct (Hone v Hv) as [a ->]. exact (L_says a).
    + intros v _ E1 E2. rewrite E1 in E2. discriminate.
  - destruct (C90_variables X_env X_coll M (Some i) s NoFilter (fun _ => True) false (Some [lit "time"]) X_regular Hs X_filterable [] 7 X_zero true X_filter None None false [lit "height"]
      (fun v => hd 0%Z v = 2%Z) r u) as [E _]; [| |exact Hm|exact E].
    + intros v Hv. split; [done|by apply HP].
    + intros n ->%X_zero_returned Hw. by apply elem_of_list_singleton in Hw.
Qed.
(** The first half orbit is replaced, or both are removed, while the collection is
    loaded. *)
Example C91_case : exists s, (exists ex u, may_return (load_live X_env X_coll true X_filter None) X_insert s (Raise ex) u) /\
  exists ex u, may_return (load_live X_env X_coll true X_filter None) (drop_partitions X_env [] X_coll NoFilter None) s (Raise ex) u.
Proof.
  destruct X_filled as (M & i & s & Hs & Hu & HM). pose proof HM as (p1 & p2 & H1 & H2 & H3 & _). destruct (X_again _ _ _ Hs) as (dirs & s' & _ & _ & E & _).
  destruct (X_chosen M HM) as [HP _]. exists s. split.
  - apply (C91_replaced_refuted X_env X_coll X_ds [1%Z] [[1%Z]; [2%Z]] X_inner true M (Some i) s dirs s' X_filter true None X_regular X_declared X_insertable Hs);
      [by eexists|by left; eexists|reflexivity|exact E].
  - apply (C91_drop_refuted X_env X_coll M (Some i) s X_filter (fun v => hd 0%Z v = 2%Z) [] NoFilter (fun _ => True) true None [2%Z] X_regular eq_refl Hs X_filterable);
      [intros w Hw; split; [by apply HP|done]|by eexists|reflexivity|done].
Qed.
