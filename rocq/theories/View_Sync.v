(** * Views: regions of the operations, and their effect on the partitions *)
From Verif Require Import Py Dict NdArray_Model NdArray_Spec NdArray_Proofs Dataset_Model Dataset_Spec Dataset_Proofs Meta_Model PartPath_Model PartPath_Proofs PartPath_Props
  Split_Spec FS_Model FS_Proofs Pool_Model Pool_Proofs Storage_Model Storage_Spec Storage_Chunks Storage_Proofs Storage_Change
  Listing_Model Listing_Spec Listing_Proofs Collection_Model Collection_Spec Collection_Proofs Collection_State Collection_Select Update_Model
  Index_Model View_Model View_Spec View_State View_Proofs.

(** ** Regions *)
Lemma under_more (d q r : path) : under (d ++ q) r -> under d r.
Proof. apply under_snoc. Qed.
Lemma within_array_attrs (R W : path -> Prop) d : (forall q, under d q -> R q \/ W q) -> within R W (array_attrs d).
Proof.
  intros H. apply within_bind; [apply within_read_file; intros q Hq; apply H; by eapply under_more|]. intros [[z| | | | | |]|]; try done. by destruct z.
Qed.
Lemma within_open_array (R W : path -> Prop) d : (forall q, under d q -> R q \/ W q) -> within R W (open_array d).
Proof.
  intros H. apply within_bind; [apply within_read_file; intros q Hq; apply H; by eapply under_more|]. intros [[z| | | | | |]|]; try done. by destruct z.
Qed.
Lemma within_write_checksum_array v (R W : path -> Prop) d ax : (forall q, under d q -> W q) -> within R W (write_checksum_array v d ax).
Proof.
  intros H. unfold write_checksum_array. cbv zeta. assert (H' : forall q, under (d ++ [CHECKSUM]) q -> W q) by (intros q Hq; apply H; by eapply under_more).
  apply within_bind; [apply within_exists; auto|]. intros b. apply within_bind.
  - destruct b; [apply within_open_array; auto|]. apply within_bind; [apply within_write, H', under_app|]. intros _. apply within_bind; [apply within_write, H', under_app|done].
  - intros z. apply within_bind.
    + unfold set_array. case_bool_decide; [|done]. by apply within_write_chunks.
    + intros _. apply within_bind; [apply within_array_attrs; auto|]. intros at_. apply within_write, H', under_app.
Qed.
Lemma within_ret {A} (R W : path -> Prop) (r : res A) : within R W (Ret r : program A).
Proof. done. Qed.
Lemma within_view_group w (R W : path -> Prop) q : (forall x, under (c_dir (w_ref w) ++ q) x -> R x \/ W x) -> within R W (open_group w q).
Proof. intros H. apply within_bind; [by apply within_get_tree|]. intros t. apply within_bind; [done|]. by intros. Qed.
Lemma within_create w (R W : path -> Prop) tn mv a : (forall q, under (w_dir w ++ a.1) q -> W q) -> within R W (create_zarr_array w tn mv a).
Proof.
  intros H. unfold create_zarr_array. apply within_bind; [done|]. intros z. cbv zeta.
  apply within_bind; [apply within_rmtree; intros q Hq; apply H; by eapply under_more|]. intros _.
  apply within_bind; [apply within_write, H, under_app|]. intros _. apply within_write, H, under_app.
Qed.
Lemma within_sync_partition v w (R W : path -> Prop) q : (forall x, under (c_dir (w_ref w) ++ q) x -> R x \/ W x) -> (forall x, under (w_dir w ++ q) x -> W x) ->
  within R W (sync_partition v w q).
Proof.
  intros Hc Hd. apply within_bind; [by apply within_view_group|]. intros g. apply within_catch.
  - apply within_bind.
    + apply within_pfor. intros mv _. apply within_bind; [done|]. intros tm. by apply within_create.
    + intros _. apply within_bind; [done|]. intros ax. by apply within_write_checksum_array.
  - intros ex. apply within_bind; [by apply within_rm|]. by intros.
Qed.
Lemma within_extend_array (R W : path -> Prop) dim n d : (forall q, under d q -> W q) -> within R W (extend_array dim n d).
Proof.
  intros H. apply within_bind; [apply within_open_array; auto|]. intros z. apply within_bind; [apply within_array_attrs; auto|]. intros at_.
  destruct (at_.2) as [dims|]; [|done]. destruct (index_of dim dims) as [k|]; [|done]. destruct (k <? _); [|done]. apply within_write, H, under_app.
Qed.
Lemma within_extend v (R W : path -> Prop) d ax : (forall q, under d q -> W q) -> within R W (extend_partition v d ax).
Proof.
  intros H. unfold extend_partition. destruct (a_shape (ar_array ax)) as [|n sh]; [done|]. apply within_catch.
  - apply within_bind; [apply within_get_tree; auto|]. intros t. apply within_bind.
    + apply within_pfor. intros name _. apply within_extend_array. intros q Hq. apply H. by eapply under_more.
    + intros _. by apply within_write_checksum_array.
  - intros ex. apply within_bind; [by apply within_rm|]. by intros.
Qed.
Lemma within_sync_one v w (R W : path -> Prop) dry q : (forall x, under (c_dir (w_ref w) ++ q) x -> R x \/ W x) -> (forall x, under (w_dir w ++ q) x -> W x) ->
  within R W (sync_one v w dry q).
Proof.
  intros Hc Hd. unfold sync_one. cbv zeta. assert (Hd' : forall n x, under ((w_dir w ++ q) ++ n) x -> W x) by (intros n x Hx; apply Hd; by eapply under_more).
  apply within_bind; [apply within_exists; auto|]. intros b. destruct (negb b).
  - apply within_bind; [|by intros]. destruct dry; [done|]. by apply within_sync_partition.
  - apply within_bind; [apply within_open_array; eauto|]. intros z. apply within_bind; [by apply within_view_group|]. intros g.
    apply within_bind; [done|]. intros ax. apply within_bind; [apply within_array_attrs; eauto|]. intros at_. destruct (dget at_.1 CHECKSUM_ATTR) as [dg|]; [|done].
    case_bool_decide; [done|]. apply within_bind; [apply within_get_tree; eauto|]. intros t. apply within_bind; [done|]. intros old. apply within_bind; [|by intros].
    destruct dry; [done|]. destruct (is_extended _ _); [by apply within_extend|]. apply within_bind; [by apply within_rm|]. intros _. by apply within_sync_partition.
Qed.
Lemma within_write_checksum v w (R W : path -> Prop) q : (forall x, under (c_dir (w_ref w) ++ q) x -> R x \/ W x) -> (forall x, under (w_dir w ++ q) x -> W x) ->
  within R W (write_checksum v w q).
Proof.
  intros Hc Hd. apply within_bind; [by apply within_view_group|]. intros g. apply within_bind; [done|]. intros ax. by apply within_write_checksum_array.
Qed.

(** ** Operations on a whole view: they only write in its directory *)
Section region.
  Context (v : venv) (w : view).
  Local Notation R := (fun _ : path => True).
  Local Notation W := (under (w_dir w)).
  Local Hint Extern 1 (_ \/ _) => left : core.
  Lemma within_ref_parts f W' : within R W' (ref_parts v w f).
  Proof. apply within_bind; [|by intros]. apply within_bind; [apply within_get_tree; auto|]. by intros. Qed.
  Lemma within_pfilter {A} (f : A -> program bool) l R' W' : (forall x, within R' W' (f x)) -> within R' W' (pfilter f l).
  Proof.
    intros H. apply within_bind; [|by intros]. apply within_pseq. intros p Hp. apply elem_of_list_In, in_map_iff in Hp as (x & <- & _). apply H.
  Qed.
  Lemma within_view_parts f W' : within R W' (view_parts v w f).
  Proof. apply within_bind; [apply within_ref_parts|]. intros l. apply within_pfilter. intros q. apply within_exists; auto. Qed.
  Lemma within_vconfig : within R W (write_vconfig v w).
  Proof. apply within_write, under_app. Qed.
  Lemma within_init sched f : within R W (init_partitions v sched w f).
  Proof.
    apply within_bind; [apply within_ref_parts|]. intros l. apply within_bind.
    - apply within_pfilter. intros q. apply within_bind; [apply within_exists; auto|]. by intros.
    - intros missing. apply within_bind; [|by intros]. apply within_transaction. intros p Hp. apply elem_of_list_In, in_map_iff in Hp as (q & <- & _).
      apply within_write_checksum; [auto|]. intros x Hx. by eapply under_more.
  Qed.
  Lemma within_sync_all sched dry parts : within R W (execute_transaction CTorn sched (map (sync_one v w dry) parts)).
  Proof.
    apply within_transaction. intros p Hp. apply elem_of_list_In, in_map_iff in Hp as (q & <- & _).
    apply within_sync_one; [auto|]. intros x Hx. by eapply under_more.
  Qed.
  Lemma within_is_synced sched : within R W (is_synced v sched w).
  Proof.
    apply within_bind; [apply within_ref_parts|]. intros [|q l]; [done|]. apply within_bind; [apply (within_sync_all sched true (q :: l))|]. by intros.
  Qed.
  Lemma within_drop_array name ign q : within R W (drop_array w name ign q).
  Proof.
    unfold drop_array. assert (within R W (rm (w_dir w ++ q ++ [name]) : program unit)) by (apply within_rm; intros x Hx; by eapply under_more).
    destruct ign; [|done]. apply within_catch; [done|]. by intros.
  Qed.
  Lemma within_drop_arrays sched name ign parts : within R W (execute_transaction CTorn sched (map (drop_array w name ign) parts)).
  Proof. apply within_transaction. intros p Hp. apply elem_of_list_In, in_map_iff in Hp as (q & <- & _). apply within_drop_array. Qed.
  Lemma within_iterate W' : within R W' (iterate_on_records v w).
  Proof.
    apply within_bind; [apply within_ref_parts|]. intros l. apply within_pseq. intros p Hp. apply elem_of_list_In, in_map_iff in Hp as (q & <- & _).
    apply within_bind; [apply within_view_group; auto|]. by intros.
  Qed.
  Lemma within_open_view_array delayed q name W' : within R W' (open_view_array w delayed q name).
  Proof. apply within_bind; [apply within_get_tree; auto|]. by intros. Qed.
  Lemma within_load_part delayed sel a W' : within R W' (load_part w delayed sel a).
  Proof.
    unfold load_part, load_one. cbv zeta. apply within_bind; [apply within_open_group; auto|]. intros ds.
    apply within_bind.
    - apply within_pseq. intros p Hp. apply elem_of_list_In, in_map_iff in Hp as (n & <- & _). apply within_open_view_array.
    - intros vs. destruct (d_dims ds); [apply within_bind; [done|by intros]|]. apply within_bind; [done|]. intros ds'. destruct (a.2); [done|].
      apply within_bind; [done|]. intros lst. apply within_bind; [done|]. by intros.
  Qed.
  Lemma within_view_keys f W' : within R W' (view_keys v w f).
  Proof. apply within_bind; [apply within_view_parts|]. by intros. Qed.
  Lemma within_load_list delayed f sel W' : within R W' (load_list v w delayed f sel).
  Proof.
    apply within_bind; [apply within_view_keys|]. intros keys. apply within_bind; [|by intros]. apply within_pseq. intros p Hp.
    apply elem_of_list_In, in_map_iff in Hp as (k & <- & _). apply within_load_part.
  Qed.
  Lemma within_view_load delayed f ix sel W' : within R W' (view_load v w delayed f ix sel).
  Proof.
    apply within_bind; [done|]. intros _. apply within_bind.
    - destruct ix; (apply within_bind; [|by intros]); [apply within_view_parts|apply within_view_keys].
    - intros args. apply within_bind.
      + apply within_pseq. intros p Hp. apply elem_of_list_In, in_map_iff in Hp as (k & <- & _). apply within_load_part.
      + intros l. destruct (map fst l) as [|ds others]; [done|]. apply within_bind; [done|]. intros d1. apply within_bind; [done|]. by intros.
  Qed.
  Lemma within_view_map {B} (f : callback B) delayed filt sel W' : within R W' (view_map v w f delayed filt sel).
  Proof. apply within_bind; [done|]. intros _. apply within_bind; [apply within_load_list|]. by intros. Qed.
  Lemma within_view_map_overlap {B} (f : callback B) delayed depth filt sel W' : within R W' (view_map_overlap v w f delayed depth filt sel).
  Proof.
    unfold view_map_overlap. destruct (depth <? 0)%Z; [done|]. apply within_bind; [done|]. intros _. apply within_bind; [apply within_load_list|]. by intros.
  Qed.
  Lemma within_evaluate (reload : program dataset) delayed ds r W' : within R W' reload -> within R W' (evaluate reload delayed ds r).
  Proof. intros H. destruct r as [d|g]; [done|]. cbn [evaluate snd]. destruct delayed; cbn; [apply within_bind; [done|by intros]|done]. Qed.
  Lemma within_view_update sched workers f delayed depth filt np sel trim : within R W (view_update v sched workers w f delayed depth filt np sel trim).
  Proof.
    unfold view_update. apply within_bind; [done|]. intros _. apply within_bind; [apply within_load_list|]. intros [|x l]; [done|].
    apply within_bind; [done|]. intros names. apply within_bind; [done|]. intros _. cbv zeta.
    assert (Hone : forall (one : list (str * Z) * (dataset * path) -> program unit),
      one = view_update_one w delayed sel f \/ one = view_update_overlap w delayed depth sel trim f (x :: l) -> forall y, within R W (one y)).
    { intros one [->| ->] y.
      - unfold view_update_one. cbv zeta. apply within_bind.
        + unfold current. destruct delayed; [|done]. apply within_bind; [apply within_load_part|by intros].
        + intros ds. apply within_bind; [done|]. intros r. apply within_pfor. intros nr _. apply within_update_array.
          * intros q Hq. by eapply under_more.
          * apply within_evaluate. apply within_bind; [apply within_load_part|by intros].
      - unfold view_update_overlap. cbv zeta.
        assert (Hre : within R W (let! l0 <- pseq (map (fun y0 => load_part w delayed sel (y0.1, [])) (x :: l)); Ret (select_overlap w depth l0 y.2.2))).
        { apply within_bind; [|by intros]. apply within_pseq. intros p Hp. apply elem_of_list_In, in_map_iff in Hp as (k & <- & _). apply within_load_part. }
        apply within_bind; [destruct delayed; [exact Hre|done]|]. intros [ds ix]. apply within_bind; [done|]. intros r. apply within_pfor. intros nr _.
        assert (He : within R W (evaluate (let! di <- (let! l0 <- pseq (map (fun y0 => load_part w delayed sel (y0.1, [])) (x :: l)); Ret (select_overlap w depth l0 y.2.2)); pret di.1) delayed ds nr.2)).
        { apply within_evaluate. apply within_bind; [exact Hre|by intros]. }
        destruct trim.
        + apply within_bind; [done|]. intros a. apply within_bind; [done|]. intros key. apply within_update_array; [intros q Hq; by eapply under_more|].
          apply within_bind; [exact He|by intros].
        + apply within_update_array; [intros q Hq; by eapply under_more|exact He]. }
    set (choice := if (depth =? 0)%Z then _ else _).
    assert (Hch : forall one, choice = Ok one -> one = view_update_one w delayed sel f \/ one = view_update_overlap w delayed depth sel trim f (x :: l)).
    { intros one. unfold choice. destruct (depth =? 0)%Z; [intros [= <-]; by left|]. destruct (match sel with None => _ | _ => _ end); [done|].
      destruct (depth <? 0)%Z; [done|]. intros [= <-]. by right. }
    clearbody choice. destruct choice as [one|ex]; [|done]. specialize (Hch one eq_refl).
    lazymatch goal with |- within _ _ (pbind (Ret (Ok ?o)) ?k) => change (within R W (k o)) end. cbv beta.
    apply within_bind; [done|]. intros batches. apply within_bind; [|by intros]. apply within_transaction. intros p Hp.
    apply elem_of_list_In, in_map_iff in Hp as (b & <- & _). apply within_pfor. intros y _. by apply Hone.
  Qed.
End region.
Lemma within_bind2 {A B D : Type} R W (p : program A) (f : A -> program B) (k : B -> program D) :
  within R W p -> (forall x, within R W (pbind (f x) k)) -> within R W (pbind (pbind p f) k).
Proof. induction p as [[x|ex]|o h IH]; cbn; [auto|done|]. intros [Ho Hh] H. split; [done|]. intros r Hr. apply IH; auto. Qed.
Lemma within_view_sync v w sched sched' f : within (fun _ => True) (under (w_dir w)) (sync v sched sched' w f).
Proof.
  assert (Hrest : forall w', w_dir w' = w_dir w -> within (fun _ => True) (under (w_dir w)) (
    let! parts <- ref_parts v w' NoFilter;
    match parts with
    | [] => praise TypeError
    | _ =>
        let! r <- execute_transaction CTorn sched' (map (sync_one v w' false) parts);
        let! ids <- Ret (traverse (fun q => p_parse (c_part (w_ref w')) (join_with (lit "/") q)) (omap id r));
        pret (w', ids)
    end)).
  { intros w' <-. apply within_bind; [apply within_ref_parts|]. intros [|q l]; [done|]. apply within_bind; [apply (within_sync_all v w' sched' false (q :: l))|].
    intros r. apply within_bind; [done|]. by intros. }
  assert (Hf : within (fun _ => True) (under (w_dir w)) (
    let! w <- (let w := with_filters w f in let! _ <- write_vconfig v w; let! _ <- init_partitions v sched w f; pret w);
    let! parts <- ref_parts v w NoFilter;
    match parts with
    | [] => praise TypeError
    | _ =>
        let! r <- execute_transaction CTorn sched' (map (sync_one v w false) parts);
        let! ids <- Ret (traverse (fun q => p_parse (c_part (w_ref w)) (join_with (lit "/") q)) (omap id r));
        pret (w, ids)
    end)).
  { cbv zeta. apply within_bind2; [apply (within_vconfig v (with_filters w f))|]. intros _. apply within_bind2; [apply (within_init v (with_filters w f))|]. intros _.
    cbn [pbind pret]. by apply Hrest. }
  unfold sync. destruct f; first [exact Hf|by apply Hrest].
Qed.
Lemma within_view_add v w sched sched' var : within (fun _ => True) (under (w_dir w)) (view_add_variable v sched sched' w var).
Proof.
  unfold view_add_variable. destruct (_ || _); [done|]. apply within_bind; [done|]. intros m. cbv zeta.
  set (w1 := with_vmeta w m). change (w_dir w) with (w_dir w1). apply within_bind; [|by intros]. apply within_attempt.
  apply within_bind; [done|]. intros tm. apply within_bind; [apply within_view_parts|]. intros [|q l]; [done|].
  apply within_bind; [apply within_iterate|]. intros groups. apply within_bind.
  - apply within_attempt, within_transaction. intros p Hp. apply elem_of_list_In, in_map_iff in Hp as (a & <- & _). apply within_create. intros x Hx. by eapply under_more.
  - intros [r|ex]; [apply within_vconfig|]. apply within_bind; [apply within_view_parts|]. intros parts.
    apply within_bind; [apply within_drop_arrays|]. by intros.
Qed.
Lemma within_view_drop v w sched name : within (fun _ => True) (under (w_dir w)) (view_drop_variable v sched w name).
Proof.
  unfold view_drop_variable. apply within_bind; [done|]. intros _. cbv zeta. set (w1 := with_vmeta w _). change (w_dir w) with (w_dir w1).
  apply within_bind; [|by intros]. apply within_attempt. apply within_bind; [apply within_vconfig|]. intros _. apply within_bind; [apply within_view_parts|].
  intros parts. apply within_drop_arrays.
Qed.
Lemma new_collection_r axis m p d c : new_collection axis m p d (Some (lit "r")) = Ok c -> c_readonly c = true /\ c_dir c = d.
Proof.
  unfold new_collection. destruct (dget (md_vars m) axis) as [x|]; [|done]. destruct (negb _); [done|]. cbn [default from_option id].
  destruct (negb (memb _ _)); [done|]. destruct (mv_dims x); [done|]. intros [= <-]. done.
Qed.
Lemma within_open_collection reg d W' : within (fun _ => True) W' (open_collection reg d (Some (lit "r"))).
Proof.
  unfold open_collection, from_config. apply within_bind; [apply within_exists; by left|]. intros [|]; [|done]. cbn [negb]. cbv iota.
  apply within_bind; [apply within_read_file; by left|]. intros [[| | | | | |]|]; try done. apply within_bind; [done|]. intros m. apply within_bind; [done|]. intros p.
  unfold make_collection. destruct (new_collection _ _ _ _ _) as [c'|] eqn:E; [|done]. change (default (lit "r") (Some (lit "r"))) with (lit "r") in E.
  apply new_collection_r in E as [E _]. cbn [pbind]. by rewrite E.
Qed.
Lemma within_make_view v reg sched d ref m f : within (fun _ => True) (under d) (make_view v reg sched d ref m f).
Proof.
  unfold make_view. apply within_bind; [apply within_open_collection|]. intros c. cbv zeta. set (w := View d c _ f). change d with (w_dir w).
  apply within_bind; [apply within_exists; by left|]. intros [|]; [done|]. apply within_bind; [apply within_vconfig|]. intros _. apply within_bind; [apply within_init|]. by intros.
Qed.
Lemma within_create_view v reg sched d ref f : within (fun _ => True) (under d) (create_view v reg sched d ref f).
Proof. apply within_bind; [apply within_exists; by left|]. intros [|]; [done|]. apply within_make_view. Qed.

(** ** Partitions of the view *)
Lemma choose {A B} `{EqDecision A} (l : list A) (Q : A -> B -> Prop) (g : A -> B) :
  (forall x, x ∈ l -> exists y, Q x y) -> exists f, (forall x, x ∈ l -> Q x (f x)) /\ forall x, x ∉ l -> f x = g x.
Proof.
  induction l as [|x l IH]; intros H.
  - exists g. split; [|done]. intros x Hx. by apply elem_of_nil in Hx.
  - destruct IH as (f & H1 & H2); [intros y Hy; apply H; by right|]. destruct (H x) as (y & Hy); [left|].
    exists (fun z => if decide (z = x) then y else f z). split.
    + intros z Hz. destruct (decide (z = x)) as [->|N]; [done|]. apply elem_of_cons in Hz as [?|Hz]; [done|]. by apply H1.
    + intros z Hz. apply not_elem_of_cons in Hz as [N Hz]. rewrite decide_False by done. by apply H2.
Qed.

Section effect.
  Context (v : venv) (w : view) (Hw : viewable v w).
  Local Notation c := (w_ref w).
  Local Notation keys := (p_keys (c_part (w_ref w))).
  Local Notation kd := (key_dirs (c_part (w_ref w))).

  Lemma vdirs_apart v1 v2 : length v1 = length keys -> length v2 = length keys -> v1 <> v2 -> apart (vdir w v1) (vdir w v2).
  Proof.
    intros H1 H2 N r (f & ->) (g & E). apply N. unfold vdir in E. rewrite <-!app_assoc in E.
    by apply (key_dirs_prefix (c_part c) (w_dir w) v1 v2 f g H1 H2) in E as [? _].
  Qed.
  Lemma vdir_part v1 v2 : apart (vdir w v1) (part_dir c v2).
  Proof using Hw. eapply apart_under; [apply (vw_apart _ _ Hw)|apply under_app..]. Qed.
  Lemma strip_parts vss : map (drop (length (c_dir c))) (map (part_dir c) vss) = map kd vss.
  Proof. rewrite map_map. apply map_ext. intros x. unfold part_dir. by rewrite drop_app. Qed.
  Lemma exec_ref_parts f s vss : exec (select_parts (ve_env v) c f) s = (Ok (map (part_dir c) vss), s) -> exec (ref_parts v w f) s = (Ok (map kd vss), s).
  Proof. intros E. unfold ref_parts. rewrite exec_bind, E. cbn [exec pret]. by rewrite strip_parts. Qed.
  Lemma parse_key values : length values = length keys -> p_parse (c_part c) (join_with (lit "/") (kd values)) = Ok (zip keys values).
  Proof using Hw.
    intros Hl. pose proof (rg_keys _ _ (vw_regular _ _ Hw)) as Hk.
    apply (C03_parse_join (c_part c) [] values); [apply Hk| |intros H; by apply elem_of_nil in H|done].
    eapply Forall_impl; [apply Hk|]. intros k [H _]. done.
  Qed.

  (** Tasks on distinct partitions *)
  Lemma exec_view_tasks {B : Type} sched (f : path -> program B) (g : list Z -> B) vs s :
    NoDup vs -> (forall x, x ∈ vs -> length x = length keys) ->
    (forall x, x ∈ vs -> within (under (part_dir c x)) (under (vdir w x)) (f (kd x))) ->
    (forall x, x ∈ vs -> (exec (f (kd x)) s).1 = Ok (g x)) ->
    exists s', exec (execute_transaction CTorn sched (map f (map kd vs))) s = (Ok (map g vs), s') /\
      (forall x, x ∈ vs -> sub (vdir w x) s' = sub (vdir w x) (exec (f (kd x)) s).2) /\
      (forall q, (forall x, x ∈ vs -> ~ under (vdir w x) q) -> s' !! q = s !! q).
  Proof using Hw.
    intros Hnd Hlen Hwi Hex. set (ps := map f (map kd vs)).
    set (W := fun i q => match vs !! i with Some x => under (vdir w x) q | None => False end).
    set (R := fun i q => match vs !! i with Some x => under (part_dir c x) q | None => False end).
    assert (Hlk : forall i p, ps !! i = Some p -> exists x, vs !! i = Some x /\ p = f (kd x)).
    { intros i p. unfold ps. rewrite map_map. change (map ?f vs) with (f <$> vs). rewrite list_lookup_fmap. destruct (vs !! i) as [x|]; [|done]. intros [= <-]. eauto. }
    assert (Hind : independent ps R W).
    { split.
      - intros i p E. apply Hlk in E as (x & Ei & ->). eapply within_impl; [..|apply Hwi; by eapply elem_of_list_lookup_2]; intros q Hq; unfold R, W; by rewrite Ei.
      - intros i j p p' Ei Ej N q Wi HRW. apply Hlk in Ei as (x & Ei & _), Ej as (y & Ej & _). unfold R, W in *. rewrite Ei in Wi. rewrite Ej in HRW.
        destruct HRW as [Hq|Hq]; [by apply (vdir_part x y q)|].
        refine (vdirs_apart x y _ _ _ q Wi Hq); try (apply Hlen; by eapply elem_of_list_lookup_2). intros ->. apply N. by eapply NoDup_lookup. }
    assert (Hdec : forall i q, Decision (W i q)) by (intros i q; unfold W; destruct (vs !! i); apply _).
    rewrite (exec_transaction CTorn sched ps R W s Hdec Hind).
    destruct (exec_all_spec CTorn ps R W s Hind) as (E1 & E2 & E3). exists (exec_all ps s).2. split_and!.
    - f_equal. rewrite E1. apply first_error_Ok. unfold ps. rewrite !map_map. apply map_ext_in. intros x Hin. apply Hex. by apply elem_of_list_In.
    - intros x Hin. apply elem_of_list_lookup in Hin as [i Hi]. apply map_eq. intros q. rewrite !sub_lookup. apply (E2 i).
      + unfold ps. rewrite map_map. change (map ?f vs) with (f <$> vs). by rewrite list_lookup_fmap, Hi.
      + right. unfold W. rewrite Hi. apply under_app.
    - intros q Hq. apply E3. intros i p Ei Wi. apply Hlk in Ei as (x & Ei & _). unfold W in Wi. rewrite Ei in Wi. eapply Hq; [|exact Wi]. by eapply elem_of_list_lookup_2.
  Qed.

  Lemma represents_frame M I s s' : represents c M I s -> (forall q, under (c_dir c) q -> s' !! q = s !! q) -> represents c M I s'.
  Proof.
    intros Hs H. assert (Hsub : forall d, sub (c_dir c ++ d) s' = sub (c_dir c ++ d) s).
    { intros d. apply map_eq. intros q. rewrite !sub_lookup. apply H. rewrite <-app_assoc. apply under_app. }
    split.
    - intros q x E. rewrite H in E by apply under_app. by apply (rp_files _ _ _ _ Hs q x).
    - intros values ds Hv. unfold part_dir. rewrite Hsub. by apply (rp_part _ _ _ _ Hs).
    - intros ds Hd. rewrite Hsub. by apply (rp_immutable _ _ _ _ Hs).
  Qed.
  Lemma holds_view_change V s (vs : list (list Z)) V' s' : holds_view v w V s ->
    (forall x, x ∈ vs -> length x = length keys /\ exists p, V' x = Some p /\ keeps_part v w (sub (vdir w x) s') p) ->
    (forall x, x ∉ vs -> V' x = V x) ->
    (forall q, under (w_dir w) q -> (forall x, x ∈ vs -> ~ under (vdir w x) q) -> s' !! q = s !! q) -> holds_view v w V' s'.
  Proof.
    intros Hv H1 H2 H3.
    assert (Hno : forall x y, x ∈ vs -> y ∉ vs -> length y = length keys -> apart (vdir w x) (vdir w y)).
    { intros x y Hx Hy Hl. apply vdirs_apart; [by apply H1|done|]. intros ->. done. }
    split.
    - intros q x E. destruct (decide (Exists (fun y => under (vdir w y) (w_dir w ++ q)) vs)) as [X|X].
      + apply Exists_exists in X as (y & Hy & (f & Ef)). right. exists y, f. destruct (H1 y Hy) as (_ & p & Ep & _). split; [by eexists|].
        unfold vdir in Ef. rewrite <-app_assoc in Ef. by apply app_inv_head in Ef.
      + rewrite H3 in E; [|apply under_app|intros y Hy U; apply X, Exists_exists; by exists y].
        apply (hw_files _ _ _ _ Hv) in E as [E|(y & f & Hy & ->)]; [by left|right]. exists y, f. split; [|done]. rewrite H2; [done|].
        intros Hin. apply X, Exists_exists. exists y. split; [done|]. unfold vdir. rewrite app_assoc. apply under_app.
    - intros y p Hy. destruct (decide (y ∈ vs)) as [Hin|Hni].
      + destruct (H1 y Hin) as (Hl & p' & Ep & K). rewrite Hy in Ep. injection Ep as <-. done.
      + rewrite H2 in Hy by done. destruct (hw_part _ _ _ _ Hv _ _ Hy) as (Hl & K). split; [done|].
        replace (sub (vdir w y) s') with (sub (vdir w y) s); [done|]. apply map_eq. intros q. rewrite !sub_lookup. symmetry. apply H3.
        * unfold vdir. rewrite <-app_assoc. apply under_app.
        * intros x Hx U. eapply (Hno x y Hx Hni Hl); [exact U|apply under_app].
  Qed.
  Lemma view_nothing V s x : holds_view v w V s -> length x = length keys -> V x = None -> nothing_at (vdir w x) s.
  Proof using Hw.
    intros Hv Hl Hn q (t & ->). unfold vdir. rewrite <-app_assoc. destruct (s !! _) as [y|] eqn:E; [|done].
    destruct (key_head (ve_env v) c (vw_regular _ _ Hw) x Hl) as (a & r & Ea & Ha & Hd).
    apply (hw_files _ _ _ _ Hv) in E as [E|(z & f & Hz & E)].
    - rewrite Ea in E. injection E as -> _. done.
    - destruct Hz as [p Hz]. destruct (hw_part _ _ _ _ Hv _ _ Hz) as (Hl' & _).
      destruct (key_dirs_prefix (c_part c) [] x z t f Hl Hl' E) as [-> _]. congruence.
  Qed.

  (** ** [sync] *)
  Context (M : list Z -> option dataset) (I : option dataset) (Hmo : forall x ds, M x = Some ds -> made_of c ds).
  Lemma before_ok V s x ds : represents c M I s -> holds_view v w V s -> no_collision v w M V -> M x = Some ds -> before_sync v w ds (vdir w x) s (V x).
  Proof using Hw.
    intros Hs Hv Hc Hx. destruct (rp_part _ _ _ _ Hs _ _ Hx) as (Hl & _). unfold before_sync. destruct (V x) as [p|] eqn:Ep.
    - destruct (hw_part _ _ _ _ Hv _ _ Ep) as (_ & K). split; [done|]. intros a Ha Hd. by eapply Hc.
    - by eapply view_nothing.
  Qed.
  Lemma exec_sync_tasks V s sched vs : represents c M I s -> holds_view v w V s -> no_collision v w M V -> NoDup vs -> (forall x, x ∈ vs -> is_Some (M x)) ->
    exists s' V' D, exec (execute_transaction CTorn sched (map (sync_one v w false) (map kd vs))) s = (Ok (map (fun x => if D x : bool then Some (kd x) else None) vs), s') /\
      exec (execute_transaction CTorn sched (map (sync_one v w true) (map kd vs))) s = (Ok (map (fun x => if D x : bool then Some (kd x) else None) vs), s) /\
      holds_view v w V' s' /\ represents c M I s' /\ (forall q, ~ under (w_dir w) q -> s' !! q = s !! q) /\
      (forall x ds, x ∈ vs -> M x = Some ds -> exists p, V' x = Some p /\ synchronised w ds (V x) p (D x)) /\
      (forall x, x ∉ vs -> V' x = V x) /\ ((forall x, x ∈ vs -> D x = false) -> s' = s).
  Proof using Hw Hmo.
    intros Hs Hv Hcol Hnd Hin.
    destruct (choose vs (fun x (y : option vpart * bool) => exists s1 p ds, M x = Some ds /\ y.1 = Some p /\ exec (sync_one v w false (kd x)) s = (Ok (if y.2 then Some (kd x) else None), s1) /\
      exec (sync_one v w true (kd x)) s = (Ok (if y.2 then Some (kd x) else None : option path), s) /\ same_out (vdir w x) s s1 /\ keeps_part v w (sub (vdir w x) s1) p /\
      synchronised w ds (V x) p y.2 /\ (y.2 = false -> s1 = s)) (fun x => (V x, false))) as (F & HF & HF').
    { intros x Hx. destruct (Hin x Hx) as [ds Hds]. destruct (rp_part _ _ _ _ Hs _ _ Hds) as (Hl & Hso & Hh).
      destruct (exec_sync_one v w Hw ds Hso (Hmo _ _ Hds) (kd x) s (V x)) as (s1 & p & d & H1 & H2 & H3 & H4 & H5 & H6).
      - by apply before_ok.
      - exact Hh.
      - exists (Some p, d), s1, p, ds. done. }
    assert (Hlen : forall x, x ∈ vs -> length x = length keys).
    { intros x Hx. destruct (Hin x Hx) as [ds Hds]. by destruct (rp_part _ _ _ _ Hs _ _ Hds) as (Hl & _). }
    assert (Hwi : forall dry x, within (under (part_dir c x)) (under (vdir w x)) (sync_one v w dry (kd x))).
    { intros dry x. apply within_sync_one; [by left|done]. }
    destruct (exec_view_tasks sched (sync_one v w false) (fun x => if (F x).2 then Some (kd x) else None) vs s Hnd Hlen (fun x _ => Hwi false x)) as (s' & E1 & S1 & O1).
    { intros x Hx. destruct (HF x Hx) as (s1 & p & ds & _ & _ & E & _). by rewrite E. }
    destruct (exec_view_tasks sched (sync_one v w true) (fun x => if (F x).2 then Some (kd x) else None) vs s Hnd Hlen (fun x _ => Hwi true x)) as (s2 & E2 & S2 & O2).
    { intros x Hx. destruct (HF x Hx) as (s1 & p & ds & _ & _ & _ & E & _). by rewrite E. }
    assert (s2 = s) as ->.
    { apply map_eq. intros q. destruct (decide (Exists (fun y => under (vdir w y) q) vs)) as [X|X].
      - apply Exists_exists in X as (y & Hy & (f & ->)). rewrite <-!sub_lookup, S2 by done. destruct (HF y Hy) as (s1 & p & ds & _ & _ & _ & E & _). by rewrite E.
      - apply O2. intros x Hx U. apply X, Exists_exists. by exists x. }
    exists s', (fun x => (F x).1), (fun x => (F x).2).
    assert (Hout : forall q, ~ under (w_dir w) q -> s' !! q = s !! q).
    { intros q Hq. apply O1. intros x Hx U. apply Hq. by eapply under_more. }
    split_and!; [done|done| | |done| | |].
    - apply (holds_view_change V s vs); [done| | |].
      + intros x Hx. split; [by apply Hlen|]. destruct (HF x Hx) as (s1 & p & ds & _ & Ep & E & _ & _ & K & _). exists p. split; [done|]. rewrite S1, E by done. done.
      + intros x Hx. by rewrite HF'.
      + intros q _ Hq. by apply O1.
    - apply (represents_frame M I s); [done|]. intros q Hq. apply Hout. intros U. by apply (vw_apart _ _ Hw q).
    - intros x ds Hx Hds. destruct (HF x Hx) as (s1 & p & ds' & Hds' & Ep & _ & _ & _ & _ & Sy & _). exists p. rewrite Hds in Hds'. injection Hds' as <-. done.
    - intros x Hx. by rewrite HF'.
    - intros HD. apply map_eq. intros q. destruct (decide (Exists (fun y => under (vdir w y) q) vs)) as [X|X].
      + apply Exists_exists in X as (y & Hy & (f & ->)). rewrite <-!sub_lookup, S1 by done. destruct (HF y Hy) as (s1 & p & ds & _ & _ & E & _ & _ & _ & _ & Hsame).
        rewrite E. cbn. rewrite Hsame; [done|]. by apply HD.
      + apply O1. intros x Hx U. apply X, Exists_exists. by exists x.
  Qed.
  Lemma changed_ids (D : list Z -> bool) vs : (forall x, x ∈ vs -> length x = length keys) ->
    traverse (fun q => p_parse (c_part c) (join_with (lit "/") q)) (omap id (map (fun x => if D x then Some (kd x) else None) vs)) =
    Ok (map (zip keys) (List.filter D vs)).
  Proof using Hw.
    induction vs as [|x vs IH]; intros Hl; [done|]. cbn. destruct (D x); cbn.
    - rewrite parse_key by (apply Hl; left). cbn [rbind].
      lazymatch goal with |- rbind ?m _ = _ => assert (m = Ok (map (zip keys) (List.filter D vs))) as -> end; [|done].
      apply IH. intros y Hy. apply Hl. by right.
    - apply IH. intros y Hy. apply Hl. by right.
  Qed.
  Lemma sync_ok V s sched sched' : represents c M I s -> holds_view v w V s -> no_collision v w M V -> (exists x, is_Some (M x)) ->
    exists s' V' vs D, StronglySorted row_lt vs /\ (forall x, x ∈ vs <-> is_Some (M x) /\ D x = true) /\
      exec (sync v sched sched' w NoFilter) s = (Ok (w, map (zip keys) vs), s') /\
      exec (is_synced v sched w) s = (Ok (match vs with [] => true | _ => false end), s) /\
      holds_view v w V' s' /\ represents c M I s' /\ (forall q, ~ under (w_dir w) q -> s' !! q = s !! q) /\
      (forall x ds, M x = Some ds -> exists p, V' x = Some p /\ synchronised w ds (V x) p (D x)) /\
      (forall x, M x = None -> V' x = V x) /\ (vs = [] -> s' = s).
  Proof using Hw Hmo.
    intros Hs Hv Hcol [x0 Hx0]. destruct (select_all (ve_env v) c (vw_regular _ _ Hw) M I s Hs) as (vss & Hso & Hvs & Esel).
    pose proof (exec_ref_parts NoFilter s vss Esel) as Eref.
    assert (Hnd : NoDup vss) by (by apply sorted_nodup_rows). assert (Hne : vss <> []) by (intros ->; by apply Hvs, elem_of_nil in Hx0).
    assert (Hlen : forall x, x ∈ vss -> length x = length keys).
    { intros x Hx. apply Hvs in Hx as [ds Hds]. by destruct (rp_part _ _ _ _ Hs _ _ Hds) as (Hl & _). }
    destruct (exec_sync_tasks V s sched' vss Hs Hv Hcol Hnd (fun x => proj1 (Hvs x))) as (s' & V' & D & E1 & _ & H1 & H2 & H3 & H4 & H5 & H6).
    destruct (exec_sync_tasks V s sched vss Hs Hv Hcol Hnd (fun x => proj1 (Hvs x))) as (s2 & V2 & D2 & _ & E2 & _ & _ & _ & G4 & _).
    assert (HD : forall x, x ∈ vss -> D2 x = D x).
    { intros x Hx. pose proof Hx as Hx'. apply Hvs in Hx' as [ds Hds]. destruct (H4 x ds Hx Hds) as (p & _ & S1), (G4 x ds Hx Hds) as (p2 & _ & S2).
      unfold synchronised in S1, S2. destruct (V x) as [p0|]; [|destruct S1, S2; congruence].
      destruct S1 as [(A1 & B1 & _)|(A1 & B1 & _)], S2 as [(A2 & B2 & _)|(A2 & B2 & _)]; congruence. }
    exists s', V', (List.filter D vss), D. split_and!.
    - by apply sorted_filter.
    - intros x. rewrite elem_of_list_In, filter_In, <-elem_of_list_In, Hvs. done.
    - unfold sync. rewrite exec_bind. cbn [exec pret]. rewrite exec_bind, Eref. cbv iota beta. destruct (map kd vss) as [|q l] eqn:El; [by destruct vss|].
      rewrite exec_bind, E1. cbv iota beta. rewrite exec_bind, changed_ids by done. done.
    - unfold is_synced. rewrite exec_bind, Eref. cbv iota beta. destruct (map kd vss) as [|q l] eqn:El; [by destruct vss|].
      rewrite exec_bind, E2. cbn [exec pret]. f_equal. f_equal. clear -HD. induction vss as [|x l IH]; [done|]. cbn.
      rewrite HD by left. destruct (D x); cbn; [done|]. apply IH. intros y Hy. apply HD. by right.
    - done.
    - done.
    - done.
    - intros x ds Hds. apply H4; [|done]. apply Hvs. by eexists.
    - intros x Hx. apply H5. intros Hin. apply Hvs in Hin as [ds Hds]. congruence.
    - intros Hnil. apply H6. intros x Hx. destruct (D x) eqn:Ed; [|done]. exfalso. assert (x ∈ List.filter D vss) as Hf.
      { apply elem_of_list_In, filter_In. split; [by apply elem_of_list_In|done]. }
      rewrite Hnil in Hf. by apply elem_of_nil in Hf.
  Qed.
End effect.
