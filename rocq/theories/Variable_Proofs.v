(** * Adding and dropping a variable *)
From Verif Require Import Py Dict NdArray_Model NdArray_Spec NdArray_Proofs Dataset_Model Dataset_Spec Dataset_Proofs Meta_Model PartPath_Model PartPath_Proofs
  Split_Spec DaskUtils_Model DaskUtils_Proofs FS_Model FS_Proofs Pool_Model Pool_Proofs Storage_Model Storage_Chunks Storage_Spec Storage_Proofs
  Listing_Model Listing_Spec Listing_Proofs Collection_Model Collection_Spec Collection_Split Collection_Proofs Collection_State Collection_Select Collection_Load
  Update_Model Update_Spec Storage_Change Update_State Update_Proofs Variable_Spec.

(** ** One partition, in which an interrupted addition may have left files *)
(** The files [t] are those of [t0], except in the directory [n]; the
    consolidated metadata may differ only if there are files there. *)
Definition residue (t0 : store) (n : str) (t : store) : Prop :=
  (forall q, ~ under [n] q -> q <> [ZMETADATA] -> t !! q = t0 !! q) /\
  ((exists q x, under [n] q /\ t !! q = Some x) \/ t = t0).
Lemma residue_self t n : residue t n t.
Proof. split; [done|]. by right. Qed.
Lemma leftover_residue t0 n t : (forall q, under [n] q -> t0 !! q = None) -> (forall q, ~ under [n] q -> t !! q = t0 !! q) -> residue t0 n t.
Proof.
  intros H0 H. split; [intros q Hq _; by apply H|]. destruct (empty_at [n] t) eqn:E.
  - right. apply nothing_empty in E. apply map_eq. intros q. destruct (decide (under [n] q)) as [U|U]; [|by apply H]. rewrite H0 by done. by apply E.
  - left. unfold empty_at in E. apply bool_decide_eq_false in E. destruct (map_to_list (sub [n] t)) as [|[q x] l] eqn:El; [done|].
    assert (Hq : (q, x) ∈ map_to_list (sub [n] t)) by (rewrite El; left). apply elem_of_map_to_list in Hq. rewrite sub_lookup in Hq.
    exists ([n] ++ q), x. split; [apply under_app|done].
Qed.

Lemma del_residue d n s t0 attrs vars : holds_group t0 attrs vars -> plain_name n -> (forall q, under [n] q -> t0 !! q = None) ->
  residue t0 n (sub d s) -> exec (del_zarr_array d n) s = (Ok tt, graft d t0 (prune d s)).
Proof.
  intros H Hp H0 [Hout Hin]. unfold del_zarr_array. rewrite exec_bind, exec_exists. destruct (empty_at (d ++ [n]) s) eqn:E; cbn [negb].
  - apply nothing_empty in E. destruct Hin as [(q & x & U & Ex)|Et].
    + exfalso. rewrite sub_lookup in Ex. rewrite E in Ex; [done|]. destruct U as (r & ->). rewrite app_assoc. apply under_app.
    + cbn [exec pret]. rewrite <-Et. by rewrite graft_sub_prune.
  - rewrite exec_bind, exec_rm, E.
    assert (Hne : forall x, x ∈ [ZARRAY; ZATTRS; ZGROUP; ZMETADATA] -> n <> x) by (intros x Hx ->; by apply Hp).
    assert (Es : sub d (prune (d ++ [n]) s) = <[[ZMETADATA] := default (CCons ∅) (sub d s !! [ZMETADATA])]> t0 \/ sub d (prune (d ++ [n]) s) = delete [ZMETADATA] t0).
    { rewrite sub_prune_in. destruct (sub d s !! [ZMETADATA]) as [x|] eqn:Em; [left|right]; apply map_eq; intros q; rewrite prune_lookup.
      - destruct (decide (under [n] q)) as [U|U].
        + rewrite lookup_insert_ne; [by rewrite H0|]. intros <-. destruct U as (r & U). injection U as U _. apply (Hne ZMETADATA); [set_solver|done].
        + destruct (decide (q = [ZMETADATA])) as [->|N]; [by rewrite lookup_insert, Em|]. rewrite lookup_insert_ne by done. by apply Hout.
      - destruct (decide (under [n] q)) as [U|U].
        + rewrite lookup_delete_ne; [by rewrite H0|]. intros <-. destruct U as (r & U). injection U as U _. apply (Hne ZMETADATA); [set_solver|done].
        + destruct (decide (q = [ZMETADATA])) as [->|N]; [by rewrite lookup_delete|]. rewrite lookup_delete_ne by done. by apply Hout. }
    assert (Hz : forall q, is_zarr_key q = true -> sub d (prune (d ++ [n]) s) !! q = t0 !! q).
    { intros q Hq. assert (q <> [ZMETADATA]) by (by intros ->). destruct Es as [-> | ->]; [by rewrite lookup_insert_ne|by rewrite lookup_delete_ne]. }
    rewrite exec_consolidate.
    + f_equal. rewrite (metas_same t0) by done.
      apply map_eq. intros q. rewrite graft_lookup. rewrite prune_lookup. destruct (decide (q = d ++ [ZMETADATA])) as [->|N].
      * rewrite lookup_insert. rewrite strip_app. rewrite (hg_cons _ _ _ H). done.
      * rewrite lookup_insert_ne by done. destruct (strip d q) as [r|] eqn:Er.
        -- apply strip_Some in Er as ->. rewrite decide_True by apply under_app. rewrite <-sub_lookup.
           assert (r <> [ZMETADATA]) by (by intros ->).
           destruct (t0 !! r) as [y|] eqn:Ey; destruct Es as [-> | ->]; rewrite ?lookup_insert_ne, ?lookup_delete_ne by done; done.
        -- apply strip_None in Er. rewrite decide_False by done. rewrite prune_lookup, decide_False; [done|]. intros U. apply Er. eapply under_trans; [apply under_app|done].
    + eapply clean_same; [exact Hz|apply H].
    + rewrite Hz by done. apply H.
Qed.

Lemma add_residue d s t0 attrs vars v template chunks : holds_group t0 attrs vars -> plain_name (mv_name v) -> (forall q, under [mv_name v] q -> t0 !! q = None) ->
  (forall q, ~ under [mv_name v] q -> sub d s !! q = t0 !! q) ->
  template = mv_name v \/ template ∈ dkeys vars ->
  exists r s', exec (add_zarr_array d v template chunks) s = (r, s') /\ (forall q, ~ under d q -> s' !! q = s !! q) /\ residue t0 (mv_name v) (sub d s').
Proof.
  intros H Hp H0 Hout Ht. set (n := mv_name v) in *. pose proof (leftover_residue t0 n (sub d s) H0 Hout) as Hres.
  assert (Hne : forall x, x ∈ [ZARRAY; ZATTRS; ZGROUP; ZMETADATA] -> n <> x) by (intros x Hx E; apply Hp; by rewrite E).
  assert (Hw : forall x cx s1, residue t0 n (sub d s1) -> residue t0 n (sub d (<[d ++ [n; x] := cx]> s1))).
  { intros x cx s1 [R1 R2]. rewrite sub_insert_in. split.
    - intros q Hq Hm. rewrite lookup_insert_ne; [by apply R1|]. intros <-. apply Hq. by exists [x].
    - left. exists [n; x], cx. split; [by exists [x]|by rewrite lookup_insert]. }
  assert (Ho : forall x (cx : content) (s1 : store), (forall q, ~ under d q -> s1 !! q = s !! q) -> forall q, ~ under d q -> <[d ++ x := cx]> s1 !! q = s !! q).
  { intros x cx s1 Hs1 q Hq. rewrite lookup_insert_ne; [by apply Hs1|]. intros <-. apply Hq, under_app. }
  unfold add_zarr_array. rewrite exec_bind, exec_read_file.
  destruct (s !! (d ++ [template; ZARRAY])) as [x|] eqn:Ez.
  - destruct x as [m| | | | | |]; try (eexists _, s; split; [reflexivity|by split]). destruct m as [z| |]; try (eexists _, s; split; [reflexivity|by split]).
    cbv zeta. rewrite exec_bind, exec_read_file, exec_bind, exec_read_file. fold n.
    case_bool_decide; [eexists _, s; split; [reflexivity|by split]|]. case_bool_decide; [eexists _, s; split; [reflexivity|by split]|].
    rewrite exec_bind, exec_write. unfold write_zattrs. rewrite exec_bind, exec_write.
    match goal with |- context [exec (consolidate d) ?x] => set (s1 := x) end.
    assert (R1 : residue t0 n (sub d s1)) by (subst s1; by apply Hw, Hw).
    assert (O1 : forall q, ~ under d q -> s1 !! q = s !! q) by (subst s1; apply Ho, Ho; done).
    unfold consolidate. rewrite exec_bind, exec_get_tree, exec_bind. cbn [exec].
    destruct (collect_meta (sub d s1)) as [m|ex]; [|eexists _, s1; split; [reflexivity|by split]].
    rewrite exec_bind, exec_write. exists (if bool_decide (is_Some (m !! [ZGROUP])) then Ok tt else Raise ValueError), (<[d ++ [ZMETADATA] := CCons m]> s1).
    split; [by case_bool_decide|]. split; [by apply Ho|]. destruct R1 as [Ra Rb]. rewrite sub_insert_in. split.
    + intros q Hq Hm. rewrite lookup_insert_ne by done. by apply Ra.
    + left. exists [n; ZARRAY]. eexists. split; [by exists [ZARRAY]|]. rewrite lookup_insert_ne by done. subst s1. rewrite !sub_insert_in.
      rewrite lookup_insert_ne by done. apply lookup_insert.
  - assert (template = n) as ->.
    { destruct Ht as [|Ht]; [done|]. exfalso. apply dget_is_Some in Ht as [w Hw']. destruct (hg_vars _ _ _ H _ _ Hw') as (_ & _ & [(cs & _ & E & _) _]).
      rewrite sub_lookup in E. cbn [app] in E. rewrite <-Hout in E; [rewrite sub_lookup in E; congruence|]. intros U.
      rewrite H0 in E; done. }
    rewrite exec_bind, exec_read_file. case_bool_decide.
    + eexists _, s. split; [reflexivity|by split].
    + rewrite exec_bind, exec_write. eexists _, _. split; [reflexivity|]. split; [by apply Ho|by apply Hw].
Qed.

(** ** All the partitions *)
Lemma Forall2_impl_l {A B} (P Q : A -> B -> Prop) l k : Forall2 P l k -> (forall x y, x ∈ l -> P x y -> Q x y) -> Forall2 Q l k.
Proof.
  induction 1 as [|x y l k Hp Hf IH]; intros H; constructor; [apply H; [left|done]|]. apply IH. intros a b Ha. apply H. by right.
Qed.
Lemma Forall2_elem_l {A B} (P : A -> B -> Prop) l k x : Forall2 P l k -> x ∈ l -> exists y, y ∈ k /\ P x y.
Proof.
  induction 1 as [|a y l k Hp Hf IH]; intros H; [by apply elem_of_nil in H|]. apply elem_of_cons in H as [->|H]; [exists y; split; [left|done]|].
  destruct (IH H) as (z & ? & ?). exists z. split; [by right|done].
Qed.
  Lemma drop_steps_at (e : env) (c : collection) s vss l s2 n sched : c_readonly c = false -> n ∉ p_variables (c_part c) -> n ∈ dkeys (md_vars (c_meta c)) ->
    (forall q, immutable_path c = Some q -> exists o, exec (open_zarr_group q true None) s = (Ok o, s) /\ n ∉ dkeys (d_vars o)) ->
    exec (select_parts e c NoFilter) s = (Ok (map (part_dir c) vss), s) -> vss <> [] ->
    exec (execute_transaction CTorn sched (map (fun q => del_zarr_array q n) (map (part_dir c) vss))) s = (Ok l, s2) ->
    exec (drop_variable e sched c n) s =
      (Ok (with_meta c (md_del_variable (c_meta c) n)), <[c_dir c ++ [CONFIG] := CConf (config_of (with_meta c (md_del_variable (c_meta c) n)))]> s2).
  Proof.
    intros Hw Hk Hn Hi Hsel Hne Ht. unfold drop_variable. rewrite Hw.
    assert (memb n (p_variables (c_part c)) = false) as -> by (by apply bool_decide_eq_false).
    assert (dmem (md_vars (c_meta c)) n = true) as -> by (by apply dmem_true). cbn [negb]. rewrite exec_bind.
    assert (Eq : exec (match immutable_path c with
            | None => pret tt
            | Some q => let! i <- open_zarr_group q true None; if dmem (d_vars i) n then praise ValueError else pret tt
            end) s = (Ok tt, s)).
    { destruct (immutable_path c) as [q|]; [|done]. destruct (Hi q eq_refl) as (o & Eo & Ho). rewrite exec_bind, Eo. apply dmem_false in Ho. by rewrite Ho. }
    rewrite Eq, exec_bind, Hsel, exec_bind. destruct vss as [|v0 vss]; [done|]. unfold bag_map. cbn [map exec]. cbn [map] in Ht. rewrite exec_bind, Ht.
    unfold write_config. rewrite exec_bind, exec_bind, exec_exists. rewrite andb_false_r. cbn [with_meta c_dir]. rewrite exec_write. done.
  Qed.

Section variable.
  Context (e : env) (c : collection) (Hr : regular e c).
  Local Notation keys := (p_keys (c_part c)).

  Lemma exec_each (g : list Z -> program unit) (Pre : list Z -> store -> Prop) (Post : list Z -> store -> store -> res unit -> Prop) : forall vs s,
    NoDup vs -> (forall v, v ∈ vs -> length v = length keys) ->
    (forall v s, v ∈ vs -> Pre v (sub (part_dir c v) s) -> exists r s', exec (g v) s = (r, s') /\
       (forall q, ~ under (part_dir c v) q -> s' !! q = s !! q) /\ Post v (sub (part_dir c v) s) (sub (part_dir c v) s') r) ->
    (forall v, v ∈ vs -> Pre v (sub (part_dir c v) s)) ->
    exists rs s', exec_all (map g vs) s = (rs, s') /\
      Forall2 (fun v r => Post v (sub (part_dir c v) s) (sub (part_dir c v) s') r) vs rs /\
      (forall q, (forall v, v ∈ vs -> ~ under (part_dir c v) q) -> s' !! q = s !! q).
  Proof.
    assert (Hap : forall v w (s s' : store), length v = length keys -> length w = length keys -> v <> w ->
              (forall q, ~ under (part_dir c v) q -> s' !! q = s !! q) -> sub (part_dir c w) s' = sub (part_dir c w) s).
    { intros v w s s' Hv Hw N H. apply map_eq. intros q. rewrite !sub_lookup. apply H. intros U. apply (parts_apart c v w Hv Hw N _ U), under_app. }
    induction vs as [|v vs IH]; intros s Hnd Hl Hg Hpre.
    - exists [], s. split; [done|]. split; [constructor|done].
    - inversion Hnd as [|? ? Hv Hnd' [E1 E2]]. subst.
      destruct (Hg v s ltac:(left) ltac:(apply Hpre; left)) as (r & s1 & E & Hout & Hpost).
      assert (Hsame : forall w, w ∈ vs -> sub (part_dir c w) s1 = sub (part_dir c w) s).
      { intros w Hw. apply (Hap v w); [apply Hl; left|apply Hl; by right| |done]. intros ->. done. }
      destruct (IH s1 Hnd') as (rs & s2 & E2 & HF & Hout2).
      + intros w Hw. apply Hl. by right.
      + intros w s' Hw. apply Hg. by right.
      + intros w Hw. rewrite Hsame by done. apply Hpre. by right.
      + exists (r :: rs), s2. split; [cbn; by rewrite E, E2|]. split.
        * constructor.
          -- replace (sub (part_dir c v) s2) with (sub (part_dir c v) s1); [done|]. apply map_eq. intros q. rewrite !sub_lookup. symmetry. apply Hout2.
             intros w Hw U. refine (parts_apart c v w _ _ _ _ (under_app _ _) U); [apply Hl; left|apply Hl; by right|]. intros ->. done.
          -- eapply Forall2_impl_l; [exact HF|]. intros w r' Hw Hp. cbn in Hp. by rewrite Hsame in Hp.
        * intros q Hq. rewrite Hout2; [apply Hout, Hq; left|]. intros w Hw. apply Hq. by right.
  Qed.

  Lemma each_transaction (G : path -> program unit) (Pre : list Z -> store -> Prop) (Post : list Z -> store -> store -> res unit -> Prop) vs s sched :
    NoDup vs -> (forall v, v ∈ vs -> length v = length keys) ->
    (forall d, within (fun _ => False) (fun q => under d q) (G d)) ->
    (forall v s, v ∈ vs -> Pre v (sub (part_dir c v) s) -> exists r s', exec (G (part_dir c v)) s = (r, s') /\
       (forall q, ~ under (part_dir c v) q -> s' !! q = s !! q) /\ Post v (sub (part_dir c v) s) (sub (part_dir c v) s') r) ->
    (forall v, v ∈ vs -> Pre v (sub (part_dir c v) s)) ->
    exists r s' rs, exec (execute_transaction CTorn sched (map G (map (part_dir c) vs))) s = (r, s') /\ r = first_error rs /\
      Forall2 (fun v r => Post v (sub (part_dir c v) s) (sub (part_dir c v) s') r) vs rs /\
      (forall q, (forall v, v ∈ vs -> ~ under (part_dir c v) q) -> s' !! q = s !! q).
  Proof.
    intros Hnd Hl Hw Hg Hpre.
    set (task := fun b : list (list Z) => match b with v :: _ => G (part_dir c v) | [] => pret tt end).
    assert (Hcat : concat (map (fun v => [v]) vs) = vs) by (clear; induction vs as [|v vs IH]; [done|cbn; by rewrite IH]).
    assert (Em : map G (map (part_dir c) vs) = map task (map (fun v => [v]) vs)) by (rewrite !map_map; done).
    assert (Em' : map task (map (fun v => [v]) vs) = map (fun v => G (part_dir c v)) vs) by (rewrite map_map; done).
    rewrite Em, (parts_transaction e c Hr task (map (fun v => [v]) vs) sched s); rewrite ?Hcat; [|done|done|].
    - rewrite Em'. destruct (exec_each (fun v => G (part_dir c v)) Pre Post vs s Hnd Hl Hg Hpre) as (rs & s' & -> & H1 & H2).
      by exists (first_error rs), s', rs.
    - intros b Hb. apply elem_of_list_In, in_map_iff in Hb as (v & <- & Hv). cbn [task]. eapply within_impl; [..|apply Hw]; [done|].
      intros q Hq. constructor. done.
  Qed.

  Lemma select_same M I s0 s : represents c M I s0 -> (forall q, (forall v, is_Some (M v) -> ~ under (part_dir c v) q) -> s !! q = s0 !! q) ->
    (forall v, is_Some (M v) -> s !! part_dir c v = None /\ directory s (part_dir c v)) ->
    exists vss, StronglySorted row_lt vss /\ (forall v, v ∈ vss <-> is_Some (M v)) /\ exec (select_parts e c NoFilter) s = (Ok (map (part_dir c) vss), s).
  Proof.
    intros Hs W1 W2. destruct (select_all e c Hr M I s0 Hs) as (vs0 & _ & Hvs0 & _).
    assert (Hlen : forall v, is_Some (M v) -> length v = length keys) by (intros v [d Hd]; by apply (rp_part _ _ _ _ Hs) in Hd as [? _]).
    assert (Hcase : forall q x, s !! q = Some x -> (exists v n f, is_Some (M v) /\ q = part_dir c v ++ n :: f) \/ s !! q = s0 !! q).
    { intros q x Eq. destruct (decide (Exists (fun v => under (part_dir c v) q) vs0)) as [X|X].
      - left. apply Exists_exists in X as (v & Hv & f & ->). apply Hvs0 in Hv. destruct f as [|n f].
        + rewrite app_nil_r in Eq. destruct (W2 v Hv) as [E _]. congruence.
        + by exists v, n, f.
      - right. apply W1. intros v Hv U. apply X, Exists_exists. exists v. split; [by apply Hvs0|done]. }
    assert (Hlay : laid_out (c_part c) (c_dir c) s).
    { intros q x E. destruct (Hcase _ _ E) as [(v & n & f & Hv & Eq)|Eq].
      - right. right. exists v, n, f. split; [by apply Hlen|]. unfold part_dir in Eq. rewrite <-app_assoc in Eq. by apply app_inv_head in Eq.
      - rewrite Eq in E. destruct (represents_laid_out c M I s0 Hs q x E) as [(m & -> & Hd)|[?|?]]; [|by right; left|by right; right].
        left. exists m. split; [done|]. intros (a & f & y & Ey). destruct (Hcase _ _ Ey) as [(v & n & f' & Hv & Eq')|Eq'].
        + destruct (represents_directory e c Hr M I s0 v Hs) as [_ Hdir]. destruct (Hdir Hv) as [_ (b & g & z & Ez)].
          unfold part_dir in Eq'. destruct (key_head e c Hr v (Hlen v Hv)) as (k & r & Ek & _). rewrite Ek in Eq', Ez.
          rewrite <-!app_assoc in Eq'. apply app_inv_head in Eq'. cbn in Eq'. injection Eq' as -> Eq'. apply Hd.
          rewrite <-app_assoc in Ez. cbn [app] in Ez. destruct r as [|a0 r].
          * exists b, g, z. rewrite <-app_assoc. done.
          * exists a0, (r ++ b :: g), z. rewrite <-app_assoc. done.
        + apply Hd. exists a, f, y. by rewrite <-Eq'. }
    destruct (list_partitions_laid_out (e_order e) (rg_order _ _ Hr) (c_part c) (c_dir c) s (rg_keys _ _ Hr) (rg_path _ _ Hr) Hlay) as (vss & E & Hso & Hv).
    assert (Hvs : forall v, v ∈ vss <-> is_Some (M v)).
    { intros v. rewrite Hv. split.
      - intros [Hl (a & f & x & Ex)]. destruct (Hcase _ _ Ex) as [(w & n & g & Hw & Eq)|Eq].
        + unfold part_dir in Eq. rewrite <-!app_assoc in Eq. apply (key_dirs_prefix (c_part c) (c_dir c) v w) in Eq as [-> _]; [done|done|by apply Hlen].
        + apply (represents_directory e c Hr M I s0 v Hs). split; [done|]. exists a, f, x. by rewrite <-Eq.
      - intros Hm. split; [by apply Hlen|]. by apply W2. }
    exists vss. split; [done|]. split; [done|].
    unfold select_parts. rewrite exec_bind, exec_get_tree, sub_root. cbn [exec]. f_equal. unfold partitions. rewrite E. cbn [rbind].
    assert (Hne : forall v, v ∈ vss -> Some (part_dir c v) <> immutable_path c).
    { intros v Hin. apply Hvs, Hlen in Hin as Hl. unfold immutable_path. destruct (c_immutable c); [|done]. intros [= Ei]. unfold part_dir in Ei.
      apply app_inv_head in Ei. destruct (key_head e c Hr v Hl) as (a & r & Ea & Ha & _). rewrite Ea in Ei. injection Ei as -> _. done. }
    change (fun v => c_dir c ++ key_dirs (c_part c) v) with (part_dir c). clear -Hne. induction vss as [|v l IH]; [done|].
    assert (IH' := IH (fun w Hw => Hne w (elem_of_list_further _ _ _ Hw))). cbn in IH' |- *.
    rewrite (bool_decide_eq_false_2 (Some (part_dir c v) = immutable_path c)) by (apply Hne; left). cbn. by rewrite IH'.
  Qed.

  Lemma represents_config M I s x : represents c M I s -> represents c M I (<[c_dir c ++ [CONFIG] := x]> s).
  Proof.
    intros Hs. apply (represents_change e c Hr M M I s); [done|done| |].
    - intros v ds E. left. split; [done|]. intros q (f & ->). apply lookup_insert_ne. intros Eq. unfold part_dir in Eq. rewrite <-app_assoc in Eq.
      apply app_inv_head in Eq. destruct (rp_part _ _ _ _ Hs _ _ E) as (Hl & _). destruct (key_head e c Hr v Hl) as (a & r & Ea & Ha & _).
      rewrite Ea in Eq. injection Eq as <- _. done.
    - intros q Hq _. by apply lookup_insert_ne.
  Qed.
  Lemma config_out M I s v : represents c M I s -> is_Some (M v) -> ~ under (part_dir c v) (c_dir c ++ [CONFIG]).
  Proof.
    intros Hs [ds E] (f & Eq). unfold part_dir in Eq. rewrite <-app_assoc in Eq.
    apply app_inv_head in Eq. destruct (rp_part _ _ _ _ Hs _ _ E) as (Hl & _). destruct (key_head e c Hr v Hl) as (a & r & Ea & Ha & _).
    rewrite Ea in Eq. injection Eq as <- _. done.
  Qed.
  Lemma immutable_out M I s v q : represents c M I s -> is_Some (M v) -> under (c_dir c ++ [IMMUTABLE]) q -> ~ under (part_dir c v) q.
  Proof.
    intros Hs [ds E] (g & ->) (f & Eq). unfold part_dir in Eq. rewrite <-!app_assoc in Eq.
    apply app_inv_head in Eq. destruct (rp_part _ _ _ _ Hs _ _ E) as (Hl & _). destruct (key_head e c Hr v Hl) as (a & r & Ea & Ha & _).
    rewrite Ea in Eq. injection Eq as <- _. done.
  Qed.
  Lemma sub_config M I s v x : represents c M I s -> is_Some (M v) -> sub (part_dir c v) (<[c_dir c ++ [CONFIG] := x]> s) = sub (part_dir c v) s.
  Proof.
    intros Hs Hv. apply map_eq. intros q. rewrite !sub_lookup. apply lookup_insert_ne. intros E. apply (config_out M I s v Hs Hv). rewrite E. apply under_app.
  Qed.

  (** The group of the immutable variables does not have the variable. *)
  Lemma immutable_names M I s0 s n q : represents c M I s0 -> (forall q, (forall v, is_Some (M v) -> ~ under (part_dir c v) q) -> s !! q = s0 !! q) ->
    (c_immutable c = true -> is_Some I) -> immutable_path c = Some q ->
    exists i o, I = Some i /\ exec (open_zarr_group q true None) s = (Ok o, s) /\ (n ∈ dkeys (d_vars o) <-> n ∈ dkeys (d_vars i)).
  Proof.
    intros Hs Ho Hi Hq. unfold immutable_path in Hq. destruct (c_immutable c); [|done]. injection Hq as <-. destruct (Hi eq_refl) as [i Ei].
    destruct (rp_immutable _ _ _ _ Hs _ Ei) as [Hso Hh]. exists i.
    assert (Esub : sub (c_dir c ++ [IMMUTABLE]) s = sub (c_dir c ++ [IMMUTABLE]) s0).
    { apply map_eq. intros q. rewrite !sub_lookup. apply Ho. intros v Hv. apply (immutable_out M I s0 v _ Hs Hv), under_app. }
    destruct (open_opens (c_dir c ++ [IMMUTABLE]) s i true None Hso) as (o & E & Hrd & _); [by rewrite Esub|]. exists o. split; [done|]. split; [done|].
    rewrite <-!dget_is_Some. split; intros [x Hx].
    - apply (reads_vars _ _ _ _ Hrd) in Hx as (_ & v0 & H0 & _). by eexists.
    - eexists. apply (reads_vars _ _ _ _ Hrd). split; [done|]. by eexists.
  Qed.

  (** ** Dropping a variable *)
  Definition lack (n : str) (ds : dataset) : dataset := with_vars ds (ddel (d_vars ds) n).
  Lemma stored_del vars n : stored_vars (ddel vars n) = ddel (stored_vars vars) n.
  Proof. unfold stored_vars. induction vars as [|[m v] vars IH]; [done|]. cbn. destruct (decide (n = m)) as [->|]; cbn; by rewrite IH. Qed.
  Lemma lack_elem n ds v : v ∈ dvals (ddel (d_vars ds) n) -> v ∈ dvals (d_vars ds).
  Proof.
    unfold dvals. induction (d_vars ds) as [|[m w] vars IH]; [done|]. cbn. destruct (decide (n = m)); cbn; intros H.
    - right. by apply IH.
    - apply elem_of_cons in H as [->|H]; [left|right; by apply IH].
  Qed.
  Lemma lack_sound n ds : sound ds -> sound (lack n ds).
  Proof.
    intros [[[P1 P2 P3 P4 P5] Hrk Hpl] Hnr]. split; [split; [split|..]|]; try done.
    - by apply ddel_NoDup.
    - intros v Hv. apply P4. exact (lack_elem n ds v Hv).
    - intros m v Hv. cbn in Hv. destruct (decide (m = n)) as [->|N]; [by rewrite dget_ddel_eq in Hv|]. rewrite dget_ddel_ne in Hv by done. by apply P5 in Hv.
    - intros v Hv. apply Hrk. exact (lack_elem n ds v Hv).
    - intros m Hm. apply Hpl. by apply ddel_elem in Hm as [_ ?].
    - intros v Hv. apply Hnr. exact (lack_elem n ds v Hv).
  Qed.
  Lemma lack_holds t n ds : holds_dataset t ds -> plain_name n -> holds_dataset (del_tree t n) (lack n ds).
  Proof.
    intros [H0 H] Hp. split.
    - unfold del_tree. rewrite lookup_insert_ne by done. rewrite prune_lookup. by destruct (decide _).
    - cbn. rewrite stored_del. by apply holds_group_del.
  Qed.
  Lemma lack_without n ds : without_variable n ds (lack n ds).
  Proof. split; [apply dget_ddel_eq|]. split; [|done]. intros m N. by apply dget_ddel_ne. Qed.

  Lemma drop_variable_spec M I s n sched : represents c M I s -> c_readonly c = false -> n ∉ p_variables (c_part c) -> n ∈ dkeys (md_vars (c_meta c)) ->
    (c_immutable c = true -> is_Some I) -> (forall i, I = Some i -> n ∉ dkeys (d_vars i)) -> plain_name n -> (exists v, is_Some (M v)) ->
    exists s', exec (drop_variable e sched c n) s = (Ok (with_meta c (md_del_variable (c_meta c) n)), s') /\
      represents c (fun v => option_map (lack n) (M v)) I s' /\
      s' !! (c_dir c ++ [CONFIG]) = Some (CConf (config_of (with_meta c (md_del_variable (c_meta c) n)))) /\
      elsewhere_same c M s s' /\ (forall v, is_Some (M v) -> sub (part_dir c v) s' = del_tree (sub (part_dir c v) s) n).
  Proof.
    intros Hs Hw Hk Hn Hi Hni Hp Hex. destruct (select_all e c Hr M I s Hs) as (vss & Hso & Hv & Hsel).
    assert (Hlen : forall v, v ∈ vss -> length v = length keys) by (intros v Hin; apply Hv in Hin as [d Hd]; by apply (rp_part _ _ _ _ Hs) in Hd as [? _]).
    destruct (each_transaction (fun q => del_zarr_array q n) (fun v t => exists ds, M v = Some ds /\ holds_dataset t ds)
       (fun v t t' r => r = Ok tt /\ t' = del_tree t n) vss s sched) as (r & s2 & rs & Et & Er & HF & Hout).
    - by apply sorted_nodup_rows.
    - done.
    - intros d. by apply within_del_array.
    - intros v s1 Hin (ds & E & Hh). destruct (del_array_spec (part_dir c v) n s1 _ _ (proj2 Hh) Hp) as (s1' & E1 & Es). exists (Ok tt), s1'. split; [done|]. subst s1'. split.
      + intros q Hq. rewrite graft_lookup_out by done. rewrite prune_lookup, decide_False; done.
      + split; [done|]. apply sub_graft_prune.
    - intros v Hin. apply Hv in Hin as [d Hd]. exists d. split; [done|]. by apply (rp_part _ _ _ _ Hs) in Hd as (_ & _ & ?).
    - assert (exists l, first_error rs = Ok l) as [l El].
      { exists (map (fun _ => tt) vss). apply first_error_Ok. clear -HF. induction HF as [|v r vs rs [-> _] _ IH]; [done|]. cbn. by rewrite IH. }
      rewrite El in Er. subst r.
      exists (<[c_dir c ++ [CONFIG] := CConf (config_of (with_meta c (md_del_variable (c_meta c) n)))]> s2). split.
      { apply (drop_steps_at e c s vss l); try done.
        - intros q Hq. destruct (immutable_names M I s s n q Hs (fun _ _ => eq_refl) Hi Hq) as (i & o & Ei & Eo & Hno). exists o. split; [done|]. rewrite Hno. by apply Hni.
        - intros ->. destruct Hex as [v Hm]. apply Hv in Hm. by apply elem_of_nil in Hm. }
      assert (Hpart : forall v, is_Some (M v) -> sub (part_dir c v) (<[c_dir c ++ [CONFIG] := CConf (config_of (with_meta c (md_del_variable (c_meta c) n)))]> s2) = del_tree (sub (part_dir c v) s) n).
      { intros v Hm. apply Hv in Hm as Hin. destruct (Forall2_elem_l _ _ _ _ HF Hin) as (r & _ & _ & Ed). rewrite <-Ed.
        apply map_eq. intros q. rewrite !sub_lookup. apply lookup_insert_ne. intros E. apply (config_out M I s v Hs Hm). rewrite E. apply under_app. }
      assert (Hels : elsewhere_same c M s (<[c_dir c ++ [CONFIG] := CConf (config_of (with_meta c (md_del_variable (c_meta c) n)))]> s2)).
      { intros q Nq Hq. rewrite lookup_insert_ne by done. apply Hout. intros v Hin. apply Hq. by apply Hv. }
      split; [|split; [by rewrite lookup_insert|by split]].
      apply (represents_change e c Hr M _ I s); [done| | |done].
      + intros v. destruct (M v); cbn; split; intros [? ?]; by eexists || done.
      + intros v ds E. right. destruct (M v) as [old|] eqn:Em; [|done]. injection E as <-. destruct (rp_part _ _ _ _ Hs _ _ Em) as (_ & Hsd & Hh).
        split; [by apply lack_sound|]. rewrite Hpart by (by eexists). by apply lack_holds.
  Qed.

  (** ** Adding a variable *)
  Definition fresh (v : mvar) (delayed : bool) (shape : list nat) : variable :=
    Var (mv_name v) delayed (full shape (default (Num 0) (mv_fill v))) (mv_dtype v) (mv_dims v) [] (mv_compressor v) (mv_fill v) (mv_filters v).
  Definition grow (v : mvar) (template : str) (ds : dataset) : dataset :=
    match dget (d_vars ds) template with
    | Some w => with_vars ds (d_vars ds ++ [(mv_name v, fresh v (d_delayed ds) (v_shape w))])
    | None => ds
    end.
  Definition added (v : mvar) : mdataset :=
    MDataset (md_dims (c_meta c)) (md_vars (c_meta c) ++ [(mv_name v, v)]) (md_attrs (c_meta c)) (md_chunks (c_meta c)) (md_block (c_meta c)).

  Lemma grow_get v template ds w n : dget (d_vars ds) template = Some w -> mv_name v ∉ dkeys (d_vars ds) ->
    dget (d_vars (grow v template ds)) n = if decide (n = mv_name v) then Some (fresh v (d_delayed ds) (v_shape w)) else dget (d_vars ds) n.
  Proof.
    intros E Hn. unfold grow. rewrite E. cbn. rewrite dget_app. cbn. destruct (decide (n = mv_name v)) as [->|N].
    - apply dget_None in Hn. by rewrite Hn.
    - destruct (dget (d_vars ds) n) eqn:E'; [done|]. by rewrite ?decide_False.
  Qed.
  Lemma grow_sound v template ds w : sound ds -> dget (d_vars ds) template = Some w -> v_dims w = mv_dims v -> mv_name v ∉ dkeys (d_vars ds) -> plain_name (mv_name v) ->
    sound (grow v template ds).
  Proof.
    intros [[[P1 P2 P3 P4 P5] Hrk Hpl] Hnr] E Hd Hn Hp.
    assert (Hw : w ∈ dvals (d_vars ds)) by (eapply vals_elem; by apply dget_elem).
    pose proof (fun n => grow_get v template ds w n E Hn) as Hget.
    assert (Hin : forall x, x ∈ dvals (d_vars (grow v template ds)) -> x ∈ dvals (d_vars ds) \/ x = fresh v (d_delayed ds) (v_shape w)).
    { unfold grow. rewrite E. intros x Hx. cbn in Hx. unfold dvals in Hx. rewrite map_app in Hx. apply elem_of_app in Hx as [Hx|Hx]; [by left|]. cbn in Hx.
      apply elem_of_list_singleton in Hx. by right. }
    assert (Hkeys : dkeys (d_vars (grow v template ds)) = dkeys (d_vars ds) ++ [mv_name v]).
    { unfold grow. rewrite E. unfold dkeys. cbn. by rewrite map_app. }
    split; [split; [split|..]|].
    - rewrite Hkeys. apply NoDup_app. split; [done|]. split; [|apply NoDup_singleton]. intros x Hx Hx'. apply elem_of_list_singleton in Hx' as ->. done.
    - unfold grow. by rewrite E.
    - unfold grow. by rewrite E.
    - intros x Hx. apply Hin in Hx as [Hx| ->]; [by apply P4|]. apply tabulate_wf.
    - intros n x Hx. rewrite Hget in Hx. assert (d_delayed (grow v template ds) = d_delayed ds) as -> by (unfold grow; by rewrite E).
      assert (d_dims (grow v template ds) = d_dims ds) as -> by (unfold grow; by rewrite E).
      destruct (decide (n = mv_name v)) as [->|N]; [|by apply P5]. injection Hx as <-. split; [done|]. split; [done|].
      destruct (P5 _ _ E) as (_ & _ & Hsz). intros k d Hk. cbn in Hk. rewrite <-Hd in Hk. apply (Hsz k d Hk).
    - intros x Hx. apply Hin in Hx as [Hx| ->]; [by apply Hrk|]. cbn. rewrite <-Hd. by apply Hrk.
    - intros n Hx. rewrite Hkeys in Hx. apply elem_of_app in Hx as [Hx|Hx]; [by apply Hpl|]. by apply elem_of_list_singleton in Hx as ->.
    - intros x Hx. apply Hin in Hx as [Hx| ->]; [by apply Hnr|]. cbn. rewrite <-Hd. by apply Hnr.
  Qed.
  Lemma grow_holds t v template ds w cs : holds_dataset t ds -> dget (d_vars ds) template = Some w -> mv_name v ∉ dkeys (d_vars ds) -> plain_name (mv_name v) ->
    chunked (v_shape w) cs -> (forall q, under [mv_name v] q -> t !! q = None) ->
    holds_dataset (add_tree t (mv_set_for_insertion v) (v_shape w) cs) (grow v template ds).
  Proof.
    intros [H0 H] E Hn Hp Hc Hno. split.
    - unfold add_tree. rewrite !lookup_insert_ne by done. done.
    - unfold grow. rewrite E. cbn [d_attrs d_vars with_vars].
      assert (Hg : holds_group (add_tree t (mv_set_for_insertion v) (v_shape w) cs) (dict_of (d_attrs ds)) (stored_vars (d_vars ds) ++ [(mv_name v, new_var (mv_set_for_insertion v) (v_shape w))])).
      { refine (holds_group_add t _ _ (mv_set_for_insertion v) (v_shape w) cs H Hp _ Hc Hno). by rewrite keys_stored. }
      assert (Es : stored_vars (d_vars ds ++ [(mv_name v, fresh v (d_delayed ds) (v_shape w))]) = stored_vars (d_vars ds) ++ [(mv_name v, fresh v (d_delayed ds) (v_shape w))]).
      { unfold stored_vars. rewrite map_app. done. }
      rewrite Es. assert (Hne : mv_name v ∉ dkeys (stored_vars (d_vars ds))) by (by rewrite keys_stored).
      destruct Hg as [G1 G2 G3 G4 G5 G6 G7]. split; try done.
      + unfold dkeys in *. rewrite map_app in *. exact G5.
      + intros n x Hx. rewrite dget_app in Hx. destruct (dget (stored_vars (d_vars ds)) n) as [y|] eqn:Ey.
        * injection Hx as <-. apply (G6 n y). by rewrite dget_app, Ey.
        * cbn in Hx. destruct (decide (n = mv_name v)) as [->|N]; [|done]. injection Hx as <-.
          destruct (G6 (mv_name v) (new_var (mv_set_for_insertion v) (v_shape w))) as (K1 & K2 & [K3 K4]).
          { rewrite dget_app, Ey. cbn. by rewrite decide_True. }
          split; [done|]. split; [done|]. split; [exact K3|exact K4].
      + intros n x Hx. apply G7 in Hx. unfold dkeys in *. rewrite map_app in *. done.
  Qed.
  Lemma grow_with v template ds w : sound ds -> dget (d_vars ds) template = Some w -> v_dims w = mv_dims v -> mv_name v ∉ dkeys (d_vars ds) ->
    with_variable v ds (grow v template ds).
  Proof.
    intros [[Hp Hrk _] Hnr] E Hd Hn. pose proof (fun n => grow_get v template ds w n E Hn) as Hget. split; [|split].
    - exists (fresh v (d_delayed ds) (v_shape w)). split; [by rewrite Hget, decide_True|].
      assert (Hw : w ∈ dvals (d_vars ds)) by (eapply vals_elem; by apply dget_elem).
      split; try done.
      + split; [apply tabulate_wf|]. unfold v_shape at 1. cbn. rewrite <-Hd. symmetry. by apply Hrk.
      + intros f x Hf Hx. cbn in Hx. rewrite Hf in Hx. cbn in Hx. by apply elem_of_list_In, in_map_iff in Hx as (? & <- & _).
      + intros n u k j d Hu Hk Hj. cbn in Hj. rewrite <-Hd in Hj. destruct (proper_consistent _ Hp _ _ Hu) as (_ & _ & H1). destruct (proper_consistent _ Hp _ _ E) as (_ & _ & H2).
        destruct (H1 k d Hk) as (a & -> & Ha). destruct (H2 j d Hj) as (b & Hb & Hb'). unfold v_shape at 1. cbn. rewrite Hb. congruence.
    - intros n N. by rewrite Hget, decide_False.
    - unfold grow. by rewrite E.
  Qed.

  Lemma add_metadata v : mv_name v ∉ dkeys (md_vars (c_meta c)) -> (forall d, d ∈ mv_dims v -> d ∈ md_dims (c_meta c)) ->
    md_add_variable (c_meta c) v = Ok (added v).
  Proof.
    intros Hn Hd. unfold md_add_variable. assert (dmem (md_vars (c_meta c)) (mv_name v) = false) as -> by (by apply dmem_false).
    assert (forallb (fun d => memb d (md_dims (c_meta c))) (mv_dims v) = true) as ->.
    { apply forallb_forall. intros d Hin. apply bool_decide_eq_true. apply Hd. by apply elem_of_list_In. }
    cbn. unfold added. by rewrite dset_new.
  Qed.
  Lemma del_added v : mv_name v ∉ dkeys (md_vars (c_meta c)) -> with_meta (with_meta c (added v)) (md_del_variable (added v) (mv_name v)) = c.
  Proof.
    intros Hn. unfold md_del_variable, added, with_meta. destruct c as [a [d vs at_ ch bl] p di dm im ro]. cbn in *. f_equal. f_equal.
    clear -Hn. induction vs as [|[m w] vs IH]; cbn.
    - by rewrite decide_True.
    - cbn in Hn. apply not_elem_of_cons in Hn as [N Hn]. rewrite decide_False by done. by rewrite IH.
  Qed.
  Lemma find_template v : declared c -> mv_name v ∉ dkeys (md_vars (c_meta c)) -> plain_name (mv_name v) ->
    exists tm, md_search_same_dimensions_as (added v) (mv_set_for_insertion v) = Ok tm /\ mv_dims tm = mv_dims v /\
      (dget (md_vars (c_meta c)) (mv_name tm) = Some tm \/ (tm = v /\ forall n mv, dget (md_vars (c_meta c)) n = Some mv -> mv_dims mv <> mv_dims v)).
  Proof.
    intros Hdc Hn Hp. unfold md_search_same_dimensions_as, added. cbn [md_vars mv_dims mv_set_for_insertion]. unfold dvals. rewrite map_app. cbn.
    set (f := fun w => bool_decide (mv_dims w = mv_dims v)).
    assert (Hf : forall l, List.find f (l ++ [v]) = match List.find f l with Some x => Some x | None => Some v end).
    { intros l. induction l as [|x l IH]; cbn; [unfold f; by rewrite bool_decide_eq_true_2|]. destruct (f x); [done|apply IH]. }
    rewrite Hf. destruct (List.find f (map snd (md_vars (c_meta c)))) as [tm|] eqn:Ef.
    - apply find_some in Ef as [Hin Hd]. apply bool_decide_eq_true in Hd. exists tm. split; [done|]. split; [done|]. left.
      apply in_map_iff in Hin as ([n mv] & <- & Hin). cbn. apply elem_of_list_In in Hin. apply (elem_dget _ _ _ (dc_nodup _ Hdc)) in Hin.
      by destruct (dc_name _ Hdc _ _ Hin) as [-> _].
    - exists v. split; [done|]. split; [done|]. right. split; [done|]. intros n mv Hmv Hd. apply dget_elem in Hmv.
      pose proof (find_none _ _ Ef mv) as Hx. unfold f in Hx. rewrite (proj2 (bool_decide_eq_true _) Hd) in Hx. assert (true = false); [|done]. apply Hx. apply in_map_iff.
      exists (n, mv). split; [done|]. by apply elem_of_list_In.
  Qed.

  Lemma add_variable_spec M I s v sched sched' : declared c -> complete c M -> uniform c M I -> represents c M I s -> c_readonly c = false ->
    c_dim c ∈ mv_dims v -> (forall d, d ∈ mv_dims v -> d ∈ md_dims (c_meta c)) -> mv_name v ∉ dkeys (md_vars (c_meta c)) -> plain_name (mv_name v) ->
    (exists n mv, dget (md_vars (c_meta c)) n = Some mv /\ mv_dims mv = mv_dims v) -> (exists values, is_Some (M values)) ->
    (forall values q, is_Some (M values) -> under (part_dir c values ++ [mv_name v]) q -> s !! q = None) ->
    exists s' template, exec (add_variable e sched sched' c v) s = (Ok (with_meta c (added v), None), s') /\
      (forall values ds, M values = Some ds -> exists w, dget (d_vars ds) template = Some w /\ v_dims w = mv_dims v /\ mv_name v ∉ dkeys (d_vars ds) /\
         sub (part_dir c values) s' = add_tree (sub (part_dir c values) s) (mv_set_for_insertion v) (v_shape w) (add_chunks (md_chunks (c_meta c)) v (v_shape w))) /\
      represents c (fun values => option_map (grow v template) (M values)) I s' /\
      s' !! (c_dir c ++ [CONFIG]) = Some (CConf (config_of (with_meta c (added v)))) /\ elsewhere_same c M s s'.
  Proof.
    intros Hdc Hcm Hu Hs Hw Hd Hdims Hn Hp (n0 & mv0 & Hmv0 & Hd0) Hex Hno.
    destruct (find_template v Hdc Hn Hp) as (tm & Etm & Hdt & [Htm|[_ Habs]]); [|exfalso; by eapply Habs].
    set (c1 := with_meta c (added v)). set (s1 := <[c_dir c ++ [CONFIG] := CConf (config_of c1)]> s).
    assert (Hs1 : represents c M I s1) by (by apply represents_config).
    destruct (select_all e c Hr M I s1 Hs1) as (vss & Hso & Hv & Hsel).
    assert (Hlen : forall v, v ∈ vss -> length v = length keys) by (intros x Hin; apply Hv in Hin as [d Hdd]; by apply (rp_part _ _ _ _ Hs) in Hdd as [? _]).
    assert (Htmpl : forall values ds, M values = Some ds -> exists w, dget (d_vars ds) (mv_name tm) = Some w /\ v_dims w = mv_dims v /\ mv_name v ∉ dkeys (d_vars ds)).
    { intros values ds E. destruct (Hcm values ds (mv_name tm) tm E Htm) as (w & Hwd & Hdw); [by rewrite Hdt|]. exists w. split; [done|]. split; [by rewrite Hdw|].
      intros Hin. apply Hn. by apply (un_declared _ _ _ Hu values ds). }
    assert (Hclear : forall values, is_Some (M values) -> forall q, under [mv_name v] q -> sub (part_dir c values) s !! q = None).
    { intros values Hm q (f & ->). rewrite sub_lookup. apply (Hno values); [done|]. exists f. by rewrite <-app_assoc. }
    set (cut := fun w : variable => add_chunks (md_chunks (c_meta c)) v (v_shape w)).
    destruct (each_transaction (fun q => add_zarr_array q (mv_set_for_insertion v) (mv_name tm) (md_chunks (added v)))
       (fun values t => exists ds, M values = Some ds /\ holds_dataset t ds /\ forall q, under [mv_name v] q -> t !! q = None)
       (fun values t t' r => r = Ok tt /\ exists ds w, M values = Some ds /\ dget (d_vars ds) (mv_name tm) = Some w /\ t' = add_tree t (mv_set_for_insertion v) (v_shape w) (cut w)) vss s1 sched)
      as (r & s2 & rs & Et & Er & HF & Hout).
    - by apply sorted_nodup_rows.
    - done.
    - intros d. by apply within_add_array.
    - intros values s3 Hin (ds & E & Hh & Hc). destruct (Htmpl values ds E) as (w & Hwd & Hdw & _).
      pose proof (add_array_spec (part_dir c values) s3 _ _ (mv_set_for_insertion v) (mv_name tm) (stored w) (md_chunks (added v)) (proj2 Hh)) as Ea.
      rewrite dget_stored, Hwd in Ea. specialize (Ea eq_refl Hp). rewrite Ea.
      2:{ intros q (f & ->). rewrite <-app_assoc, <-sub_lookup. apply Hc. by exists f. }
      eexists _, _. split; [reflexivity|]. split.
      + intros q Hq. rewrite graft_lookup_out by done. rewrite prune_lookup, decide_False; done.
      + split; [done|]. exists ds, w. split; [done|]. split; [done|]. by rewrite sub_graft_prune.
    - intros values Hin. apply Hv in Hin as Hm. pose proof Hm as [d Hdd]. exists d. split; [done|]. split; [by apply (rp_part _ _ _ _ Hs1) in Hdd as (_ & _ & ?)|].
      unfold s1. rewrite (sub_config M I s) by done. by apply Hclear.
    - assert (exists l, first_error rs = Ok l) as [l El].
      { exists (map (fun _ => tt) vss). apply first_error_Ok. clear -HF. induction HF as [|x r vs rs [-> _] _ IH]; [done|]. cbn. by rewrite IH. }
      rewrite El in Er. subst r. exists s2, (mv_name tm).
      assert (Hpart : forall values ds, M values = Some ds -> exists w, dget (d_vars ds) (mv_name tm) = Some w /\ v_dims w = mv_dims v /\ mv_name v ∉ dkeys (d_vars ds) /\
         sub (part_dir c values) s2 = add_tree (sub (part_dir c values) s) (mv_set_for_insertion v) (v_shape w) (cut w)).
      { intros values ds E. destruct (Htmpl values ds E) as (w & Hwd & Hdw & Hnn). exists w. split; [done|]. split; [done|]. split; [done|].
        assert (Hin : values ∈ vss) by (apply Hv; by eexists). destruct (Forall2_elem_l _ _ _ _ HF Hin) as (r & _ & _ & ds' & w' & E' & Hw' & ->).
        unfold s1. rewrite (sub_config M I s) by (done || by eexists). assert (w' = w) as -> by congruence. done. }
      split; [|split; [done|split; [|split]]].
      + unfold add_variable. rewrite Hw. assert (memb (c_dim c) (mv_dims v) = true) as -> by (by apply bool_decide_eq_true). cbn [negb].
        rewrite exec_bind, add_metadata by done. cbn [exec]. fold c1. rewrite exec_bind. unfold write_config. rewrite exec_bind, exec_exists, andb_false_r.
        change (c_dir c1) with (c_dir c). rewrite exec_write. fold s1. rewrite Etm, exec_bind, exec_attempt, exec_bind.
        change (select_parts e c1 NoFilter) with (select_parts e c NoFilter). rewrite Hsel, exec_bind.
        destruct vss as [|v0 vss]; [destruct Hex as [x Hx]; apply Hv in Hx; by apply elem_of_nil in Hx|]. unfold bag_map. cbn [map exec]. cbn [map] in Et. rewrite Et. done.
      + apply (represents_change e c Hr M _ I s1); [done| | |].
        * intros x. destruct (M x); cbn; split; intros [? ?]; by eexists || done.
        * intros x ds E. right. destruct (M x) as [old|] eqn:Em; [|done]. injection E as <-. destruct (rp_part _ _ _ _ Hs _ _ Em) as (_ & Hsd & Hh).
          destruct (Hpart x old Em) as (w & Hwd & Hdw & Hnn & ->). split; [by eapply grow_sound|]. apply grow_holds; try done.
          -- apply add_chunks_ok. rewrite <-Hdw. apply (storable_rank _ (sound_storable _ Hsd)). eapply vals_elem. by apply dget_elem.
          -- apply Hclear. by eexists.
        * intros q _ Hq. apply Hout. intros x Hx. apply Hq. by apply Hv.
      + rewrite Hout; [by unfold s1; rewrite lookup_insert|]. intros x Hx. apply (config_out M I s x Hs). by apply Hv.
      + intros q Nq Hq. rewrite Hout; [unfold s1; by rewrite lookup_insert_ne|]. intros x Hx. apply Hq. by apply Hv.
  Qed.

  (** ** An addition that fails *)
  Lemma add_variable_fails M I s0 s v sched sched' : declared c -> complete c M -> uniform c M I -> represents c M I s0 ->
    with_leftovers c M (mv_name v) s0 s -> plain_name (mv_name v) -> (exists values, is_Some (M values)) ->
    match exec (add_variable e sched sched' c v) s with
    | (Raise _, s') => s' = s
    | (Ok (c', Some _), s') => c' = c /\ s' = <[c_dir c ++ [CONFIG] := CConf (config_of c)]> s0
    | (Ok (c', None), _) => c' = with_meta c (added v)
    end.
  Proof.
    intros Hdc Hcm Hu Hs [W1 W2] Hp Hex. unfold add_variable. destruct (c_readonly c) eqn:Hw; [done|].
    destruct (memb (c_dim c) (mv_dims v)) eqn:Hd; [|done]. cbn [negb]. apply bool_decide_eq_true in Hd. rewrite exec_bind.
    destruct (md_add_variable (c_meta c) v) as [m|ex] eqn:Em; [|done]. cbn [exec].
    assert (mv_name v ∉ dkeys (md_vars (c_meta c)) /\ m = added v) as [Hn ->].
    { unfold md_add_variable in Em. destruct (dmem (md_vars (c_meta c)) (mv_name v)) eqn:Hn; [done|]. apply dmem_false in Hn.
      destruct (forallb _ _); [|done]. cbn in Em. injection Em as <-. split; [done|]. unfold added. by rewrite dset_new. }
    set (c1 := with_meta c (added v)). set (s1 := <[c_dir c ++ [CONFIG] := CConf (config_of c1)]> s).
    rewrite exec_bind. unfold write_config at 1. rewrite exec_bind, exec_exists, andb_false_r. change (c_dir c1) with (c_dir c). rewrite exec_write. fold s1.
    destruct (find_template v Hdc Hn Hp) as (tm & -> & Hdt & Htm).
    set (s0' := <[c_dir c ++ [CONFIG] := CConf (config_of c1)]> s0). assert (Hs0 : represents c M I s0') by (by apply represents_config).
    set (n := mv_name v) in *.
    assert (Hcfg : forall values q, is_Some (M values) -> under (part_dir c values) q -> q <> c_dir c ++ [CONFIG]).
    { intros values q Hm U ->. by apply (config_out M I s0 values Hs Hm). }
    assert (Hup : forall values q, under (part_dir c values ++ [n]) q -> under (part_dir c values) q) by (intros values q U; eapply under_trans; [apply under_app|done]).
    assert (Hout1 : forall q, (forall v, is_Some (M v) -> ~ under (part_dir c v) q) -> s1 !! q = s0' !! q).
    { intros q Hq. unfold s1, s0'. destruct (decide (q = c_dir c ++ [CONFIG])) as [->|N]; [by rewrite !lookup_insert|]. rewrite !lookup_insert_ne by done.
      apply W2. intros values Hm U. apply (Hq values Hm). by apply Hup. }
    assert (Hin1 : forall values, is_Some (M values) -> (forall q, under [n] q -> sub (part_dir c values) s0 !! q = None) /\
              (forall q, ~ under [n] q -> sub (part_dir c values) s1 !! q = sub (part_dir c values) s0 !! q)).
    { intros values Hm. split; intros q Hq; rewrite !sub_lookup.
      - apply (W1 values); [done|]. destruct Hq as (f & ->). exists f. by rewrite <-app_assoc.
      - unfold s1. rewrite lookup_insert_ne by (intros E; eapply Hcfg; [done| |symmetry; exact E]; apply under_app). apply W2. intros values' Hm' U.
        destruct (decide (values' = values)) as [->|N].
        + apply Hq. destruct U as (f & U). rewrite <-app_assoc in U. apply app_inv_head in U as ->. by exists f.
        + destruct Hm as [d1 H1], Hm' as [d2 H2]. destruct (rp_part _ _ _ _ Hs _ _ H1) as (Hl1 & _). destruct (rp_part _ _ _ _ Hs _ _ H2) as (Hl2 & _).
          refine (parts_apart c values' values Hl2 Hl1 N _ _ (under_app _ _)). by apply Hup. }
    assert (Hgrp : forall values, is_Some (M values) -> exists ds, M values = Some ds /\ holds_dataset (sub (part_dir c values) s0) ds).
    { intros values [ds E]. exists ds. split; [done|]. by apply (rp_part _ _ _ _ Hs) in E as (_ & _ & ?). }
    assert (Hne : forall x, x ∈ [ZARRAY; ZATTRS; ZGROUP; ZMETADATA] -> n <> x) by (intros x Hx E; apply Hp; by rewrite E).
    (* what a partition with a residue looks like *)
    assert (Hdir : forall values (u : store), is_Some (M values) -> residue (sub (part_dir c values) s0) n (sub (part_dir c values) u) ->
              u !! part_dir c values = None /\ directory u (part_dir c values)).
    { intros values u Hm [R _]. destruct (Hgrp values Hm) as (ds & _ & H0 & Hg). split.
      - rewrite <-(app_nil_r (part_dir c values)), <-sub_lookup. rewrite R; [done| |done]. intros (f & E). done.
      - exists ZGROUP, [], (CMeta MGroup). rewrite <-sub_lookup. rewrite R; [apply Hg| |done]. intros (f & E). injection E as E _. eapply Hne; [|symmetry; exact E]. set_solver. }
    assert (Hres1 : forall values, is_Some (M values) -> residue (sub (part_dir c values) s0) n (sub (part_dir c values) s1)).
    { intros values Hm. destruct (Hin1 values Hm). by apply leftover_residue. }
    destruct (select_same M I s0' s1 Hs0 Hout1) as (vss & Hso & Hv & Hsel).
    { intros values Hm. apply Hdir; [done|by apply Hres1]. }
    assert (Hlen : forall v, v ∈ vss -> length v = length keys) by (intros x Hin; apply Hv in Hin as [d Hdd]; by apply (rp_part _ _ _ _ Hs) in Hdd as [? _]).
    assert (Hne0 : vss <> []).
    { intros ->. destruct Hex as [x Hx]. apply Hv in Hx. by apply elem_of_nil in Hx. }
    rewrite exec_bind, exec_attempt, exec_bind. change (select_parts e c1 NoFilter) with (select_parts e c NoFilter). rewrite Hsel, exec_bind.
    assert (Ebag : forall B (g : path -> B), bag_map (map (part_dir c) vss) g = Ok (map g (map (part_dir c) vss))) by (intros B g; destruct vss; done).
    rewrite Ebag. cbn [exec].
    destruct (each_transaction (fun q => add_zarr_array q (mv_set_for_insertion v) (mv_name tm) (md_chunks (added v)))
       (fun values t => is_Some (M values) /\ forall q, ~ under [n] q -> t !! q = sub (part_dir c values) s0 !! q)
       (fun values t t' r => residue (sub (part_dir c values) s0) n t') vss s1 sched)
      as (r & s2 & rs & Et & Er & HF & Hout).
    - by apply sorted_nodup_rows.
    - done.
    - intros d. by apply within_add_array.
    - intros values u Hin [Hm Hu0]. destruct (Hgrp values Hm) as (ds & Eds & H0 & Hg). destruct (Hin1 values Hm) as [Ha _].
      destruct (add_residue (part_dir c values) u (sub (part_dir c values) s0) _ _ (mv_set_for_insertion v) (mv_name tm) (md_chunks (added v)) Hg Hp Ha Hu0) as (r & u' & Eu & Ho & Hres).
      + destruct Htm as [Htm|[-> _]]; [right|by left]. destruct (Hcm values ds (mv_name tm) tm Eds Htm) as (w & Hwd & _); [by rewrite Hdt|].
        rewrite keys_stored. apply dget_is_Some. by eexists.
      + by exists r, u'.
    - intros values Hin. apply Hv in Hin. split; [done|]. by apply Hin1.
    - rewrite Et. cbn [fst snd]. destruct r as [l|ex]; [done|]. rewrite exec_bind, exec_attempt.
      assert (Hres2 : forall values, is_Some (M values) -> residue (sub (part_dir c values) s0) n (sub (part_dir c values) s2)).
      { intros values Hm. apply Hv in Hm. by destruct (Forall2_elem_l _ _ _ _ HF Hm) as (_ & _ & ?). }
      assert (Hout2 : forall q, (forall v, is_Some (M v) -> ~ under (part_dir c v) q) -> s2 !! q = s0' !! q).
      { intros q Hq. rewrite Hout; [by apply Hout1|]. intros x Hx. apply Hq. by apply Hv. }
      destruct (select_same M I s0' s2 Hs0 Hout2) as (vs2 & Hso2 & Hv2 & Hsel2).
      { intros values Hm. apply Hdir; [done|by apply Hres2]. }
      assert (vs2 = vss) as ->.
      { apply (sorted_rows_unique (length keys)); try done.
        - intros x Hx. apply Hlen. by apply Hv, Hv2.
        - intros x. by rewrite Hv, Hv2. }
      destruct (each_transaction (fun q => del_zarr_array q n)
         (fun values t => is_Some (M values) /\ residue (sub (part_dir c values) s0) n t)
         (fun values t t' r => r = Ok tt /\ t' = sub (part_dir c values) s0) vss s2 sched')
        as (r3 & s3 & rs3 & Et3 & Er3 & HF3 & Hout3).
      { by apply sorted_nodup_rows. }
      { done. }
      { intros d. by apply within_del_array. }
      { intros values u Hin [Hm Hru]. destruct (Hgrp values Hm) as (ds & Eds & H0 & Hg). destruct (Hin1 values Hm) as [Ha _].
        eexists _, _. split; [apply (del_residue (part_dir c values) n u _ _ _ Hg Hp Ha Hru)|]. split.
        - intros q Hq. rewrite graft_lookup_out by done. rewrite prune_lookup, decide_False; done.
        - split; [done|]. apply sub_graft_prune. }
      { intros values Hin. apply Hv in Hin. split; [done|by apply Hres2]. }
      assert (exists l, first_error rs3 = Ok l) as [l El].
      { exists (map (fun _ => tt) vss). apply first_error_Ok. clear -HF3. induction HF3 as [|x r vs rs [-> _] _ IH]; [done|]. cbn. by rewrite IH. }
      rewrite El in Er3. subst r3.
      assert (Ed : exec (drop_variable e sched' c1 (mv_name v)) s2 = (Ok (with_meta c1 (md_del_variable (c_meta c1) n)), <[c_dir c1 ++ [CONFIG] := CConf (config_of (with_meta c1 (md_del_variable (c_meta c1) n)))]> s3)).
      { apply (drop_steps_at e c1 s2 vss l s3 n sched'); try done.
        - intros Hk. apply (dc_keys _ Hdc) in Hk as (mv & Hmv & _). apply Hn. apply dget_is_Some. by eexists.
        - cbn. unfold dkeys. rewrite map_app. apply elem_of_app. right. left.
        - intros q Hq. change (immutable_path c1) with (immutable_path c) in Hq.
          destruct (immutable_names M I s0' s2 n q Hs0 Hout2 (fun Hc => un_immutable _ _ _ Hu Hc Hex) Hq) as (i & o & Ei & Eo & Hno).
          exists o. split; [done|]. rewrite Hno. intros Hni. apply Hn. by apply (un_fixed_declared _ _ _ Hu i). }
      change (mv_name (mv_set_for_insertion v)) with n. fold n in Ed. rewrite Ed. cbn [fst snd exec pret]. cbn [c_meta c1 with_meta]. change (with_meta c1 (md_del_variable (added v) n)) with (with_meta (with_meta c (added v)) (md_del_variable (added v) (mv_name v))).
      rewrite del_added by done. split; [done|]. change (c_dir c1) with (c_dir c).
      apply map_eq. intros q. destruct (decide (q = c_dir c ++ [CONFIG])) as [->|N]; [by rewrite !lookup_insert|]. rewrite !lookup_insert_ne by done.
      destruct (decide (Exists (fun x => under (part_dir c x) q) vss)) as [X|X].
      + apply Exists_exists in X as (x & Hx & f & ->). destruct (Forall2_elem_l _ _ _ _ HF3 Hx) as (_ & _ & _ & E). rewrite <-!sub_lookup. by rewrite E.
      + assert (Hq : forall x, x ∈ vss -> ~ under (part_dir c x) q) by (intros x Hx U; apply X, Exists_exists; by exists x).
        rewrite Hout3 by done. rewrite Hout2 by (intros x Hx; apply Hq; by apply Hv). unfold s0'. by rewrite lookup_insert_ne.
  Qed.
End variable.
