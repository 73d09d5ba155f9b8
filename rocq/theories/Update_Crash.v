(** * What an interrupted update leaves, and what a second call does *)
From Verif Require Import Py Dict NdArray_Model NdArray_Spec NdArray_Proofs Dataset_Model Dataset_Spec Meta_Model PartPath_Model PartPath_Proofs
  Split_Spec DaskUtils_Model DaskUtils_Proofs FS_Model FS_Proofs Pool_Model Pool_Proofs Storage_Model Storage_Chunks Storage_Spec Storage_Proofs
  Listing_Model Listing_Spec Listing_Proofs Collection_Model Collection_Spec Collection_Split Collection_Proofs Collection_State Collection_Select Crash_Spec Collection_Crash
  Update_Model Update_Spec Storage_Change Update_State Update_Proofs.

(** ** Programs whose writes do not depend on the files of a region *)
Definition agree_out (W : path -> Prop) (s u : store) : Prop := forall q, ~ W q -> u !! q = s !! q.
Definition writes (l : list (path * content)) (u : store) : store := fold_left (fun u qx => <[qx.1 := qx.2]> u) l u.
(** The states while the files [l] are written, one after the other. *)
Definition midway (l : list (path * content)) (u u' : store) : Prop :=
  exists k, u' = writes (take k l) u \/ exists q x, l !! k = Some (q, x) /\ u' = <[q := CTorn]> (writes (take k l) u).
Lemma writes_app l k u : writes (l ++ k) u = writes k (writes l u).
Proof. apply fold_left_app. Qed.
Lemma writes_cons q x l u : writes ((q, x) :: l) u = writes l (<[q := x]> u).
Proof. done. Qed.
Lemma writes_out l : forall u q, q ∉ map fst l -> writes l u !! q = u !! q.
Proof.
  induction l as [|[p y] l IH]; intros u q H; [done|]. cbn [map fst] in H. rewrite writes_cons, IH by (intros Hx; apply H; by right).
  rewrite lookup_insert_ne; [done|]. intros ->. apply H. left.
Qed.
Lemma writes_either l : forall u q, writes l u !! q = u !! q \/ exists x, (q, x) ∈ l /\ writes l u !! q = Some x.
Proof.
  induction l as [|[p y] l IH]; intros u q; [by left|]. rewrite writes_cons. destruct (IH (<[p := y]> u) q) as [E|(x & Hx & E)].
  - rewrite E. destruct (decide (p = q)) as [->|N]; [|rewrite lookup_insert_ne by done; by left]. rewrite lookup_insert. right. exists y. split; [left|done].
  - right. exists x. split; [by right|done].
Qed.
Lemma writes_last l u q x : NoDup (map fst l) -> (q, x) ∈ l -> writes l u !! q = Some x.
Proof.
  revert u. induction l as [|[p y] l IH]; intros u Hnd Hin; [by apply elem_of_nil in Hin|]. cbn in Hnd. inversion Hnd as [|? ? Hn Hnd']; subst.
  rewrite writes_cons. apply elem_of_cons in Hin as [[= -> ->]|Hin]; [rewrite writes_out by done; apply lookup_insert|]. by apply IH.
Qed.
(** Writing again over what was written. *)
Lemma writes_over l : forall u u', (forall q, q ∉ map fst l -> u' !! q = u !! q) -> writes l u' = writes l u.
Proof.
  induction l as [|[p y] l IH]; intros u u' H; [cbn; apply map_eq; intros q; apply H, not_elem_of_nil|]. rewrite !writes_cons. apply IH. intros q Hq.
  destruct (decide (p = q)) as [->|N]; [by rewrite !lookup_insert|]. rewrite !lookup_insert_ne by done. apply H. cbn. rewrite elem_of_cons. intros [|]; congruence.
Qed.
Lemma midway_files l u u' q : midway l u u' -> u' !! q = u !! q \/ exists x, (q, x) ∈ l /\ (u' !! q = Some CTorn \/ u' !! q = Some x).
Proof.
  assert (Ht : forall k x, (q, x) ∈ take k l -> (q, x) ∈ l) by (intros k x H; apply elem_of_take in H as (i & H & _); by eapply elem_of_list_lookup_2).
  intros (k & [->|(p & y & E & ->)]).
  - destruct (writes_either (take k l) u q) as [|(x & Hx & Ex)]; [by left|]. right. exists x. split; [by eapply Ht|by right].
  - destruct (decide (p = q)) as [->|N]; [right; exists y; split; [by eapply elem_of_list_lookup_2|left; apply lookup_insert]|]. rewrite lookup_insert_ne by done.
    destruct (writes_either (take k l) u q) as [|(x & Hx & Ex)]; [by left|]. right. exists x. split; [by eapply Ht|by right].
Qed.
Lemma midway_out l u u' q : midway l u u' -> q ∉ map fst l -> u' !! q = u !! q.
Proof.
  intros H Hq. destruct (midway_files l u u' q H) as [|(x & Hx & _)]; [done|]. exfalso. apply Hq. apply elem_of_list_In, in_map_iff. exists (q, x).
  split; [done|]. by apply elem_of_list_In.
Qed.
Lemma midway_end l u : midway l u (writes l u).
Proof. exists (length l). left. by rewrite take_ge. Qed.
Lemma midway_app_l l k u u' : midway l u u' -> midway (l ++ k) u u'.
Proof.
  intros (i & [->|(q & x & E & ->)]).
  - exists (min i (length l)). left. rewrite take_app_le by lia. destruct (le_ge_dec i (length l)); [by rewrite Nat.min_l by lia|].
    rewrite Nat.min_r by lia. by rewrite !take_ge by lia.
  - exists i. right. exists q, x. pose proof (lookup_lt_Some _ _ _ E). rewrite lookup_app_l, take_app_le by lia. done.
Qed.
Lemma midway_app_r l k u u' : midway k (writes l u) u' -> midway (l ++ k) u u'.
Proof.
  intros (i & H). exists (length l + i). rewrite take_app_ge by lia. replace (length l + i - length l) with i by lia. rewrite writes_app. destruct H as [->|(q & x & E & ->)]; [by left|right].
  exists q, x. split; [|done]. rewrite lookup_app_r by lia. by replace (length l + i - length l) with i by lia.
Qed.

Section steady.
  Context (W : path -> Prop) (s : store).
  (** Whatever the files of the region [W] hold, the program ends with [r] after
      it wrote the files [l]. *)
  Definition steady {A : Type} (p : program A) (r : res A) (l : list (path * content)) : Prop :=
    Forall W (map fst l) /\ forall u, agree_out W s u -> exec p u = (r, writes l u) /\ always CTorn (midway l u) p u.

  Lemma agree_writes l u : Forall W (map fst l) -> agree_out W s u -> agree_out W s (writes l u).
  Proof.
    intros Hl Hu q Hq. rewrite writes_out; [by apply Hu|]. intros Hin. rewrite Forall_forall in Hl. by apply Hq, Hl.
  Qed.
  Lemma steady_ret {A : Type} (r : res A) : steady (Ret r) r [].
  Proof. split; [constructor|]. intros u Hu. split; [done|]. cbn. split; [|done]. exists 0. by left. Qed.
  Lemma steady_reads {A : Type} (p : program A) r : within (fun _ => True) (fun _ => False) p ->
    (forall u, agree_out W s u -> (exec p u).1 = r) -> steady p r [].
  Proof.
    intros Hw Hp. split; [constructor|]. intros u Hu. split.
    - rewrite <-(Hp u Hu). rewrite (surjective_pairing (exec p u)) at 1. f_equal. apply map_eq. intros q. cbn [writes fold_left]. apply (exec_outside (fun _ => True) (fun _ => False) p u q Hw). tauto.
    - apply always_read; [done|]. exists 0. by left.
  Qed.
  Lemma steady_write q x : W q -> steady (write_file q x) (Ok tt) [(q, x)].
  Proof.
    intros Hq. split; [by constructor|]. intros u Hu. split; [done|]. unfold write_file. cbn. split_and!.
    - exists 0. by left.
    - exists 0. right. by exists q, x.
    - exists 1. by left.
    - done.
  Qed.
  Lemma steady_bind {A B : Type} (p : program A) (f : A -> program B) a r l k : steady p (Ok a) l -> steady (f a) r k -> steady (pbind p f) r (l ++ k).
  Proof.
    intros [Hl Hp] [Hk Hf]. split; [rewrite map_app; by apply Forall_app|]. intros u Hu. destruct (Hp u Hu) as [Ep Ap].
    destruct (Hf _ (agree_writes _ _ Hl Hu)) as [Ef Af]. split; [rewrite exec_bind, Ep, Ef; by rewrite writes_app|].
    apply always_bind; [eapply always_impl; [|exact Ap]; intros u'; apply midway_app_l|]. intros a' s' E. rewrite Ep in E. injection E as <- <-.
    eapply always_impl; [|exact Af]. intros u'. apply midway_app_r.
  Qed.
  Lemma steady_bind_raise {A B : Type} (p : program A) (f : A -> program B) ex l : steady p (Raise ex) l -> steady (pbind p f) (Raise ex) l.
  Proof.
    intros [Hl Hp]. split; [done|]. intros u Hu. destruct (Hp u Hu) as [Ep Ap]. split; [by rewrite exec_bind, Ep|].
    apply always_bind; [exact Ap|]. intros a' s' E. rewrite Ep in E. done.
  Qed.
  (** The writes of a loop are the writes of its first turns. *)
  Lemma steady_pfor {A B : Type} (f : A -> program B) (Q : A -> list (path * content) -> Prop) (l : list A) :
    (forall a, a ∈ l -> exists r k, steady (f a) r k /\ Q a k) ->
    exists r ks n, steady (pfor l f) r (concat ks) /\ Forall2 Q (take n l) ks.
  Proof.
    intros H. assert (exists r ks n, steady (pseq (map f l)) r (concat ks) /\ Forall2 Q (take n l) ks) as (r & ks & n & Hp & HQ).
    { induction l as [|a l IH]; [exists (Ok []), [], 0; split; [apply steady_ret|constructor]|]. destruct (H a ltac:(left)) as (r & k & Ha & Qa). cbn [map pseq].
      destruct r as [b|ex].
      - destruct IH as (r & ks & n & Hp & HQ); [intros x Hx; apply H; by right|]. destruct r as [bs|ex].
        + exists (Ok (b :: bs)), (k :: ks), (S n). split; [|cbn; by constructor]. cbn [concat]. eapply steady_bind; [exact Ha|]. rewrite <-(app_nil_r (concat ks)).
          eapply steady_bind; [exact Hp|apply steady_ret].
        + exists (Raise ex), (k :: ks), (S n). split; [|cbn; by constructor]. cbn [concat]. eapply steady_bind; [exact Ha|]. by apply steady_bind_raise.
      - exists (Raise ex), [k], 1. split; [|cbn; rewrite take_0; by repeat constructor]. cbn [concat]. rewrite app_nil_r. by apply steady_bind_raise. }
    unfold pfor. destruct r as [bs|ex].
    - exists (Ok tt), ks, n. split; [|done]. rewrite <-(app_nil_r (concat ks)). eapply steady_bind; [exact Hp|apply steady_ret].
    - exists (Raise ex), ks, n. split; [|done]. by apply steady_bind_raise.
  Qed.
  (** Stopped and called again. *)
  Lemma steady_again {A : Type} (p : program A) r l u : steady p r l -> midway l s u -> exec p u = (r, writes l s) /\ agree_out W s u.
  Proof.
    intros [Hl Hp] Hu. assert (Ho : agree_out W s u).
    { intros q Hq. eapply midway_out; [done|]. intros Hin. rewrite Forall_forall in Hl. by apply Hq, Hl. }
    split; [|done]. destruct (Hp u Ho) as [-> _]. f_equal. apply writes_over. intros q. by eapply midway_out.
  Qed.
End steady.

(** ** Concurrent steady tasks *)
Lemma exec_all_steady {A : Type} (W : path -> Prop) (s : store) (ps : list (program A)) rs ls : Forall2 (fun p rl => steady W s p rl.1 rl.2) ps (zip rs ls) ->
  length rs = length ls -> forall u, agree_out W s u -> exec_all ps u = (rs, writes (concat ls) u).
Proof.
  revert rs ls. induction ps as [|p ps IH]; intros rs ls HF HL u Hu.
  - apply Forall2_nil_inv_l in HF. destruct rs, ls; try done.
  - destruct rs as [|r rs], ls as [|l ls]; cbn in HF, HL; try (by inversion HF); try done. inversion HF as [|? ? ? ? [Hl Hp] HF']; subst. cbn [fst snd] in *.
    cbn [exec_all]. destruct (Hp u Hu) as [-> _]. cbn [concat]. rewrite writes_app. injection HL as HL. by rewrite (IH rs ls HF' HL _ (agree_writes W s l u Hl Hu)).
Qed.

(** ** Reading *)
Lemma traverse_ext_in {A B} (f g : A -> res B) l : (forall x, x ∈ l -> f x = g x) -> traverse f l = traverse g l.
Proof.
  induction l as [|x l IH]; intros H; [done|]. cbn. rewrite (H x) by left. rewrite IH; [done|]. intros y Hy. apply H. by right.
Qed.
(** A group is read without the variables that are not selected. *)
Lemma read_group_blind (t t' : store) delayed sel (X : str -> Prop) : (forall n, X n -> ~ wanted sel n) ->
  (forall q, (forall n k, X n -> q <> [n; k]) -> t' !! q = t !! q) -> read_group t' delayed sel = read_group t delayed sel.
Proof.
  intros HX Ht. unfold read_group.
  assert (Hc : read_cons t' = read_cons t) by (unfold read_cons; rewrite Ht; [done|]; intros n k _ E; done).
  rewrite Hc. destruct (read_cons t) as [m|]; [|done]. cbn [rbind]. f_equal. apply traverse_ext_in. intros n Hn.
  assert (Hw : wanted sel n).
  { destruct sel as [l|]; [|done]. apply elem_of_list_In, filter_In in Hn as [_ Hn]. by apply bool_decide_eq_true in Hn. }
  unfold open_zarr_array. destruct (array_meta m n) as [z|]; [|done]. cbn [rbind].
  assert (sub [n] t' = sub [n] t) as ->; [|done]. apply map_eq. intros q. rewrite !sub_lookup. apply Ht. intros n' k Hn' E. cbn in E. injection E as <- _.
  by apply (HX n).
Qed.

Section blind.
  Context (e : env) (c : collection) (Hr : regular e c) (M : list Z -> option dataset) (I : option dataset) (s : store) (Hs : represents c M I s).
  Context (X : str -> Prop) (sel : option (list str)) (HX : forall n, X n -> ~ wanted sel n).
  Context (vs : list (list Z)) (Hvs : forall v, v ∈ vs -> is_Some (M v)).
  Local Notation keys := (p_keys (c_part c)).
  (** The chunks of the variables [X] of the partitions [vs]. *)
  Definition chunk_files (q : path) : Prop := exists v n ci, v ∈ vs /\ X n /\ q = part_dir c v ++ [n; chunk_key ci].
  Local Notation W := chunk_files.

  Lemma key_len v : is_Some (M v) -> length v = length keys.
  Proof. intros [d Hd]. by apply (rp_part _ _ _ _ Hs) in Hd as [? _]. Qed.
  Lemma part_dir_inj v w t t' : length v = length keys -> length w = length keys -> part_dir c v ++ t = part_dir c w ++ t' -> v = w /\ t = t'.
  Proof.
    intros Hl Hl' E. destruct (decide (v = w)) as [->|N]; [split; [done|]; by apply app_inv_head in E|].
    exfalso. apply (parts_apart c v w Hl Hl' N (part_dir c v ++ t)); [apply under_app|]. rewrite E. apply under_app.
  Qed.
  Lemma chunk_files_part v t : length v = length keys -> W (part_dir c v ++ t) -> v ∈ vs /\ exists n ci, X n /\ t = [n; chunk_key ci].
  Proof.
    intros Hl (w & n & ci & Hw & Hn & E). apply part_dir_inj in E as [-> ->]; [|done|by apply key_len, Hvs]. split; [done|]. by exists n, ci.
  Qed.
  Lemma chunk_files_immutable t : ~ W (c_dir c ++ IMMUTABLE :: t).
  Proof.
    intros (w & n & ci & Hw & Hn & E). destruct (key_head e c Hr w (key_len w (Hvs w Hw))) as (a & r & Ea & Ha & _). unfold part_dir in E.
    rewrite Ea, <-app_assoc in E. apply app_inv_head in E. injection E as <- _. done.
  Qed.

  Lemma laid_blind u : agree_out W s u -> laid_out (c_part c) (c_dir c) u /\ forall v, present c u v <-> present c s v.
  Proof.
    intros Hu. assert (Hnot : forall q, ~ Exists (fun v => under (part_dir c v) q) vs -> ~ W q).
    { intros q Hq (v & n & ci & Hv & _ & ->). apply Hq, Exists_exists. exists v. split; [done|apply under_app]. }
    assert (Hself : forall v, v ∈ vs -> ~ W (part_dir c v)).
    { intros v Hv Hw. rewrite <-(app_nil_r (part_dir c v)) in Hw. apply chunk_files_part in Hw as (_ & n & ci & _ & E); [done|by apply key_len, Hvs]. }
    split.
    - intros q x E. destruct (decide (Exists (fun v => under (part_dir c v) (c_dir c ++ q)) vs)) as [H|H].
      + apply Exists_exists in H as (v & Hv & t & Et). right. right. unfold part_dir in Et. rewrite <-app_assoc in Et. apply app_inv_head in Et. subst q.
        destruct t as [|a t]; [|exists v, a, t; split; [by apply key_len, Hvs|done]]. exfalso. rewrite app_nil_r in E. fold (part_dir c v) in E.
        rewrite Hu in E by (by apply Hself). destruct (Hvs v Hv) as [d Hd]. destruct (rp_part _ _ _ _ Hs _ _ Hd) as (_ & _ & [Hh _]). rewrite sub_lookup, app_nil_r in Hh. congruence.
      + rewrite Hu in E by (by apply Hnot). destruct (represents_laid_out c M I s Hs q x E) as [(n & -> & Hn)|[?|?]]; [|by right; left|by right; right].
        apply (rp_files _ _ _ _ Hs) in E as [E|[(_ & f & E)|(v & f & Hv & E)]].
        * injection E as ->. right. left. exists CONFIG, []. split; [done|]. by eexists.
        * right. left. exists IMMUTABLE, f. split; [done|]. by eexists.
        * right. right. pose proof (key_len v Hv) as Hl. destruct f as [|a f]; [|by exists v, a, f].
          exfalso. rewrite app_nil_r in E. destruct Hv as [d Hd]. destruct (rp_part _ _ _ _ Hs _ _ Hd) as (_ & _ & Hh).
          destruct Hn. exists ZGROUP, [], (CMeta MGroup). rewrite E. change (c_dir c ++ key_dirs (c_part c) v) with (part_dir c v). rewrite <-sub_lookup. apply Hh.
    - intros v. split; intros [Hl (a & f & x & E)]; (split; [done|]).
      + destruct (decide (v ∈ vs)) as [Hv|Hv]; [apply (represents_directory e c Hr M I s v Hs), Hvs, Hv|]. exists a, f, x. rewrite Hu in E; [done|].
        intros Hw. by apply chunk_files_part in Hw as [? _].
      + assert (is_Some (M v)) as [d Hd] by (apply (represents_directory e c Hr M I s v Hs); split; [done|]; by exists a, f, x).
        destruct (rp_part _ _ _ _ Hs _ _ Hd) as (_ & _ & Hh). exists ZGROUP, [], (CMeta MGroup). rewrite Hu.
        * rewrite <-sub_lookup. apply Hh.
        * intros Hw. by apply chunk_files_part in Hw as (_ & n & ci & _ & ?).
  Qed.
  Lemma select_blind u filt : agree_out W s u -> (exec (select_parts e c filt) u).1 = (exec (select_parts e c filt) s).1.
  Proof.
    intros Hu. destruct (laid_blind u Hu) as [Hlu Hpu].
    destruct (select_laid e c Hr u filt Hlu) as (l & S1 & H1 & ->). destruct (select_laid e c Hr s filt (represents_laid_out c M I s Hs)) as (k & S2 & H2 & ->).
    cbn [fst]. f_equal. f_equal. apply (sorted_rows_unique (length keys) l k S1 S2); [by intros v [? _]%H1|]. intros v. by rewrite H1, H2.
  Qed.
  Lemma part_blind u v : agree_out W s u -> length v = length keys -> forall q, (forall n k, X n -> q <> [n; k]) -> sub (part_dir c v) u !! q = sub (part_dir c v) s !! q.
  Proof.
    intros Hu Hl q Hq. rewrite !sub_lookup. apply Hu. intros Hw. apply chunk_files_part in Hw as (_ & n & ci & Hn & ->); [|done]. by apply (Hq n (chunk_key ci)).
  Qed.
  Lemma open_blind u v delayed : agree_out W s u -> length v = length keys ->
    (exec (open_zarr_group (part_dir c v) delayed sel) u).1 = (exec (open_zarr_group (part_dir c v) delayed sel) s).1.
  Proof.
    intros Hu Hl. unfold open_zarr_group. rewrite !exec_bind, !exec_get_tree. cbn. apply (read_group_blind _ _ _ _ X HX). by apply part_blind.
  Qed.
  Lemma immutable_blind u : agree_out W s u -> sub (c_dir c ++ [IMMUTABLE]) u = sub (c_dir c ++ [IMMUTABLE]) s.
  Proof. intros Hu. apply map_eq. intros q. rewrite !sub_lookup, <-!app_assoc. apply Hu. apply chunk_files_immutable. Qed.
  Lemma within_reads {A : Type} (p : program A) (R : path -> Prop) : within R (fun _ => False) p -> within (fun _ => True) (fun _ => False) p.
  Proof. apply within_impl; done. Qed.
  Lemma open_reads d delayed k : within (fun _ => True) (fun _ => False) (open_zarr_group d delayed k).
  Proof. unfold open_zarr_group. apply within_bind; [apply within_get_tree; auto|done]. Qed.
  Lemma load_reads q delayed k : within (fun _ => True) (fun _ => False) (load_dataset c delayed k q).
  Proof.
    unfold load_dataset. apply within_bind; [apply open_reads|]. intros ds. destruct (immutable_path c); [|done]. apply within_bind; [apply open_reads|done].
  Qed.
  Lemma load_blind u v delayed : agree_out W s u -> length v = length keys ->
    (exec (load_dataset c delayed sel (part_dir c v)) u).1 = (exec (load_dataset c delayed sel (part_dir c v)) s).1.
  Proof.
    intros Hu Hl. unfold load_dataset. rewrite !exec_bind. pose proof (open_blind u v delayed Hu Hl) as E.
    destruct (open_pure (part_dir c v) delayed sel u) as [r1 E1], (open_pure (part_dir c v) delayed sel s) as [r2 E2]. rewrite E1, E2 in E |- *. cbn in E. subst r2.
    destruct r1 as [ds|]; [|done]. unfold immutable_path. destruct (c_immutable c); [|done]. rewrite !exec_bind.
    unfold open_zarr_group. rewrite !exec_bind, !exec_get_tree. cbn [exec]. rewrite immutable_blind by done. by destruct (read_group _ _ _).
  Qed.
End blind.

(** ** Writing *)
Definition chunk_writes (d : path) (z : zarray) (a : arr) : list (path * content) :=
  map (fun ci => (d ++ [chunk_key ci], CChunk (chunk_at a (z_chunks z) ci))) (indices (grid (z_shape z) (z_chunks z))).
Lemma steady_pfor_ok {A B : Type} W s (f : A -> program B) (g : A -> list (path * content)) (l : list A) :
  (forall a, a ∈ l -> exists b, steady W s (f a) (Ok b) (g a)) -> steady W s (pfor l f) (Ok tt) (concat (map g l)).
Proof.
  intros H. assert (exists bs, steady W s (pseq (map f l)) (Ok bs) (concat (map g l))) as [bs Hp].
  { induction l as [|a l IH]; [exists []; apply steady_ret|]. destruct (H a ltac:(left)) as [b Ha]. destruct IH as [bs Hl]; [intros x Hx; apply H; by right|].
    exists (b :: bs). cbn [map pseq concat]. eapply steady_bind; [exact Ha|]. rewrite <-(app_nil_r (concat _)). eapply steady_bind; [exact Hl|apply steady_ret]. }
  unfold pfor. rewrite <-(app_nil_r (concat _)). eapply steady_bind; [exact Hp|apply steady_ret].
Qed.
Lemma concat_singles {A B} (g : A -> B) l : concat (map (fun a => [g a]) l) = map g l.
Proof. induction l as [|a l IH]; [done|]. cbn. by rewrite IH. Qed.
Lemma steady_chunks (W : path -> Prop) (s : store) d z a : (forall ci, W (d ++ [chunk_key ci])) -> steady W s (write_chunks d z false a) (Ok tt) (chunk_writes d z a).
Proof.
  intros HW. unfold chunk_writes. rewrite <-concat_singles. apply steady_pfor_ok. intros ci _. exists tt. cbn [andb]. by apply steady_write.
Qed.
(** The files of the chunks of one array, each once. *)
Definition chunks_of (d : path) (l : list (path * content)) : Prop :=
  NoDup (map fst l) /\ forall q, q ∈ map fst l -> exists ci, q = d ++ [chunk_key ci].
Lemma chunk_writes_of d z a : chunks_of d (chunk_writes d z a).
Proof.
  unfold chunks_of, chunk_writes. rewrite map_map. cbn [fst]. split.
  - apply NoDup_fmap_2_strong; [|apply indices_nodup]. intros x y Hx Hy E. apply app_inv_head in E. injection E as E. apply chunk_key_inj; [|done].
    apply indices_valid, valid_length in Hx. apply indices_valid, valid_length in Hy. congruence.
  - intros q Hq. apply elem_of_list_In, in_map_iff in Hq as (ci & <- & _). by exists ci.
Qed.
Lemma chunks_of_nil d : chunks_of d [].
Proof. split; [constructor|]. intros q Hq. by apply elem_of_nil in Hq. Qed.
Lemma steady_update_array (W : path -> Prop) (s : store) d array rx : (forall ci, W (d ++ [chunk_key ci])) -> ~ W (d ++ [ZARRAY]) -> steady W s array rx [] ->
  exists r l, steady W s (update_zarr_array d array) r l /\ chunks_of d l.
Proof.
  intros HW Hz Ha. unfold update_zarr_array.
  assert (Hread : steady W s (read_file (d ++ [ZARRAY])) (Ok (s !! (d ++ [ZARRAY]))) []).
  { apply steady_reads; [apply within_read_file; auto|]. intros u Hu. rewrite exec_read_file. cbn. f_equal. by apply Hu. }
  assert (Hcase : exists r l, steady W s (match s !! (d ++ [ZARRAY]) with
      | None => praise TypeError
      | Some (CMeta (MArray z)) => let! x <- array; let a := to_store (z_fill z) x in
          match z_shape z with [] => praise IndexError | _ => if bool_decide (z_shape z = a_shape a) then write_chunks d z false a else praise ValueError end
      | Some _ => praise ValueError end) r l /\ chunks_of d l).
  { destruct (s !! (d ++ [ZARRAY])) as [[[z| |]| | | | | |]|]; try (eexists _, []; split; [apply steady_ret|apply chunks_of_nil]).
    destruct rx as [x|ex]; [|exists (Raise ex), []; split; [by apply steady_bind_raise|apply chunks_of_nil]].
    assert (Hin : exists r l, steady W s (let a := to_store (z_fill z) x in
          match z_shape z with [] => praise IndexError | _ => if bool_decide (z_shape z = a_shape a) then write_chunks d z false a else praise ValueError end) r l /\ chunks_of d l).
    { cbv zeta. destruct (z_shape z) eqn:Ez; [eexists _, []; split; [apply steady_ret|apply chunks_of_nil]|].
      destruct (bool_decide _); [|eexists _, []; split; [apply steady_ret|apply chunks_of_nil]]. eexists _, _. split; [by apply steady_chunks|apply chunk_writes_of]. }
    destruct Hin as (r & l & Hs' & Hl). exists r, l. split; [|done]. change l with ([] ++ l). eapply steady_bind; [exact Ha|exact Hs']. }
  destruct Hcase as (r & l & Hs' & Hl). exists r, l. split; [|done]. change l with ([] ++ l). eapply steady_bind; [exact Hread|exact Hs'].
Qed.

(** ** One partition *)
Section partition.
  Context (e : env) (c : collection) (Hr : regular e c) (M : list Z -> option dataset) (I : option dataset) (s : store) (Hs : represents c M I s).
  Context (f : update_callback) (delayed : bool) (sel : option (list str)) (HX : forall n, returned f n -> ~ wanted sel n).
  Context (vs : list (list Z)) (Hvs : forall v, v ∈ vs -> is_Some (M v)).
  Local Notation W := (chunk_files c (returned f) vs).
  Local Notation one v := (update_partition c delayed sel f (part_dir c v)).

  (** The files of the chunks of the variables of one partition, each once. *)
  Definition part_writes (v : list Z) (l : list (path * content)) : Prop :=
    NoDup (map fst l) /\ forall q, q ∈ map fst l -> exists n ci, returned f n /\ q = part_dir c v ++ [n; chunk_key ci].
  Lemma steady_load v : v ∈ vs -> exists r, steady W s (load_dataset c delayed sel (part_dir c v)) r [].
  Proof using Hr Hs HX Hvs.
    intros Hv. eexists. apply steady_reads; [apply load_reads|]. intros u Hu. exact (load_blind e c Hr M I s Hs (returned f) sel HX vs Hvs u v delayed Hu (key_len c M I s Hs v (Hvs v Hv))).
  Qed.
  Lemma concat_chunks d (l : list (str * result)) (n : nat) (ks : list (list (path * content))) : NoDup (dkeys l) ->
    Forall2 (fun nr k => chunks_of (d ++ [nr.1]) k) (take n l) ks ->
    NoDup (map fst (concat ks)) /\ forall q, q ∈ map fst (concat ks) -> exists m ci, m ∈ dkeys l /\ q = d ++ [m; chunk_key ci].
  Proof using.
    revert n ks. induction l as [|[m x] l IH]; intros n ks Hnd HF.
    - rewrite take_nil in HF. inversion HF; subst. split; [constructor|]. intros q Hq. by apply elem_of_nil in Hq.
    - destruct n as [|n]; [inversion HF; subst; split; [constructor|]; intros q Hq; by apply elem_of_nil in Hq|].
      inversion HF as [|? k ? ks' [Hk1 Hk2] HF']; subst. cbn in Hnd. inversion Hnd as [|? ? Hm Hnd']; subst. destruct (IH n ks' Hnd' HF') as [H1 H2].
      cbn [concat]. rewrite map_app. cbn [fst] in Hk2. split.
      + apply NoDup_app. split_and!; [done| |done]. intros q Hq Hq'. apply Hk2 in Hq as (ci & ->). apply H2 in Hq' as (m' & ci' & Hm' & E).
        rewrite <-app_assoc in E. apply app_inv_head in E. injection E as -> _. done.
      + intros q [Hq|Hq]%elem_of_app.
        * apply Hk2 in Hq as (ci & ->). exists m, ci. rewrite <-app_assoc. split; [left|done].
        * apply H2 in Hq as (m' & ci' & Hm' & ->). exists m', ci'. split; [by right|done].
  Qed.
  Lemma call_dict_keys ds i l : call_dict (cb_call f ds i) = Ok l -> NoDup (dkeys l) /\ forall n, n ∈ dkeys l -> returned f n.
  Proof using.
    unfold call_dict. destruct (cb_call f ds i) as [k|] eqn:E; [|done]. intros [= <-]. split; [apply dict_of_NoDup|]. intros n Hn. apply (proj1 (dict_of_keys _ _)) in Hn. exists ds, i, k. split; [exact E|exact Hn].
  Qed.
  Lemma steady_partition v : v ∈ vs -> exists r l, steady W s (one v) r l /\ part_writes v l.
  Proof using Hr Hs HX Hvs.
    intros Hv. pose proof (key_len c M I s Hs v (Hvs v Hv)) as Hl. destruct (steady_load v Hv) as [rd Hload]. unfold update_partition.
    assert (Hnil : part_writes v []) by (split; [constructor|]; intros q Hq; by apply elem_of_nil in Hq).
    destruct rd as [ds|ex]; [|exists (Raise ex), []; split; [by apply steady_bind_raise|done]].
    destruct (call_dict (cb_call f ds None)) as [l|ex] eqn:Ec.
    2:{ exists (Raise ex), []. split; [|done]. apply (steady_bind W s _ _ ds _ [] [] Hload). rewrite Ec. apply steady_bind_raise, steady_ret. }
    destruct (call_dict_keys _ _ _ Ec) as [Hnd Hret].
    destruct (steady_pfor W s (fun nr : str * result => update_zarr_array (part_dir c v ++ [nr.1]) (evaluate (load_dataset c delayed sel (part_dir c v)) delayed ds nr.2))
      (fun nr k => chunks_of (part_dir c v ++ [nr.1]) k) l) as (r & ks & n & Hp & HF).
    { intros [m x] Hm. cbn [fst snd]. assert (Hm' : m ∈ dkeys l) by (apply elem_of_list_In, in_map_iff; exists (m, x); split; [done|by apply elem_of_list_In]).
      assert (exists rx, steady W s (evaluate (load_dataset c delayed sel (part_dir c v)) delayed ds x) rx []) as [rx Hx].
      { destruct x as [d|g]; cbn [evaluate]; [eexists; apply steady_ret|]. destruct delayed; [|eexists; apply steady_ret].
        eexists. apply (steady_bind W s _ _ ds _ [] [] Hload). apply steady_ret. }
      eapply steady_update_array; [..|exact Hx].
      - intros ci. exists v, m, ci. rewrite <-app_assoc. split_and!; [done|by apply Hret|done].
      - rewrite <-app_assoc. intros (_ & n & ci & _ & E)%(chunk_files_part c M I s Hs (returned f) vs Hvs); [|done]. injection E as _ E.
        symmetry in E. eapply chunk_key_not_meta; [|exact E]. set_solver. }
    exists r, (concat ks). split.
    - change (concat ks) with ([] ++ [] ++ concat ks). eapply steady_bind; [exact Hload|]. rewrite Ec. eapply steady_bind; [apply steady_ret|]. exact Hp.
    - destruct (concat_chunks (part_dir c v) l n ks Hnd HF) as [H1 H2]. split; [done|]. intros q Hq. apply H2 in Hq as (m & ci & Hm & ->). exists m, ci. split; [by apply Hret|done].
  Qed.
  (** The writes of each partition. *)
  Lemma partition_writes : exists (R : list Z -> res unit) (L : list Z -> list (path * content)), forall v, v ∈ vs -> steady W s (one v) (R v) (L v) /\ part_writes v (L v).
  Proof using Hr Hs HX Hvs.
    assert (forall us : list (list Z), (forall v, v ∈ us -> v ∈ vs) ->
      exists (R : list Z -> res unit) (L : list Z -> list (path * content)), forall v, v ∈ us -> steady W s (one v) (R v) (L v) /\ part_writes v (L v)) as H.
    { induction us as [|v us IH]; intros Hsub; [exists (fun _ => Ok tt), (fun _ => []); intros v Hv; by apply elem_of_nil in Hv|].
      destruct IH as (R & L & H); [intros w Hw; apply Hsub; by right|]. destruct (steady_partition v) as (r & l & Hp & Hl); [apply Hsub; left|].
      exists (fun w => if decide (w = v) then r else R w), (fun w => if decide (w = v) then l else L w). intros w Hw. destruct (decide (w = v)) as [->|N]; [done|].
      apply H. by apply elem_of_cons in Hw as [|]. }
    by apply H.
  Qed.
End partition.

(** ** The whole call *)
Lemma concat_takes {A} (bs : list (list A)) (ns : list nat) : length ns = length bs ->
  exists ds, concat (zip_with take ns bs) = ds /\ sublist ds (concat bs).
Proof.
  revert ns. induction bs as [|b bs IH]; intros [|n ns] H; try done; [exists []; by split|]. injection H as H. destruct (IH ns H) as (ds & E & Hd). eexists. split; [done|].
  cbn [zip_with concat]. rewrite E. apply sublist_app; [|done]. rewrite <-(take_drop n b) at 2. apply sublist_inserts_r. done.
Qed.
Lemma sublist_facts {A} (l k : list A) : sublist l k -> (forall x, x ∈ l -> x ∈ k) /\ (NoDup k -> NoDup l).
Proof.
  induction 1 as [|x l k _ [IH1 IH2]|x l k _ [IH1 IH2]]; (split; [|]); try done.
  - intros y [->|Hy]%elem_of_cons; [left|right; auto].
  - intros H. inversion H as [|? ? Hx Hk]; subst. constructor; [intros Hx'; by apply Hx, IH1|auto].
  - intros y Hy. right. auto.
  - intros H. inversion H; subst. auto.
Qed.
Section whole.
  Context (e : env) (c : collection) (Hr : regular e c) (M : list Z -> option dataset) (I : option dataset) (s : store) (Hs : represents c M I s).
  Context (f : update_callback) (delayed : bool) (sel : option (list str)) (HX : forall n, returned f n -> ~ wanted sel n).
  Context (vs : list (list Z)) (Hvs : forall v, v ∈ vs -> is_Some (M v)) (Hnd : NoDup vs).
  Context (filt : filter) (Esel : exec (select_parts e c filt) s = (Ok (map (part_dir c) vs), s)).
  Local Notation W := (chunk_files c (returned f) vs).
  Local Notation one := (update_partition c delayed sel f).
  Context (R : list Z -> res unit) (L : list Z -> list (path * content)).
  Context (HRL : forall v, v ∈ vs -> steady W s (one (part_dir c v)) (R v) (L v) /\ part_writes c f v (L v)).

  Lemma all_writes ds : NoDup ds -> (forall v, v ∈ ds -> v ∈ vs) -> NoDup (map fst (concat (map L ds))) /\
    forall q, q ∈ map fst (concat (map L ds)) -> exists v n ci, v ∈ ds /\ returned f n /\ q = part_dir c v ++ [n; chunk_key ci].
  Proof using Hs Hvs HRL.
    intros Hd Hsub. induction ds as [|v ds IH]; [split; [constructor|]; intros q Hq; by apply elem_of_nil in Hq|]. inversion Hd as [|? ? Hv Hd']; subst.
    destruct (IH Hd') as [H1 H2]; [intros w Hw; apply Hsub; by right|]. assert (Hin : v ∈ vs) by (apply Hsub; left). destruct (HRL v Hin) as [_ [H3 H4]].
    cbn [map concat]. rewrite map_app. split.
    - apply NoDup_app. split_and!; [done| |done]. intros q Hq Hq'. apply H4 in Hq as (n & ci & _ & ->). apply H2 in Hq' as (w & n' & ci' & Hw & _ & E).
      apply part_dir_inj in E as [-> _]; [done|exact (key_len c M I s Hs v (Hvs v Hin))|]. apply (key_len c M I s Hs w), Hvs, Hsub. by right.
    - intros q [Hq|Hq]%elem_of_app.
      + apply H4 in Hq as (n & ci & Hn & ->). exists v, n, ci. split; [left|done].
      + apply H2 in Hq as (w & n' & ci' & Hw & Hn & ->). exists w, n', ci'. split; [by right|done].
  Qed.
  (** A batch stops at the first partition whose update raises. *)
  Lemma steady_batch b : (forall v, v ∈ b -> v ∈ vs) -> exists r n, steady W s (pfor (map (part_dir c) b) one) r (concat (map L (take n b))) /\
    (r = Ok tt -> take n b = b /\ forall v, v ∈ b -> R v = Ok tt) /\ ((forall v, v ∈ b -> R v = Ok tt) -> r = Ok tt).
  Proof using HRL.
    intros Hsub. assert (exists r n, steady W s (pseq (map one (map (part_dir c) b))) r (concat (map L (take n b))) /\
      (forall us, r = Ok us -> take n b = b /\ forall v, v ∈ b -> R v = Ok tt) /\ ((forall v, v ∈ b -> R v = Ok tt) -> exists us, r = Ok us)) as (r & n & Hp & H1 & H2).
    { induction b as [|v b IH].
      - exists (Ok []), 0. split; [apply steady_ret|]. split; [|by eexists]. intros us _. split; [done|]. intros v Hv. by apply elem_of_nil in Hv.
      - destruct IH as (r & n & Hp & H1 & H2); [intros w Hw; apply Hsub; by right|]. destruct (HRL v) as [Hv _]; [apply Hsub; left|]. cbn [map pseq].
        destruct (R v) as [[]|ex] eqn:Er.
        + destruct r as [us|ex].
          * exists (Ok (tt :: us)), (S n). split_and!.
            -- cbn [take map concat]. eapply steady_bind; [exact Hv|]. rewrite <-(app_nil_r (concat _)). eapply steady_bind; [exact Hp|apply steady_ret].
            -- intros us' _. destruct (H1 us eq_refl) as [Ht Hall]. split; [cbn; by rewrite Ht|]. intros w [->|Hw]%elem_of_cons; [done|auto].
            -- intros _. by eexists.
          * exists (Raise ex), (S n). split_and!; [|done|].
            -- cbn [take map concat]. eapply steady_bind; [exact Hv|]. by apply steady_bind_raise.
            -- intros Hall. destruct H2 as [us ?]; [|done]. intros w Hw. apply Hall. by right.
        + exists (Raise ex), 1. split_and!; [|done|].
          * cbn [take]. rewrite take_0. cbn [map concat]. rewrite app_nil_r. apply steady_bind_raise. exact Hv.
          * intros Hall. exfalso. assert (R v = Ok tt) by (apply Hall; left). congruence. }
    unfold pfor. destruct r as [us|ex].
    - exists (Ok tt), n. split_and!; [|intros _; by eapply H1|done]. rewrite <-(app_nil_r (concat _)). eapply steady_bind; [exact Hp|apply steady_ret].
    - exists (Raise ex), n. split_and!; [by apply steady_bind_raise|done|]. intros Hall. by destruct (H2 Hall).
  Qed.
  Lemma steady_batches bs : (forall b v, b ∈ bs -> v ∈ b -> v ∈ vs) -> exists rs ns, length ns = length bs /\
    Forall2 (fun p rl => steady W s p rl.1 rl.2) (map (fun b => pfor (map (part_dir c) b) one) bs) (zip rs (map (fun b => concat (map L b)) (zip_with take ns bs))) /\
    length rs = length bs /\
    (Forall (fun r => r = Ok tt) rs -> zip_with take ns bs = bs /\ forall b v, b ∈ bs -> v ∈ b -> R v = Ok tt) /\
    ((forall b v, b ∈ bs -> v ∈ b -> R v = Ok tt) -> Forall (fun r => r = Ok tt) rs).
  Proof using HRL.
    induction bs as [|b bs IH]; intros Hsub.
    - exists [], []. split_and!; try done; try (by constructor). intros _. split; [done|]. intros b v Hb. by apply elem_of_nil in Hb.
    - destruct IH as (rs & ns & Hl & HF & Hl' & H1 & H2); [intros b' v Hb; apply Hsub; by right|]. destruct (steady_batch b) as (r & n & Hp & H3 & H4); [intros v; apply Hsub; left|].
      exists (r :: rs), (n :: ns). split_and!; [by cbn; rewrite Hl| |by cbn; rewrite Hl'|..].
      + cbn [map zip_with zip]. constructor; [exact Hp|exact HF].
      + intros [-> Ho]%Forall_cons. destruct (H1 Ho) as [E Hall], (H3 eq_refl) as [E' Hall']. split; [cbn; by rewrite E, E'|]. intros b' v [->|Hb]%elem_of_cons; [auto|eauto].
      + intros Hall. constructor; [apply H4; intros v; apply Hall; left|]. apply H2. intros b' v Hb. apply Hall. by right.
  Qed.

  (** Each file is as before, or is being written, or is written. *)
  Definition between (u0 : store) (T : list (path * content)) (u : store) : Prop :=
    forall q, u !! q = u0 !! q \/ exists x, (q, x) ∈ T /\ (u !! q = Some CTorn \/ u !! q = Some x).
  Local Notation tasks bs := (map (fun b => pfor (map (part_dir c) b) one) bs).
  Lemma parts_independent bs : concat bs = vs -> independent (tasks bs) (fun _ q => under (c_dir c ++ [IMMUTABLE]) q)
    (fun i q => match bs !! i with Some b => region_of c b q | None => False end).
  Proof using Hr Hs Hvs Hnd.
    intros Hcat0. set (task := fun b => pfor (map (part_dir c) b) one).
    assert (Hlk : forall i p, map task bs !! i = Some p -> exists b, bs !! i = Some b /\ p = task b).
    { intros i p. change (map task bs) with (task <$> bs). rewrite list_lookup_fmap. destruct (bs !! i) as [b|]; [|done]. intros [= <-]. eauto. }
    assert (Hcat : forall i b v, bs !! i = Some b -> v ∈ b -> v ∈ vs).
    { intros i b v Hi Hv. rewrite <-Hcat0. apply elem_of_list_In, in_concat. exists b. split; [|by apply elem_of_list_In]. apply elem_of_list_In. by eapply elem_of_list_lookup_2. }
    split.
    - intros i p E. apply Hlk in E as (b & Hi & ->). rewrite Hi. unfold task. apply within_pfor. intros q Hq. apply elem_of_list_In, in_map_iff in Hq as (v & <- & Hv).
      eapply within_impl; [| |apply within_update_partition]; [done|]. intros q Hq. apply Exists_exists. exists v. split; [by apply elem_of_list_In|done].
    - intros i j p p' Ei Ej N q Wi Hq. apply Hlk in Ei as (b & Hi & _), Ej as (b' & Hj & _). rewrite Hi in Wi. rewrite Hj in Hq.
      apply Exists_exists in Wi as (v & Hv & U). pose proof (key_len c M I s Hs v (Hvs v (Hcat _ _ _ Hi Hv))) as Hl.
      destruct Hq as [Hq|Hq].
      + destruct (key_head e c Hr v Hl) as (a & r & Ea & Ha & _). destruct U as (g & U), Hq as (h & Hq). rewrite Hq in U.
        unfold part_dir in U. rewrite Ea, <-!app_assoc in U. apply app_inv_head in U. cbn in U. injection U as <- _. done.
      + apply Exists_exists in Hq as (v' & Hv' & U'). pose proof (key_len c M I s Hs v' (Hvs v' (Hcat _ _ _ Hj Hv'))) as Hl'.
        refine (parts_apart c v v' Hl Hl' _ q U U'). rewrite <-Hcat0 in Hnd.
        intros <-. clear -Hnd N Hi Hj Hv Hv'. revert i j N Hi Hj. induction bs as [|x bs IH]; intros i j N Hi Hj; [done|].
        cbn in Hnd. apply NoDup_app in Hnd as (_ & Hd & Hnd). destruct i as [|i], j as [|j]; [done|..].
        * injection Hi as ->. apply (Hd v Hv). apply elem_of_list_In, in_concat. exists b'. split; [|by apply elem_of_list_In]. apply elem_of_list_In. by eapply elem_of_list_lookup_2.
        * injection Hj as ->. apply (Hd v Hv'). apply elem_of_list_In, in_concat. exists b. split; [|by apply elem_of_list_In]. apply elem_of_list_In. by eapply elem_of_list_lookup_2.
        * apply (IH Hnd i j); [congruence|done..].
  Qed.
  Lemma first_error_units (rs : list (res unit)) : (Forall (fun r => r = Ok tt) rs -> exists us, first_error rs = Ok us) /\ forall us, first_error rs = Ok us -> Forall (fun r => r = Ok tt) rs.
  Proof using.
    induction rs as [|[[]|ex] rs [IH1 IH2]]; cbn; split.
    - intros _. by eexists.
    - intros us _. constructor.
    - intros [_ H]%Forall_cons. destruct (IH1 H) as [us ->]. by eexists.
    - intros us. destruct (first_error rs) as [us'|]; [|done]. intros _. constructor; [done|]. by eapply IH2.
    - by intros [? _]%Forall_cons.
    - done.
  Qed.
  Lemma transaction bs : concat bs = vs -> exists r T, NoDup (map fst T) /\ Forall W (map fst T) /\
    (forall sched u, agree_out W s u -> exec (execute_transaction CTorn sched (tasks bs)) u = (r, writes T u)) /\
    (forall sched u, agree_out W s u -> always CTorn (between u T) (execute_transaction CTorn sched (tasks bs)) u) /\
    (forall us, r = Ok us -> T = concat (map L vs) /\ forall v, v ∈ vs -> R v = Ok tt) /\ ((forall v, v ∈ vs -> R v = Ok tt) -> exists us, r = Ok us).
  Proof using Hr Hs Hvs Hnd HRL.
    intros Hcat. assert (Hin : forall b v, b ∈ bs -> v ∈ b -> v ∈ vs).
    { intros b v Hb Hv. rewrite <-Hcat. apply elem_of_list_In, in_concat. exists b. split; by apply elem_of_list_In. }
    assert (Hin' : forall v, v ∈ vs -> exists b, b ∈ bs /\ v ∈ b).
    { intros v. rewrite <-Hcat. intros Hv. apply elem_of_list_In, in_concat in Hv as (b & Hb & Hv). exists b. split; by apply elem_of_list_In. }
    destruct (steady_batches bs Hin) as (rs & ns & Hl & HF & Hl' & H1 & H2). destruct (concat_takes bs ns Hl) as (ds & Eds & Hsub). rewrite Hcat in Hsub.
    set (ls := map (fun b => concat (map L b)) (zip_with take ns bs)) in *.
    assert (Els : concat ls = concat (map L ds)).
    { subst ls ds. clear. induction (zip_with take ns bs) as [|b k IH]; [done|]. cbn. by rewrite map_app, concat_app, IH. }
    assert (Hnd' : NoDup ds) by (by apply (proj2 (sublist_facts _ _ Hsub))). pose proof (proj1 (sublist_facts _ _ Hsub)) as Hds.
    destruct (all_writes ds Hnd' Hds) as [Hu1 Hu2].
    exists (first_error rs), (concat ls). rewrite Els. split_and!.
    - done.
    - apply Forall_forall. intros q Hq. apply Hu2 in Hq as (v & n & ci & Hv & Hn & ->). exists v, n, ci. split; [by apply Hds|done].
    - intros sched u Hu. rewrite (parts_transaction e c Hr (fun b => pfor (map (part_dir c) b) one) bs sched u); [|by rewrite Hcat|..].
      + assert (Hlen : length rs = length ls) by (unfold ls; rewrite map_length, zip_with_length; lia).
        rewrite (exec_all_steady W s _ rs ls HF Hlen u Hu). cbn [fst snd]. by rewrite Els.
      + intros v Hv. rewrite Hcat in Hv. exact (key_len c M I s Hs v (Hvs v Hv)).
      + intros b _. apply within_pfor. intros q Hq. apply elem_of_list_In, in_map_iff in Hq as (v & <- & Hv).
        eapply within_impl; [| |apply within_update_partition]; [done|]. intros q Hq. apply Exists_exists. exists v. split; [by apply elem_of_list_In|done].
    - intros sched u0 Hu0. rewrite <-Els.
      eapply always_impl; [|apply (always_transaction CTorn sched (tasks bs) _ _
        (fun i u => match bs !! i with Some b => forall q, region_of c b q -> u !! q = u0 !! q \/ exists x, (q, x) ∈ concat ls /\ (u !! q = Some CTorn \/ u !! q = Some x) | None => True end) u0 (parts_independent bs Hcat))].
      + intros u [Hphi Hout] q. destruct (decide (region_of c vs q)) as [Hq|Hq].
        * apply Exists_exists in Hq as (v & Hv & Uv). apply Hin' in Hv as (b & Hb & Hv). apply elem_of_list_lookup in Hb as (i & Ei).
          specialize (Hphi i). rewrite map_length in Hphi. specialize (Hphi (lookup_lt_Some _ _ _ Ei)). rewrite Ei in Hphi. apply Hphi. apply Exists_exists. by exists v.
        * left. apply Hout. intros i _ Hi. destruct (bs !! i) as [b|] eqn:Ei; [|done]. apply Hq. apply Exists_exists in Hi as (v & Hv & Uv). apply Exists_exists. exists v.
          split; [|done]. eapply Hin; [by eapply elem_of_list_lookup_2|done].
      + intros i _ u u' Hag. destruct (bs !! i) as [b|] eqn:Ei; [|done]. intros H q Hq. rewrite <-(Hag q); [by apply H|]. by right.
      + intros i p Ep. change (tasks bs) with ((fun b => pfor (map (part_dir c) b) one) <$> bs) in Ep. pose proof Ep as Ep0. rewrite list_lookup_fmap in Ep0. destruct (bs !! i) as [b|] eqn:Ei; [|done].
        destruct (Forall2_lookup_l _ _ _ i p HF Ep) as ([r l] & Erl & Hst). cbn [fst snd] in Hst. destruct Hst as [_ Hst]. destruct (Hst u0 Hu0) as [_ Ha].
        eapply always_impl; [|exact Ha]. intros u Hu q _. destruct (midway_files l u0 u q Hu) as [|(x & Hx & Hx')]; [by left|]. right. exists x. split; [|done].
        apply elem_of_list_In, in_concat. exists l. split; [|by apply elem_of_list_In]. apply elem_of_list_In. apply lookup_zip_with_Some in Erl as (? & ? & [= <- <-] & _ & El).
        by eapply elem_of_list_lookup_2.
    - intros us Hus. destruct (first_error_units rs) as [_ Hfe]. destruct (H1 (Hfe us Hus)) as [E Hall]. split.
      + rewrite <-Eds, E, Hcat. done.
      + intros v Hv. apply Hin' in Hv as (b & Hb & Hv). eauto.
    - intros Hall. apply first_error_units. apply H2. intros b v Hb Hv. apply Hall. by eapply Hin.
  Qed.
End whole.

Lemma select_reads e c filt : within (fun _ => True) (fun _ => False) (select_parts e c filt).
Proof. unfold select_parts. apply within_bind; [apply within_get_tree; auto|done]. Qed.
Section call.
  Context (e : env) (c : collection) (Hr : regular e c) (M : list Z -> option dataset) (I : option dataset) (s : store) (Hs : represents c M I s).
  Context (f : update_callback) (delayed : bool) (sel : option (list str)) (HX : forall n, returned f n -> ~ wanted sel n).
  Context (vs : list (list Z)) (Hvs : forall v, v ∈ vs -> is_Some (M v)) (Hnd : NoDup vs).
  Context (filt : filter) (Esel : exec (select_parts e c filt) s = (Ok (map (part_dir c) vs), s)).
  Local Notation W := (chunk_files c (returned f) vs).

  Definition ends {A : Type} (p : program A) (r : res A) (T : list (path * content)) : Prop :=
    forall u, agree_out W s u -> exec p u = (r, writes T u) /\ always CTorn (between u T) p u.
  Lemma ends_bind {A B : Type} (p : program A) (g : A -> program B) a r T : steady W s p (Ok a) [] -> ends (g a) r T -> ends (pbind p g) r T.
  Proof using.
    intros [_ Hp] Hg u0 Hu0. destruct (Hp u0 Hu0) as [E Hal], (Hg u0 Hu0) as [Eg Ha]. split; [rewrite exec_bind, E; exact Eg|]. apply always_bind.
    - eapply always_impl; [|exact Hal]. intros u Hu q. left. eapply midway_out; [exact Hu|]. apply not_elem_of_nil.
    - intros a' s' E'. rewrite E in E'. injection E' as <- <-. exact Ha.
  Qed.
  Lemma ends_bind_end {A B : Type} (p : program A) r T (b : B) : ends p r T -> ends (let! _ <- p; pret b) (match r with Ok _ => Ok b | Raise ex => Raise ex end) T.
  Proof using.
    intros Hp u Hu. destruct (Hp u Hu) as [E Ha]. split; [rewrite exec_bind, E; by destruct r|]. apply (always_pbind_end _ p (fun _ => Ok b)). exact Ha.
  Qed.
  Lemma ends_steady {A : Type} (p : program A) r : steady W s p r [] -> ends p r [].
  Proof using.
    intros [_ Hp] u0 Hu0. destruct (Hp u0 Hu0) as [E Hal]. split; [done|]. eapply always_impl; [|exact Hal].
    intros u Hu q. left. eapply midway_out; [exact Hu|]. apply not_elem_of_nil.
  Qed.

  Lemma steady_select : steady W s (select_parts e c filt) (Ok (map (part_dir c) vs)) [].
  Proof using Hr Hs Hvs Esel.
    apply steady_reads; [apply select_reads|]. intros u Hu. rewrite (select_blind e c Hr M I s Hs (returned f) vs Hvs u filt Hu), Esel. done.
  Qed.
  Lemma steady_infer : exists r, steady W s (infer_callable e c f filt delayed sel) r [].
  Proof using Hr Hs HX Hvs Esel.
    unfold infer_callable. pose proof steady_select as Hsel.
    assert (vs = [] \/ exists v l, vs = v :: l) as [Ev|(v & l & Ev)] by (clear; destruct vs; eauto).
    - assert (map (part_dir c) vs = []) as Em by (by rewrite Ev). rewrite Em in Hsel. eexists. exact (steady_bind W s _ _ _ _ [] [] Hsel (steady_ret W s (Ok []))).
    - assert (map (part_dir c) vs = part_dir c v :: map (part_dir c) l) as Em by (by rewrite Ev). rewrite Em in Hsel. assert (Hv : v ∈ vs) by (rewrite Ev; left).
      assert (Ho : exists r, steady W s (open_zarr_group (part_dir c v) delayed sel) r []).
      { eexists. apply steady_reads; [apply open_reads|]. intros u Hu. exact (open_blind c M I s Hs (returned f) sel HX vs Hvs u v delayed Hu (key_len c M I s Hs v (Hvs v Hv))). }
      destruct Ho as [[ds|ex] Ho].
      + destruct (dget (d_dims ds) (c_dim c)) as [n|] eqn:En; [destruct (call_dict (call_with f ds (c_dim c, (0, n)))) as [k|ex] eqn:Ek; [destruct (forallb (fun x => dmem (md_vars (c_meta c)) x) (dkeys k)) eqn:Ef|]|];
        (eexists; apply (steady_bind W s _ _ _ _ [] [] Hsel); apply (steady_bind W s _ _ _ _ [] [] Ho); rewrite En; try rewrite Ek; try rewrite Ef; apply steady_ret).
      + eexists; apply (steady_bind W s _ _ _ _ [] [] Hsel). apply steady_bind_raise. exact Ho.
  Qed.

  Definition asked (workers : Z) (np : option Z) : Z := match np with Some n => if (n =? 0)%Z then workers else n | None => workers end.
  Lemma interrupted workers np trim variables : exists r T, NoDup (map fst T) /\ Forall W (map fst T) /\
    (forall sched, ends (update e sched workers c f delayed 0 filt np sel trim variables) r T) /\
    (r = Ok tt -> forall workers' np' sched, (0 < asked workers' np')%Z -> ends (update e sched workers' c f delayed 0 filt np' sel trim variables) (Ok tt) T).
  Proof using Hr Hs HX Hvs Hnd Esel.
    destruct (c_readonly c) eqn:Ero.
    { exists (Raise UnsupportedOperation), []. split; [constructor|]. split; [constructor|]. split; [|done]. intros sched. unfold update. rewrite Ero. apply ends_steady, steady_ret. }
    set (body := fun sched n => let! parts <- select_parts e c filt;
             let! batches <- Ret (split_sequence parts (Some n));
             let! _ <- execute_transaction CTorn sched (map (fun b => pfor b (update_partition c delayed sel f)) batches); pret tt).
    assert (Eup : forall sched workers np, update e sched workers c f delayed 0 filt np sel trim variables =
      let! variables <- match variables with [] => infer_callable e c f filt delayed sel | _ => pret variables end;
      match variables with [] => pret tt | _ => body sched (asked workers np) end).
    { intros. unfold update. rewrite Ero. reflexivity. }
    assert (Hpre : exists r, steady W s (match variables with [] => infer_callable e c f filt delayed sel | _ => pret variables end) r []).
    { destruct variables; [apply steady_infer|eexists; apply steady_ret]. }
    destruct Hpre as [[[|x names]|ex] Hpre].
    - exists (Ok tt), []. split; [constructor|]. split; [constructor|].
      assert (Hall : forall sched workers np, ends (update e sched workers c f delayed 0 filt np sel trim variables) (Ok tt) []).
      { intros. rewrite Eup. eapply ends_bind; [exact Hpre|]. apply ends_steady, steady_ret. }
      split; [done|]. intros _ workers' np' sched _. apply Hall.
    - destruct (partition_writes e c Hr M I s Hs f delayed sel HX vs Hvs) as (R & L & HRL).
      assert (Hbody : forall n bs, split_sequence (map (part_dir c) vs) (Some n) = Ok (map (map (part_dir c)) bs) -> concat bs = vs ->
        exists r T, NoDup (map fst T) /\ Forall W (map fst T) /\ (forall sched, ends (body sched n) r T) /\
          (r = Ok tt -> T = concat (map L vs) /\ forall v, v ∈ vs -> R v = Ok tt) /\ ((forall v, v ∈ vs -> R v = Ok tt) -> r = Ok tt)).
      { intros n bs Eb Hcat. destruct (transaction e c Hr M I s Hs f delayed sel vs Hvs Hnd R L HRL bs Hcat) as (r & T & H1 & H2 & H3 & H4 & H5 & H6).
        exists (match r with Ok _ => Ok tt | Raise ex => Raise ex end), T. split; [done|]. split; [done|]. split; [|split].
        - intros sched. eapply ends_bind; [exact steady_select|]. rewrite Eb. eapply ends_bind; [apply steady_ret|]. apply ends_bind_end. rewrite map_map. intros u Hu. split; [by apply H3|by apply H4].
        - destruct r as [us|ex]; [|done]. intros _. by eapply H5.
        - intros Hall. destruct (H6 Hall) as [us ->]. done. }
      destruct (split_sequence (map (part_dir c) vs) (Some (asked workers np))) as [batches|ex] eqn:Eb.
      + pose proof Eb as Eb0. apply split_map in Eb0 as (bs & _ & -> & Hcat). destruct (Hbody _ bs Eb Hcat) as (r & T & H1 & H2 & H3 & H4 & H5).
        exists r, T. split; [done|]. split; [done|]. split; [intros sched; rewrite Eup; eapply ends_bind; [exact Hpre|]; apply H3|].
        intros -> workers' np' sched Hn. destruct (H4 eq_refl) as [-> Hall]. rewrite Eup.
        destruct (split_sequence (map (part_dir c) vs) (Some (asked workers' np'))) as [batches'|ex] eqn:Eb'.
        * pose proof Eb' as Eb1. apply split_map in Eb1 as (bs' & _ & -> & Hcat'). destruct (Hbody _ bs' Eb' Hcat') as (r' & T' & _ & _ & H3' & H4' & H5').
          rewrite (H5' Hall) in *. destruct (H4' eq_refl) as [-> _]. assert (E : ends (pbind (match variables with [] => infer_callable e c f filt delayed sel | _ => pret variables end)
            (fun variables => match variables with [] => pret tt | _ => body sched (asked workers' np') end)) (Ok tt) (concat (map L vs))) by (eapply ends_bind; [exact Hpre|]; apply H3').
          exact E.
        * exfalso. assert (Hne : map (part_dir c) vs <> []).
          { intros Em. rewrite Em in Eb. unfold split_sequence in Eb. destruct (_ <=? 0)%Z eqn:Ele; [done|]. apply Z.leb_gt in Ele. cbn [length] in Eb.
            rewrite Z.min_r in Eb by lia. done. }
          pose proof (split_sequence_ok (map (part_dir c) vs) (Some (asked workers' np')) Hne Hn) as Hok. by rewrite Eb' in Hok.
      + exists (Raise ex), []. split; [constructor|]. split; [constructor|]. split; [|done]. intros sched. rewrite Eup. eapply ends_bind; [exact Hpre|]. eapply ends_bind; [exact steady_select|].
        rewrite Eb. apply ends_steady, steady_bind_raise, steady_ret.
    - exists (Raise ex), []. split; [constructor|]. split; [constructor|]. split; [|done]. intros sched. rewrite Eup. apply ends_steady. by apply steady_bind_raise.
  Qed.
End call.

(** ** Whatever the callback does *)
Lemma within_chunks (W : path -> Prop) d z skip a : (forall ci, W (d ++ [chunk_key ci])) -> within (fun _ => True) W (write_chunks d z skip a).
Proof. intros H. apply within_pfor. intros ci _. cbv zeta. destruct (skip && _); [done|]. by apply within_write. Qed.
Lemma reads_within {A : Type} (W : path -> Prop) (p : program A) : within (fun _ => True) (fun _ => False) p -> within (fun _ => True) W p.
Proof. apply within_impl; [done|by intros q []]. Qed.
Section any_callback.
  Context (e : env) (c : collection) (Hr : regular e c) (M : list Z -> option dataset) (I : option dataset) (s : store) (Hs : represents c M I s).
  Context (f : update_callback) (delayed : bool) (sel : option (list str)) (vs : list (list Z)) (Hvs : forall v, v ∈ vs -> is_Some (M v)).
  Context (filt : filter) (Esel : exec (select_parts e c filt) s = (Ok (map (part_dir c) vs), s)).
  Local Notation W := (chunk_files c (returned f) vs).

  Lemma within_one v : v ∈ vs -> within (fun _ => True) W (update_partition c delayed sel f (part_dir c v)).
  Proof using.
    intros Hv. unfold update_partition. apply within_bind; [apply reads_within, load_reads|]. intros ds.
    destruct (call_dict (cb_call f ds None)) as [l|ex] eqn:Ec; [|done]. destruct (call_dict_keys f ds None l Ec) as [_ Hret]. cbn [pbind].
    apply within_pfor. intros [m x] Hm. cbn [fst snd]. assert (Hm' : m ∈ dkeys l) by (apply elem_of_list_In, in_map_iff; exists (m, x); split; [done|by apply elem_of_list_In]).
    unfold update_zarr_array. apply within_bind; [apply within_read_file; auto|]. intros z. destruct z as [[[z| |]| | | | | |]|]; try done.
    apply within_bind.
    - destruct x as [d|g]; [done|]. cbn [evaluate]. destruct delayed; [|done]. apply within_bind; [apply reads_within, load_reads|done].
    - intros a. cbv zeta. destruct (z_shape z) eqn:Ez; [done|]. destruct (bool_decide _); [|done]. apply within_chunks. intros ci. exists v, m, ci. rewrite <-app_assoc.
      split_and!; [done|by apply Hret|done].
  Qed.
  Lemma stopped_out sched workers np trim variables u u' : agree_out W s u ->
    stopped_at (update e sched workers c f delayed 0 filt np sel trim variables) u u' -> agree_out W s u'.
  Proof using Hr Hs Hvs Esel.
    intros Hu [p' Hst].
    assert (Ha : always CTorn (agree_out W s) (update e sched workers c f delayed 0 filt np sel trim variables) u).
    { unfold update. destruct (c_readonly c); [by split|]. apply always_bind.
      - destruct variables; [|by split]. apply always_read; [|done]. unfold infer_callable. apply within_bind; [apply select_reads|]. intros [|q parts]; [done|].
        apply within_bind; [apply open_reads|]. intros ds. destruct (dget _ _); [|done]. destruct (call_dict _); [|done]. by destruct (forallb _ _).
      - intros names u1 E1. assert (u1 = u) as ->.
        { destruct variables; [|by injection E1]. apply (f_equal snd) in E1. cbn in E1. rewrite <-E1. apply map_eq. intros q.
          apply (exec_outside (fun _ => True) (fun _ => False) (infer_callable e c f filt delayed sel) u q); [|tauto]. unfold infer_callable. apply within_bind; [apply select_reads|]. intros [|q' parts]; [done|].
          apply within_bind; [apply open_reads|]. intros ds. destruct (dget _ _); [|done]. destruct (call_dict _); [|done]. by destruct (forallb _ _). }
        destruct names as [|x names]; [by split|]. cbv zeta. change (0 =? 0)%Z with true. change (0 <? 0)%Z with false. cbv iota.
        apply always_bind; [apply always_read; [apply select_reads|done]|]. intros parts u2 E2.
        assert (parts = map (part_dir c) vs /\ u2 = u) as [-> ->].
        { pose proof (select_blind e c Hr M I s Hs (returned f) vs Hvs u filt Hu) as Eb. rewrite Esel, E2 in Eb. cbn in Eb. injection Eb as ->. split; [done|].
          apply (f_equal snd) in E2. cbn [snd] in E2. rewrite <-E2. apply map_eq. intros q. apply (exec_outside (fun _ => True) (fun _ => False) (select_parts e c filt) u q); [apply select_reads|tauto]. }
        apply always_bind; [by split|]. intros batches u3 E3. injection E3 as Eb <-. apply split_map in Eb as (bs & _ & -> & Hcat).
        apply (always_pbind_end _ _ (fun _ => Ok tt)). eapply (always_within W); [|exact Hu|done]. apply within_transaction. intros p Hp.
        apply elem_of_list_In, in_map_iff in Hp as (b & <- & Hb). apply in_map_iff in Hb as (b' & <- & Hb). apply within_pfor. intros q Hq.
        apply elem_of_list_In, in_map_iff in Hq as (v & <- & Hv). apply within_one. rewrite <-Hcat. apply elem_of_list_In, in_concat. by exists b'. }
    exact (always_sound CTorn _ _ _ _ _ Ha Hst).
  Qed.
End any_callback.

(** ** Loading *)
Section loading.
  Context (e : env) (c : collection) (Hr : regular e c) (M : list Z -> option dataset) (I : option dataset) (s : store) (Hs : represents c M I s).
  Context (X : str -> Prop) (vs : list (list Z)) (Hvs : forall v, v ∈ vs -> is_Some (M v)).
  Local Notation W := (chunk_files c X vs).
  Lemma steady_pseq_reads {A B : Type} (g : A -> program B) (l : list A) : (forall a, a ∈ l -> exists r, steady W s (g a) r []) -> exists r, steady W s (pseq (map g l)) r [].
  Proof using.
    induction l as [|a l IH]; intros H; [eexists; apply steady_ret|]. destruct (H a ltac:(left)) as [[b|ex] Ha]; [|eexists; apply steady_bind_raise; exact Ha].
    destruct IH as [[bs|ex] Hl]; [intros x Hx; apply H; by right|..]; cbn [map pseq].
    - eexists. apply (steady_bind W s _ _ _ _ [] [] Ha). apply (steady_bind W s _ _ _ _ [] [] Hl). apply steady_ret.
    - eexists. apply (steady_bind W s _ _ _ _ [] [] Ha). apply steady_bind_raise. exact Hl.
  Qed.
  Lemma load_all_blind u delayed filt sel : (forall n, X n -> ~ wanted sel n) -> agree_out W s u -> (exec (load e c delayed filt sel) u).1 = (exec (load e c delayed filt sel) s).1.
  Proof using Hr Hs Hvs.
    intros HX Hu. assert (exists r, steady W s (load e c delayed filt sel) r []) as (r & _ & H).
    2:{ destruct (H u Hu) as [-> _], (H s ltac:(done)) as [-> _]. done. }
    assert (Hsel : steady W s (select_parts e c filt) (exec (select_parts e c filt) s).1 []).
    { apply steady_reads; [apply select_reads|]. intros u' Hu'. exact (select_blind e c Hr M I s Hs X vs Hvs u' filt Hu'). }
    assert (Hparts : forall parts, (exec (select_parts e c filt) s).1 = Ok parts -> forall q, q ∈ parts -> exists v, length v = length (p_keys (c_part c)) /\ q = part_dir c v).
    { intros parts Ep q Hq. destruct (select_laid e c Hr s filt (represents_laid_out c M I s Hs)) as (k & _ & Hk & Es). rewrite Es in Ep. cbn in Ep.
      destruct (filter_res_sub _ _ _ Ep) as (g & -> & _). apply elem_of_list_In, filter_In in Hq as [Hq _]. apply in_map_iff in Hq as (v & <- & Hv). exists v. split; [|done]. apply elem_of_list_In in Hv. by apply Hk in Hv as [? _]. }
    unfold load. destruct (exec (select_parts e c filt) s).1 as [parts|ex]; [|eexists; apply steady_bind_raise; exact Hsel].
    specialize (Hparts parts eq_refl). destruct parts as [|p parts]; [eexists; apply (steady_bind W s _ _ _ _ [] [] Hsel); apply steady_ret|].
    destruct (steady_pseq_reads (fun q => open_zarr_group q delayed sel) (p :: parts)) as [[arrays|ex] Ha].
    { intros q Hq. destruct (Hparts q Hq) as (v & Hl & ->). eexists. apply steady_reads; [apply open_reads|]. intros u' Hu'. exact (open_blind c M I s Hs X sel HX vs Hvs u' v delayed Hu' Hl). }
    2:{ eexists. apply (steady_bind W s _ _ _ _ [] [] Hsel). apply steady_bind_raise. exact Ha. }
    assert (Hi : exists r, steady W s (load_immutable c delayed sel) r []).
    { unfold load_immutable, immutable_path. destruct (c_immutable c); [|eexists; apply steady_ret].
      assert (Ho : exists r, steady W s (open_zarr_group (c_dir c ++ [IMMUTABLE]) delayed sel) r []).
      { eexists. apply steady_reads; [apply open_reads|]. intros u' Hu'. unfold open_zarr_group. rewrite !exec_bind, !exec_get_tree. cbn [exec fst].
        rewrite (immutable_blind e c Hr M I s Hs X vs Hvs u' Hu'). reflexivity. }
      destruct Ho as [[i|ex] Ho]; [eexists; apply (steady_bind W s _ _ _ _ [] [] Ho); apply steady_ret|eexists; apply steady_bind_raise; exact Ho]. }
    destruct Hi as [[i|ex] Hi].
    - destruct (assemble c arrays i) as [ds|ex] eqn:Eas; (eexists; apply (steady_bind W s _ _ _ _ [] [] Hsel); apply (steady_bind W s _ _ _ _ [] [] Ha); apply (steady_bind W s _ _ _ _ [] [] Hi); rewrite Eas; apply steady_ret).
    - eexists. apply (steady_bind W s _ _ _ _ [] [] Hsel). apply (steady_bind W s _ _ _ _ [] [] Ha). apply steady_bind_raise. exact Hi.
  Qed.
End loading.
