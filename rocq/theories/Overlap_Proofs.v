(** * The neighbours of a partition *)
From Verif Require Import Py Dict NdArray_Model NdArray_Spec NdArray_Proofs Dataset_Model Dataset_Spec Dataset_Proofs Dataset_Main Dataset_Props Dataset_Props2 Meta_Model PartPath_Model PartPath_Proofs
  Split_Spec DaskUtils_Model DaskUtils_Proofs FS_Model FS_Proofs Pool_Model Pool_Proofs Storage_Model Storage_Chunks Storage_Spec Storage_Proofs
  Listing_Model Listing_Spec Listing_Proofs Assemble_Proofs Collection_Model Collection_Spec Collection_Split Collection_Proofs Collection_State Collection_Select Collection_Load
  Update_Model Update_Spec Storage_Change Update_State Update_Proofs.

(** ** The window *)
Lemma zrange_spec a b z : z ∈ zrange a b <-> (a <= z < b)%Z.
Proof.
  unfold zrange. rewrite elem_of_list_In, in_map_iff. setoid_rewrite in_seq. split.
  - intros (i & <- & Hi). lia.
  - intros Hz. exists (Z.to_nat (z - a)). lia.
Qed.
Lemma zrange_cons a b : (a < b)%Z -> zrange a b = a :: zrange (a + 1) b.
Proof.
  intros H. unfold zrange. replace (Z.to_nat (b - a)) with (S (Z.to_nat (b - (a + 1)))) by lia. cbn [seq map]. f_equal; [lia|].
  rewrite <-seq_shift, map_map. apply map_ext. intros i. lia.
Qed.
Lemma zrange_nil a b : (b <= a)%Z -> zrange a b = [].
Proof. intros H. unfold zrange. by replace (Z.to_nat (b - a)) with 0 by lia. Qed.
Lemma zrange_app a b d : (a <= b)%Z -> (b <= d)%Z -> zrange a d = zrange a b ++ zrange b d.
Proof.
  intros H1 H2. remember (Z.to_nat (b - a)) as n eqn:En. revert a H1 En. induction n as [|n IH]; intros a H1 En.
  - replace b with a by lia. by rewrite (zrange_nil a a).
  - rewrite (zrange_cons a d), (zrange_cons a b) by lia. cbn. f_equal. apply IH; lia.
Qed.
Section window.
  Context {A : Type}.
  Local Notation get l ix := (if (0 <=? ix)%Z then l !! Z.to_nat ix else None) (only parsing).
  Lemma omap_app_list {B C : Type} (f : B -> option C) l k : omap f (l ++ k) = omap f l ++ omap f k.
  Proof. induction l as [|x l IH]; [done|]. cbn. destruct (f x); cbn; by rewrite IH. Qed.
  Lemma window_take (l : list A) : forall a n, omap (fun ix => get l ix) (zrange (Z.of_nat a) (Z.of_nat a + Z.of_nat n)) = take n (drop a l).
  Proof.
    intros a n. revert a. induction n as [|n IH]; intros a; [by rewrite zrange_nil by lia|].
    rewrite zrange_cons by lia. cbn [omap list_omap]. rewrite (proj2 (Z.leb_le _ _)) by lia. rewrite Nat2Z.id.
    replace (Z.of_nat a + 1)%Z with (Z.of_nat (S a)) by lia. replace (Z.of_nat a + Z.of_nat (S n))%Z with (Z.of_nat (S a) + Z.of_nat n)%Z by lia.
    change (list_omap _ _ ?f ?x) with (omap f x). rewrite IH. destruct (l !! a) as [x|] eqn:E.
    - rewrite (drop_S l x a) by done. done.
    - apply lookup_ge_None in E. rewrite !drop_ge by lia. by rewrite !take_nil.
  Qed.
  Lemma window_negative (l : list A) a : omap (fun ix => get l ix) (zrange a 0) = [].
  Proof.
    remember (Z.to_nat (- a)) as n eqn:En. revert a En. induction n as [|n IH]; intros a En; [by rewrite zrange_nil by lia|].
    rewrite zrange_cons by lia. cbn [omap list_omap]. rewrite (proj2 (Z.leb_gt _ _)) by lia. apply IH. lia.
  Qed.
  (** The elements at distance at most [depth] of the [i]th, in order. *)
  Lemma window_around (pre post : list A) x (depth : nat) :
    window (pre ++ x :: post) (length pre) (Z.of_nat depth) = drop (length pre - depth) pre ++ x :: take depth post.
  Proof.
    unfold window. set (i := length pre).
    assert (Hpos : omap (fun ix => get (pre ++ x :: post) ix) (zrange (Z.of_nat (i - depth)) (Z.of_nat i + Z.of_nat depth + 1)) = drop (i - depth) pre ++ x :: take depth post).
    { replace (Z.of_nat i + Z.of_nat depth + 1)%Z with (Z.of_nat (i - depth) + Z.of_nat (i - (i - depth) + S depth))%Z by lia.
      rewrite window_take. rewrite drop_app_le by lia. rewrite take_app_ge by (rewrite drop_length; lia). f_equal. rewrite drop_length. fold i.
      replace (i - (i - depth) + S depth - (i - (i - depth))) with (S depth) by lia. done. }
    rewrite <-Hpos. destruct (decide (depth <= i)) as [Hle|Hgt].
    - f_equal. f_equal. lia.
    - rewrite (zrange_app (Z.of_nat i - Z.of_nat depth) 0) by lia. rewrite omap_app_list, window_negative. cbn [app]. f_equal. f_equal. lia.
  Qed.
End window.
Lemma where_is_app part pre post : part ∉ pre -> where_is part (pre ++ part :: post) = Some (length pre).
Proof.
  induction pre as [|q pre IH]; intros Hn; cbn.
  - by rewrite decide_True.
  - rewrite decide_False by (intros ->; apply Hn; left). rewrite IH; [done|]. intros Hin. apply Hn. by right.
Qed.
Lemma where_is_some part parts i : where_is part parts = Some i -> exists pre post, parts = pre ++ part :: post /\ length pre = i.
Proof.
  revert i. induction parts as [|q parts IH]; intros i; cbn; [done|]. destruct (decide (part = q)) as [->|]; [intros [= <-]; by exists [], parts|].
  destruct (where_is part parts) as [j|]; [|done]. intros [= <-]. destruct (IH j eq_refl) as (pre & post & -> & <-). by exists (q :: pre), post.
Qed.
Lemma calculate_slice_ok dim part ix : forall before bs start g after n, Forall2 (fun b m => dget (d_dims b.2) dim = Some m /\ b.1 <> part) before bs ->
  dget (d_dims g) dim = Some n ->
  calculate_slice dim part start ix (before ++ (part, g) :: after) = Ok (start + sum_list bs, start + sum_list bs + n).
Proof.
  intros before bs start g after n H. revert start ix. induction H as [|[q d] m before bs [Hm Hne] _ IH]; intros start ix Hn; cbn.
  - rewrite Hn, decide_True by done. by rewrite !Nat.add_0_r.
  - cbn in Hm, Hne. rewrite Hm, decide_False by congruence. rewrite IH by done. f_equal. f_equal; lia.
Qed.

Lemma mjoin_app {A} (l k : list (list A)) : mjoin (l ++ k) = mjoin l ++ mjoin k.
Proof. induction l as [|x l IH]; [done|]. cbn. rewrite <-app_assoc. f_equal. exact IH. Qed.

Lemma Forall_app_cons {A} (P : A -> Prop) l x k : Forall P (l ++ x :: k) -> Forall P l /\ P x /\ Forall P k.
Proof. intros [? H]%Forall_app. inversion H. done. Qed.

(** The partitions that are read. *)
Lemma overlap_window c (depth : nat) pre v post : NoDup (pre ++ v :: post) -> (forall w, w ∈ pre ++ v :: post -> length w = length (p_keys (c_part c))) ->
  (where_is (part_dir c v) (map (part_dir c) (pre ++ v :: post)) = Some (length pre) /\
   window (map (part_dir c) (pre ++ v :: post)) (length pre) (Z.of_nat depth) = map (part_dir c) (drop (length pre - depth) pre ++ v :: take depth post)) /\
  (forall w, w ∈ drop (length pre - depth) pre ++ v :: take depth post -> w ∈ pre ++ v :: post) /\
  (forall w, w ∈ drop (length pre - depth) pre -> part_dir c w <> part_dir c v).
Proof.
  intros Hnd Hlen.
  assert (Hinj : forall a b, a ∈ pre ++ v :: post -> b ∈ pre ++ v :: post -> part_dir c a = part_dir c b -> a = b).
  { intros a b Ha Hb Eab. destruct (decide (a = b)) as [|N]; [done|]. exfalso.
    apply (parts_apart c a b (Hlen a Ha) (Hlen b Hb) N (part_dir c a)); [apply under_refl|rewrite Eab; apply under_refl]. }
  assert (Hnotpre : v ∉ pre) by (apply NoDup_app in Hnd as (_ & Hd & _); intros Hp; apply (Hd _ Hp); left).
  assert (Hpre : forall w, w ∈ pre -> part_dir c w <> part_dir c v).
  { intros w Hw Eq. apply Hnotpre. rewrite <-(Hinj w v); [done| | |done]; rewrite elem_of_app; [by left|right; left]. }
  assert (Hsub : forall w, w ∈ drop (length pre - depth) pre -> w ∈ pre).
  { intros w H. rewrite <-(take_drop (length pre - depth) pre). apply elem_of_app. by right. }
  split; [split|split].
  - rewrite map_app. cbn [map]. rewrite where_is_app; [by rewrite map_length|].
    intros Hp. apply elem_of_list_In, in_map_iff in Hp as (w & Ew & Hw%elem_of_list_In). by apply (Hpre w).
  - rewrite map_app. cbn [map]. replace (length pre) with (length (map (part_dir c) pre)) at 1 by apply map_length. rewrite window_around, map_length.
    rewrite map_app. cbn [map]. f_equal; [|f_equal].
    + change (map (part_dir c) pre) with (part_dir c <$> pre). by rewrite <-fmap_drop.
    + change (map (part_dir c) post) with (part_dir c <$> post). by rewrite <-fmap_take.
  - intros w. rewrite !elem_of_app, !elem_of_cons. intros [H|[H|H]]; [left; auto|right; by left|right; right].
    rewrite <-(take_drop depth post). apply elem_of_app. by left.
  - intros w Hw. auto.
Qed.

(** ** Reading the neighbours *)
Section around.
  Context (e : env) (c : collection) (Hr : regular e c) (M : list Z -> option dataset) (I : option dataset) (s : store).
  Context (Hs : represents c M I s) (Hu : uniform c M I).
  Context (delayed : bool) (sel : option (list str)).

  Lemma opens_size old o : sound old -> opens delayed sel old o -> measured (c_dim c) sel old ->
    exists m, dget (d_dims o) (c_dim c) = Some m /\ forall n v rs, dget (d_vars old) n = Some v -> wanted sel n -> records v (c_dim c) = Some rs -> length rs = m.
  Proof using.
    intros Hso (Hrd & Hinv & _) (n & v & Hw & Hv & Hd). apply elem_of_list_lookup_1 in Hd as [k Hk].
    assert (Ho : forall n v, wanted sel n -> dget (d_vars old) n = Some v -> dget (d_vars o) n = Some (with_delayed (stored v) delayed)).
    { intros n' v' Hw' Hv'. apply (reads_vars _ _ _ _ Hrd). split; [done|]. by exists v'. }
    destruct (proj1 Hinv _ _ (Ho n v Hw Hv)) as (_ & _ & Hsz). destruct (Hsz k (c_dim c) Hk) as (m & _ & Hm). exists m. split; [done|].
    intros n' v' rs Hv' Hw' Hrs. unfold records in Hrs. destruct (list_find _ (v_dims v')) as [[ax d]|] eqn:Ef; [|done]. injection Hrs as <-.
    apply list_find_Some in Ef as (Hax & -> & _). destruct (proj1 Hinv _ _ (Ho n' v' Hw' Hv')) as (_ & _ & Hsz'). destruct (Hsz' ax (c_dim c) Hax) as (m' & Hm1 & Hm2).
    rewrite rows_length. change (v_shape (with_delayed (stored v') delayed)) with (a_shape (v_array v')) in Hm1. rewrite (nth_lookup_Some _ _ _ _ Hm1). congruence.
  Qed.

  Lemma opened vs olds : Forall2 (fun v d => M v = Some d) vs olds ->
    exists os, Forall2 (fun v o => exec (open_zarr_group (part_dir c v) delayed sel) s = (Ok o, s)) vs os /\ Forall2 (opens delayed sel) olds os.
  Proof using Hs.
    induction 1 as [|v d vs olds Hv _ (os & H1 & H2)]; [by exists []|]. destruct (rp_part _ _ _ _ Hs _ _ Hv) as (_ & Hso & Hh).
    destruct (open_opens _ s d delayed sel Hso Hh) as (o & E & Ho). exists (o :: os). split; by constructor.
  Qed.
  Lemma held vs : (forall v, v ∈ vs -> is_Some (M v)) -> exists olds, Forall2 (fun v d => M v = Some d) vs olds.
  Proof using.
    induction vs as [|v vs IH]; intros H; [by exists []|]. destruct (H v ltac:(left)) as [d Hd]. destruct IH as [olds Ho]; [intros w Hw; apply H; by right|].
    exists (d :: olds). by constructor.
  Qed.

  Lemma records_sum n : forall olds os rss, Forall2 (opens delayed sel) olds os -> Forall (measured (c_dim c) sel) olds -> Forall sound olds -> wanted sel n ->
    records_in (c_dim c) n olds rss -> exists ms, Forall2 (fun o m => dget (d_dims o) (c_dim c) = Some m) os ms /\ length (mjoin rss) = sum_list ms.
  Proof using.
    intros olds os rss Hop. revert rss. induction Hop as [|d o olds os Ho _ IH]; intros rss Hme Hso Hw Hrec; inversion Hrec as [|? rs ? rss' (v & Hv & Hrs) Hrec']; subst.
    - exists []. split; [constructor|done].
    - inversion Hme; subst. inversion Hso; subst. destruct (IH rss') as (ms & Hms & Hl); [done..|]. destruct (opens_size d o) as (m & Hm & Hlen); [done..|].
      exists (m :: ms). split; [by constructor|]. change (mjoin (rs :: rss')) with (rs ++ mjoin rss'). cbn [sum_list sum_list_with]. rewrite app_length, Hl. f_equal. by rewrite (Hlen n v rs).
  Qed.

  (** What is computed from the groups that are read. *)
  Lemma around_ok wb v wa before old after ob o oa :
    Forall sound (before ++ old :: after) -> Forall (measured (c_dim c) sel) (before ++ old :: after) ->
    (forall a b, a ∈ before ++ old :: after -> b ∈ before ++ old :: after -> same_layout (c_dim c) a b) ->
    Forall2 (opens delayed sel) before ob -> opens delayed sel old o -> Forall2 (opens delayed sel) after oa ->
    length wb = length before -> (forall w, w ∈ wb -> part_dir c w <> part_dir c v) ->
    exists ds range, calculate_slice (c_dim c) (part_dir c v) 0 (0, 0) (zip (map (part_dir c) (wb ++ v :: wa)) (ob ++ o :: oa)) = Ok range /\
      (exists g others, ob ++ o :: oa = g :: others /\ (match others with [] => Ok g | _ => ds_concat g others (c_dim c) end) = Ok ds) /\
      seen_around (c_dim c) delayed sel before old after ds range.
  Proof using.
    intros Hso Hme Hlay Hob Ho Hoa Hlw Hne.
    pose proof Hso as (Hsb & Hsv & Hsa)%Forall_app_cons. pose proof Hme as (Hmb & Hmv & Hma)%Forall_app_cons.
    destruct (opens_size old o Hsv Ho Hmv) as (m & Hm & Hmlen).
    assert (exists ms, Forall2 (fun o m => dget (d_dims o) (c_dim c) = Some m) ob ms) as (ms & Hmsb).
    { clear -Hob Hmb Hsb. induction Hob as [|d o ds os Ho _ IH]; [by exists []|]. inversion Hmb; inversion Hsb; subst. destruct IH as [ms ?]; [done..|].
      destruct (opens_size d o) as (m & Hm & _); [done..|]. exists (m :: ms). by constructor. }
    assert (Hzip : zip (map (part_dir c) (wb ++ v :: wa)) (ob ++ o :: oa) = zip (map (part_dir c) wb) ob ++ (part_dir c v, o) :: zip (map (part_dir c) wa) oa).
    { rewrite map_app. rewrite zip_with_app; [done|]. rewrite map_length. apply Forall2_length in Hob. congruence. }
    rewrite Hzip, (calculate_slice_ok (c_dim c) (part_dir c v) (0, 0) _ ms 0 o _ m); [|  |done].
    2:{ assert (Hl : length wb = length ob) by (apply Forall2_length in Hob; congruence).
        clear -Hmsb Hne Hl. revert Hne Hl. generalize wb. induction Hmsb as [|o m ob ms Hm _ IH]; intros [|w l] Hne Hl; try done; [constructor|]. cbn in *.
        constructor; [split; [done|apply Hne; left]|]. apply IH; [intros x Hx; apply Hne; by right|lia]. }
    assert (exists g others p ps, ob ++ o :: oa = g :: others /\ before ++ old :: after = p :: ps /\ Forall2 (opens delayed sel) (p :: ps) (g :: others)) as (g & others & p & ps & Eg & Ep & Hgo).
    { inversion Hob; subst; cbn; do 4 eexists; (split; [done|]); (split; [done|]); [by constructor|]. constructor; [done|]. apply Forall2_app; [done|by constructor]. }
    destruct (gather_parts delayed sel (c_dim c) p ps g others) as (ds & Ed & Hpr & Hinv & Hdl & Hnames & Hvars & _).
    { by rewrite <-Ep. }
    { apply Forall_forall. intros x Hx. apply Hlay; rewrite Ep; [left|by right]. }
    { done. }
    exists ds, (0 + sum_list ms, 0 + sum_list ms + m). split; [done|]. split; [by exists g, others|].
    assert (Hpold : forall n, n ∈ dkeys (d_vars p) <-> n ∈ dkeys (d_vars old)).
    { apply Hlay; [rewrite Ep; left|apply elem_of_app; right; left]. }
    split; [|..].
    - intros n. by rewrite Hnames, Hpold.
    - intros n v' Hv'. destruct (Hvars n v' Hv') as (vp & Hvp & Hsame & _). exists vp. split; [|done].
      destruct before as [|b before]; cbn in Ep; by injection Ep as <- _.
    - clear Hdl. intros n v0 v' Hv' Hv0 Hd. destruct (Hvars n v' Hv') as (vp & Hvp & _ & Hrec).
      destruct (Hlay p old ltac:(rewrite Ep; left) ltac:(apply elem_of_app; right; left)) as [_ HL]. destruct (HL n vp v0 Hvp Hv0) as (Hdd & _).
      destruct Hrec as (rss & Hrss & Hr'); [by rewrite <-Hdd|]. rewrite <-Ep in Hrss.
      apply Forall2_app_inv_l in Hrss as (brs & rest & Hbrs & Hrest & ->). inversion Hrest as [|? rs ? ars (v1 & Hv1 & Hrs) Hars]; subst.
      assert (v1 = v0) as -> by congruence.
      assert (Hw : wanted sel n) by (apply Hnames, dget_is_Some; by eexists).
      destruct (records_sum n before ob brs Hob Hmb Hsb Hw Hbrs) as (ms' & Hms' & Hlen').
      assert (ms' = ms) as ->.
      { clear -Hms' Hmsb. revert ms' Hms'. induction Hmsb as [|o m ob ms Hm _ IH]; intros ms' Hms'; inversion Hms'; subst; [done|]. f_equal; [congruence|by apply IH]. }
      exists brs, rs, ars. split; [done|]. split; [done|]. split; [done|]. split; [|by rewrite Hlen', (Hmlen n v0 rs)].
      rewrite Hr'. f_equal. by rewrite mjoin_app.
    - done.
    - done.
  Qed.

  Lemma load_overlap_parts (depth : nat) pre v post old before after :
    NoDup (pre ++ v :: post) -> (forall w, w ∈ pre ++ v :: post -> is_Some (M w) /\ forall d, M w = Some d -> measured (c_dim c) sel d) ->
    M v = Some old -> Forall2 (fun w d => M w = Some d) (drop (length pre - depth) pre) before -> Forall2 (fun w d => M w = Some d) (take depth post) after ->
    exists ds range, exec (load_overlap c delayed (Z.of_nat depth) (map (part_dir c) (pre ++ v :: post)) sel (part_dir c v)) s =
      exec (let! ds <- match immutable_path c with
                       | None => pret ds
                       | Some _ => let! p <- open_zarr_group (part_dir c v) delayed sel; Ret (of_mut (ds_merge ds p))
                       end; pret (ds, range)) s /\
      seen_around (c_dim c) delayed sel before old after ds range.
  Proof using Hr Hs Hu.
    intros Hnd Hall Hv Hbe Haf.
    assert (Hlen : forall w, is_Some (M w) -> length w = length (p_keys (c_part c))).
    { intros w [d Hd]. by apply (rp_part _ _ _ _ Hs) in Hd as [? _]. }
    destruct (overlap_window c depth pre v post Hnd) as (Hw & Hin & Hne).
    { intros w Hw. by apply Hlen, Hall. }
    unfold load_overlap. destruct Hw as [Hw1 Hw2]. rewrite Hw1, Hw2. cbv zeta.
    set (wb := drop (length pre - depth) pre) in *. set (wa := take depth post) in *.
    assert (Hheld : Forall2 (fun w d => M w = Some d) (wb ++ v :: wa) (before ++ old :: after)) by (apply Forall2_app; [done|by constructor]).
    destruct (opened _ _ Hheld) as (os & Hopen & Hop).
    rewrite exec_bind, (exec_pseq_pure _ s os).
    2:{ rewrite map_map. clear -Hopen. induction Hopen; constructor; auto. }
    apply Forall2_app_inv_l in Hop as (ob & oa & Hob & Hoa & ->). inversion Hoa as [|? o ? oa' Ho Hoa']; subst.
    assert (Hsound : forall w d, M w = Some d -> sound d) by (intros w d Hd; by apply (rp_part _ _ _ _ Hs) in Hd as (_ & ? & _)).
    assert (Hms : Forall (measured (c_dim c) sel) (before ++ old :: after) /\ Forall sound (before ++ old :: after)).
    { clear -Hall Hsound Hheld Hin. assert (Hin' : forall w, w ∈ wb ++ v :: wa -> w ∈ pre ++ v :: post) by done. clear Hin. revert Hin'.
      induction Hheld as [|w d ws ds Hw _ IH]; intros Hws; [by split|]. destruct IH as [H1 H2]; [intros x Hx; apply Hws; by right|].
      split; constructor; [|done| |done]; [by apply (Hall w); [apply Hws; left|]|by eapply Hsound]. }
    assert (Hlay : forall a b, a ∈ before ++ old :: after -> b ∈ before ++ old :: after -> same_layout (c_dim c) a b).
    { intros a b Ha Hb. apply elem_of_list_lookup_1 in Ha as [i Hi], Hb as [j Hj].
      destruct (Forall2_lookup_r _ _ _ _ _ Hheld Hi) as (x & _ & Hx), (Forall2_lookup_r _ _ _ _ _ Hheld Hj) as (y & _ & Hy). by eapply (un_layout _ _ _ Hu). }
    destruct (around_ok wb v wa before old after ob o oa') as (ds & range & E1 & (g & others & Eg & Ed) & Hsee); [apply Hms|apply Hms|done..|by apply Forall2_length in Hbe|done|].
    rewrite exec_bind. cbn [exec]. rewrite E1, Eg. rewrite (exec_bind (Ret _)). cbn [exec]. rewrite Ed. by exists ds, range.
  Qed.

  Lemma load_overlap_ok (depth : nat) pre v post old before after : c_immutable c = false ->
    NoDup (pre ++ v :: post) -> (forall w, w ∈ pre ++ v :: post -> is_Some (M w) /\ forall d, M w = Some d -> measured (c_dim c) sel d) ->
    M v = Some old -> Forall2 (fun w d => M w = Some d) (drop (length pre - depth) pre) before -> Forall2 (fun w d => M w = Some d) (take depth post) after ->
    exists ds range, exec (load_overlap c delayed (Z.of_nat depth) (map (part_dir c) (pre ++ v :: post)) sel (part_dir c v)) s = (Ok (ds, range), s) /\
      seen_around (c_dim c) delayed sel before old after ds range.
  Proof using Hr Hs Hu.
    intros Him Hnd Hall Hv Hbe Haf. destruct (load_overlap_parts depth pre v post old before after Hnd Hall Hv Hbe Haf) as (ds & range & E & Hsee).
    exists ds, range. split; [|done]. rewrite E. unfold immutable_path. by rewrite Him.
  Qed.
  (** With variables stored apart, the partition is merged with itself. *)
  Lemma load_overlap_immutable (depth : nat) pre v post : c_immutable c = true ->
    NoDup (pre ++ v :: post) -> (forall w, w ∈ pre ++ v :: post -> is_Some (M w) /\ forall d, M w = Some d -> measured (c_dim c) sel d) ->
    exec (load_overlap c delayed (Z.of_nat depth) (map (part_dir c) (pre ++ v :: post)) sel (part_dir c v)) s = (Raise ValueError, s).
  Proof using Hr Hs Hu.
    intros Him Hnd Hall. assert (Hv : is_Some (M v)) by (apply Hall, elem_of_app; right; left). destruct Hv as [old Hv].
    destruct (held (drop (length pre - depth) pre)) as [before Hbe].
    { intros w Hw. apply Hall, elem_of_app. left. rewrite <-(take_drop (length pre - depth) pre). apply elem_of_app. by right. }
    destruct (held (take depth post)) as [after Haf].
    { intros w Hw. apply Hall, elem_of_app. right. right. rewrite <-(take_drop depth post). apply elem_of_app. by left. }
    destruct (load_overlap_parts depth pre v post old before after Hnd Hall Hv Hbe Haf) as (ds & range & E & Hsee).
    rewrite E. unfold immutable_path. rewrite Him. destruct (rp_part _ _ _ _ Hs _ _ Hv) as (_ & Hso & Hh).
    destruct (open_opens _ s old delayed sel Hso Hh) as (o & Eo & Ho). rewrite exec_bind, exec_bind, Eo. cbn [exec].
    assert (Hme : measured (c_dim c) sel old) by (apply (Hall v); [apply elem_of_app; right; left|done]). destruct Hme as (n & w & Hw & Hn & _).
    assert (En : n ∈ dkeys (d_vars ds)) by (apply (sa_names _ _ _ _ _ _ _ _ Hsee); split; [done|apply dget_is_Some; by eexists]).
    assert (Eo' : exists w', (n, w') ∈ d_vars o).
    { eexists. apply dget_elem. apply (reads_vars _ _ _ _ (proj1 Ho)). split; [done|]. by exists w. }
    unfold ds_merge, of_mut. destruct (negb _); [done|]. destruct (merge_vars (d_vars ds) (d_vars o)) as [vars [|]] eqn:Em; [|done].
    apply merge_vars_ok in Em as (H1 & _). destruct Eo' as [w' Hw']. by specialize (H1 _ _ Hw').
  Qed.
End around.
