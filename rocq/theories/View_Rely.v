(** * Writing the variables of a view while the data of the neighbours is read *)
From Verif Require Import Py Dict NdArray_Model NdArray_Spec NdArray_Proofs Dataset_Model Dataset_Spec Dataset_Proofs Dataset_Props2 Assemble_Proofs
  Meta_Model Meta_Spec Meta_Props PartPath_Model PartPath_Proofs Split_Spec DaskUtils_Model DaskUtils_Proofs Dataset_Concat FS_Model FS_Proofs Pool_Model Pool_Proofs Rely_Proofs
  Storage_Model Storage_Spec Storage_Chunks Storage_Proofs Storage_Change
  Listing_Model Listing_Spec Listing_Proofs Collection_Model Collection_Spec Collection_Proofs Collection_State Collection_Select Collection_Load
  Update_Model Update_Spec Update_State Update_Proofs Overlap_Proofs UpdateOverlap_Spec UpdateOverlap_Proofs
  View_Model View_Spec View_State View_Proofs View_Sync View_Vars View_Props2 View_Load View_Map View_Update View_Overlap.

(** ** Programs that read each file once *)
Section fresh.
  Context {C : Type} (torn : C) (Inv : fs C -> Prop).
  Implicit Types (s t : fs C) (U R : path -> Prop).
  Fixpoint fresh {A : Type} U (p : prog C A) : Prop :=
    match p with
    | Ret _ => True
    | Op (Get d) k => (forall q, under d q -> ~ U q) /\ forall r, fresh (fun q => U q \/ under d q) (k r)
    | Op _ _ => False
    end.
  Fixpoint looks {A : Type} R (p : prog C A) : Prop :=
    match p with
    | Ret _ => True
    | Op (Get d) k => (forall q, under d q -> R q) /\ forall r, looks R (k r)
    | Op _ _ => False
    end.
  Lemma fresh_anti {A : Type} (p : prog C A) : forall U U', (forall q, U' q -> U q) -> fresh U p -> fresh U' p.
  Proof using.
    induction p as [r|o k IH]; intros U U' H; cbn; [done|]. destruct o as [d| | | |]; try done. intros [H1 H2]. split; [intros q Hq Hu; by apply (H1 q Hq), H|].
    intros r. eapply IH; [|apply H2]. cbv beta. intros q [?|?]; [left; by apply H|by right].
  Qed.
  Lemma looks_impl {A : Type} R R' (p : prog C A) : (forall q, R q -> R' q) -> looks R p -> looks R' p.
  Proof using.
    intros H. induction p as [r|o k IH]; cbn; [done|]. destruct o as [d| | | |]; try done. intros [H1 H2]. split; [eauto|]. intros r. by apply IH.
  Qed.
  Lemma looks_bind {A B : Type} R (p : prog C A) (k : A -> prog C B) : looks R p -> (forall a, looks R (k a)) -> looks R (pbind p k).
  Proof using.
    intros Hp Hk. induction p as [[a|ex]|o g IH]; cbn; [apply Hk|done|]. destruct o as [d| | | |]; try done. cbn in Hp. destruct Hp as [H1 H2]. split; [done|]. intros r. by apply IH.
  Qed.
  Lemma fresh_bind {A B : Type} R (p : prog C A) (k : A -> prog C B) : forall U, fresh U p -> looks R p -> (forall a, fresh (fun q => U q \/ R q) (k a)) -> fresh U (pbind p k).
  Proof using.
    induction p as [[a|ex]|o g IH]; intros U Hp Hl Hk; cbn; [|done|].
    - eapply fresh_anti; [|apply Hk]. cbv beta. by left.
    - destruct o as [d| | | |]; try done. cbn in Hp, Hl. destruct Hp as [H1 H2], Hl as [L1 L2]. split; [done|]. intros r. apply IH; [apply H2|apply L2|].
      intros a. eapply fresh_anti; [|apply Hk]. cbv beta. intros q [[?|?]|?]; [by left|right; by apply L1|by right].
  Qed.
  Lemma looks_pseq {X A : Type} (body : X -> prog C A) R l : (forall x, x ∈ l -> looks R (body x)) -> looks R (pseq (map body l)).
  Proof using.
    induction l as [|x l IH]; intros H; cbn [map pseq]; [done|]. apply looks_bind; [apply H; left|]. intros a. apply looks_bind; [apply IH; intros y Hy; apply H; by right|done].
  Qed.
  Lemma fresh_pseq {X A : Type} (body : X -> prog C A) (R : X -> path -> Prop) l : forall U, NoDup l ->
    (forall x, x ∈ l -> fresh (fun q => U q \/ exists y, y ∈ l /\ y <> x /\ R y q) (body x) /\ looks (R x) (body x)) -> fresh U (pseq (map body l)).
  Proof using.
    induction l as [|x l IH]; intros U Hnd H; cbn [map pseq]; [done|]. inversion Hnd as [|? ? Hx Hnd']; subst. destruct (H x ltac:(left)) as [H1 H2].
    eapply (fresh_bind (R x)); [eapply fresh_anti; [|exact H1]; cbv beta; by left|done|]. intros a.
    eapply (fresh_bind (fun q => exists y, y ∈ l /\ R y q)); [|apply looks_pseq; intros y Hy; eapply looks_impl; [|apply (H y); by right]; cbv beta; eauto|done].
    apply IH; [done|]. intros y Hy. destruct (H y ltac:(by right)) as [F L]. split; [|done]. eapply fresh_anti; [|exact F]. cbv beta.
    intros q [[?|?]|(z & Hz & N & ?)]; [by left|right; exists x; split; [left|]; split; [by intros ->|done]|right; exists z; split; [by right|done]].
  Qed.
  Lemma looks_get {A : Type} R d (g : fs C -> res A) : (forall q, under d q -> R q) -> looks R (pbind (get_tree d) (fun t => Ret (g t))).
  Proof using. intros H. cbn. split; [done|]. by intros [|]. Qed.
  Lemma fresh_get {A : Type} U d (g : fs C -> res A) : (forall q, under d q -> ~ U q) -> fresh U (pbind (get_tree d) (fun t => Ret (g t))).
  Proof using. intros H. cbn. split; [done|]. by intros [|]. Qed.
  Lemma looks_exec {A : Type} R (p : prog C A) s : looks R p -> (exec p s).2 = s.
  Proof using. induction p as [r|o k IH]; cbn; [done|]. destruct o as [d| | | |]; try done. intros [_ H]. by apply IH. Qed.
  Lemma fresh_exec {A : Type} U (p : prog C A) s : fresh U p -> (exec p s).2 = s.
  Proof using. revert U. induction p as [r|o k IH]; intros U; cbn; [done|]. destruct o as [d| | | |]; try done. intros [_ H]. by eapply IH. Qed.

  (** What such a program reads, while other tasks write, could have been read at
      once. *)
  Definition mixed d t s : fs C := graft d (sub d t) (prune d s).
  Lemma mixed_lookup d t s q : mixed d t s !! q = if decide (under d q) then t !! q else s !! q.
  Proof using.
    unfold mixed. rewrite graft_lookup. destruct (strip d q) as [r|] eqn:E.
    - apply strip_Some in E as ->. rewrite decide_True, sub_lookup, prune_lookup, decide_True by apply under_app. by destruct (t !! (d ++ r)).
    - apply strip_None in E. by rewrite prune_lookup, !decide_False.
  Qed.
  Context (Hmix : forall d t s, Inv t -> Inv s -> Inv (mixed d t s)).
  Lemma safe_fresh {A : Type} O (p : prog C A) : forall U s sx, fresh U p -> Inv s -> Inv sx ->
    safe torn Inv O (fun r s1 => agree O s s1 /\ exists s2, Inv s2 /\ (forall q, U q -> s2 !! q = sx !! q) /\ r = (exec p s2).1) p s.
  Proof using Hmix.
    induction p as [r|o k IH]; intros U s sx Hf Hs Hx; cbn.
    - intros t Ht Ha. split; [done|]. by exists sx.
    - destruct o as [d| | | |]; try done. cbn in Hf. destruct Hf as [H1 H2]. intros t Ht Ha.
      eapply safe_mono; [|apply (IH _ _ t (mixed d t sx) (H2 _) Ht); by apply Hmix]. cbv beta. intros r s1 _ (Ha1 & s2 & Hs2 & Hag & ->). split; [by eapply agree_trans|].
      exists s2. split; [done|]. split.
      + intros q Hq. rewrite Hag by (by left). rewrite mixed_lookup, decide_False; [done|]. intros U'. by apply (H1 q U').
      + assert (E : sub d s2 = sub d t); [|cbn; by rewrite E]. apply map_eq. intros q.
        rewrite !sub_lookup, Hag by (right; apply under_app). rewrite mixed_lookup, decide_True by apply under_app. done.
  Qed.
End fresh.


(** ** Chunks written over those of an array *)
Lemma read_chunk_at v cs y idx : chunked (v_shape v) cs -> a_shape y = v_shape v -> length idx = length (v_shape v) ->
  (if inside (a_shape (chunk_at y cs (chunk_of cs idx))) (offset_in cs idx) then get (chunk_at y cs (chunk_of cs idx)) (offset_in cs idx) else blank v) =
  if decide (valid (v_shape v) idx) then get y idx else blank v.
Proof.
  intros Hc Hsh Hi. set (ci := chunk_of cs idx). unfold inside. assert (Ea : a_shape (chunk_at y cs ci) = chunk_shape (v_shape v) cs ci) by (cbn; by rewrite Hsh). rewrite Ea.
  destruct (decide (valid (v_shape v) idx)) as [Vi|Ni].
  - destruct (chunk_position _ _ _ Hc Vi) as (_ & V2 & _). rewrite bool_decide_eq_true_2 by exact V2. rewrite <-Hsh in Hc, Vi. by apply get_chunk.
  - rewrite bool_decide_eq_false_2; [done|]. intros V2. apply Ni. clear -Hc Hi V2. subst ci.
    destruct Hc as [L H]. revert idx Hi V2 L. generalize (v_shape v) as sh. induction H as [|c cs Hc H IH]; intros [|n sh] [|i idx] Hi V2 L; try done.
    cbn in V2. inversion V2 as [|? ? ? ? Ho V2']; subst. constructor; [|apply IH; [cbn in Hi; lia|exact V2'|cbn in L; lia]].
    pose proof (Nat.div_mod i c ltac:(lia)). pose proof (Nat.mod_upper_bound i c ltac:(lia)). nia.
Qed.
Definition patched (a : variable) (cs : list nat) (t t' : store) : Prop :=
  forall q, t' !! q = t !! q \/ exists ci y, q = [chunk_key ci] /\ valid (grid (v_shape a) cs) ci /\ arr_wf y /\ a_shape y = v_shape a /\ t' !! q = Some (CChunk (chunk_at y cs ci)).
Lemma keeps_patch t t' a cs : keeps t a -> t !! [ZARRAY] = Some (CMeta (MArray (zarr_for a cs))) -> patched a cs t t' ->
  exists b, arr_wf b /\ a_shape b = v_shape a /\ keeps t' (with_array a b).
Proof.
  intros [(cs' & Hc & Hz & Hr) Hat Hw Hk] Hz' Hp. rewrite Hz in Hz'. injection Hz' as Hz'. subst cs'.
  assert (Hmeta : forall n, n ∈ [ZARRAY; ZGROUP; ZATTRS; ZMETADATA] -> t' !! [n] = t !! [n]).
  { intros n Hn. destruct (Hp [n]) as [|(ci & y & [= E] & _)]; [done|]. exfalso. symmetry in E. revert E. by apply chunk_key_meta. }
  assert (Hread : forall idx, length idx = length (v_shape a) -> exists x, read_item (zarr_for a cs) t' idx = Ok x /\ (~ valid (v_shape a) idx -> x = blank a)).
  { intros idx Hi. destruct (Hp [chunk_key (chunk_of cs idx)]) as [E|(ci & y & [= E] & Vg & Hwy & Hsy & Ec)].
    - specialize (Hr idx Hi). unfold read_item in *. change (z_chunks (zarr_for a cs)) with cs in *. rewrite E, Hr. eexists. split; [done|]. intros N. by rewrite decide_False.
    - apply chunk_key_inj in E.
      + unfold read_item. change (z_chunks (zarr_for a cs)) with cs. rewrite Ec. cbv zeta. eexists. split; [done|]. change (default (Num 0) (z_fill (zarr_for a cs))) with (blank a).
        rewrite <-E. rewrite read_chunk_at by done. intros N. by rewrite decide_False.
      + apply valid_length in Vg. rewrite Vg, grid_length by done. unfold chunk_of. rewrite zip_with_length. destruct Hc as [L _]. lia. }
  set (b := tabulate (v_shape a) (fun idx => match read_item (zarr_for a cs) t' idx with Ok x => x | Raise _ => Num 0 end)).
  assert (Esh : v_shape (with_array a b) = v_shape a) by done.
  exists b. split; [apply tabulate_wf|]. split; [done|]. split.
  - exists cs. rewrite Esh. split; [done|]. split; [rewrite Hmeta by set_solver; rewrite Hz; unfold zarr_for; by rewrite Esh|].
    intros idx Hi. assert (Ez : zarr_for (with_array a b) cs = zarr_for a cs) by (unfold zarr_for; by rewrite Esh). rewrite Ez. destruct (Hread idx Hi) as (x & E & Hx). rewrite E. f_equal.
    change (v_array (with_array a b)) with b. change (blank (with_array a b)) with (blank a). destruct (decide (valid (v_shape a) idx)) as [Vi|Ni]; [|by apply Hx].
    unfold b. rewrite get_tabulate by done. by rewrite E.
  - rewrite Hmeta by set_solver. done.
  - apply tabulate_wf.
  - rewrite Esh. done.
Qed.
(** The values are those that are read. *)
Lemma keeps_inj t a b : keeps t a -> keeps t (with_array a b) -> a_shape b = v_shape a -> b = v_array a.
Proof.
  intros H1 H2 Hs. destruct (keeps_read _ _ H1) as (cs & _ & Hz & E1), (keeps_read _ _ H2) as (cs' & _ & Hz' & E2). rewrite Hz in Hz'. injection Hz' as Hz'.
  change (v_array (with_array a b)) with b in E2. assert (zarr_for (with_array a b) cs' = zarr_for a cs) as Ez by (unfold zarr_for, v_shape; cbn; rewrite Hs; unfold v_shape; by subst). rewrite Ez, E1 in E2. by injection E2.
Qed.

Lemma choose_parts {A} (vs : list (list Z)) (R : list Z -> A -> Prop) : (forall v, v ∈ vs -> exists a, R v a) ->
  exists g : list Z -> option A, (forall v, v ∈ vs -> exists a, g v = Some a /\ R v a) /\ forall v, v ∉ vs -> g v = None.
Proof.
  induction vs as [|v vs IH]; intros H.
  - exists (fun _ => None). split; [intros v Hv; by apply elem_of_nil in Hv|done].
  - destruct IH as (g & H1 & H2); [intros w Hw; apply H; by right|]. destruct (H v ltac:(left)) as (a & Ha).
    exists (fun w => if decide (w = v) then Some a else g w). split.
    + intros w Hw. destruct (decide (w = v)) as [->|N]; [by exists a|]. apply elem_of_cons in Hw as [|Hw]; [done|]. by apply H1.
    + intros w Hw. rewrite decide_False by (intros ->; apply Hw; left). apply H2. intros Hin. apply Hw. by right.
Qed.

(** ** Tasks that write the variables of a view, and read what the others write *)
Section concurrent.
  Context (v : venv) (w : view) (Hw : viewable v w) (M : list Z -> option dataset) (I : option dataset) (V0 : list Z -> option vpart) (s0 : store).
  Context (Hsh0 : shown v w M I V0 s0) (Hu : uniform (w_ref w) M I).
  Context (f : update_callback) (Hsane : sane f) (Hblind : blind f) (Hck : ~ returned f CHECKSUM).
  Context (Hmo : forall x ds, M x = Some ds -> made_of (w_ref w) ds).
  Context (sel : option (list str)) (Hcov : covers w sel) (trim : bool) (depth : nat) (Hpos : 0 < depth).
  Context (vs : list (list Z)) (Hvs : NoDup vs) (Htwo : length vs <> 1) (Hall : forall x, x ∈ vs -> is_Some (M x) /\ is_Some (V0 x)).
  Local Notation W := (returned f).
  Local Notation c := (w_ref w).
  Local Notation keys := (p_keys (c_part c)).
  Local Notation kd := (key_dirs (c_part c)).
  Local Notation dim := (c_dim c).

  (** What the tasks may change. *)
  Definition vnow (s : store) : Prop :=
    forall q, s !! q = s0 !! q \/
      exists x n p a cs ci, x ∈ vs /\ W n /\ V0 x = Some p /\ dget (vp_vars p) n = Some a /\ s0 !! (vdir w x ++ [n; ZARRAY]) = Some (CMeta (MArray (zarr_for a cs))) /\
        valid (grid (v_shape a) cs) ci /\ q = vdir w x ++ [n; chunk_key ci] /\
        (s !! q = Some CTorn \/ exists y, arr_wf y /\ a_shape y = v_shape a /\ s !! q = Some (CChunk (chunk_at y cs ci))).
  Local Notation safe := (safe CTorn vnow).
  Lemma vnow_start : vnow s0.
  Proof using. intros q. by left. Qed.
  Lemma vnow_mixed d t s : vnow t -> vnow s -> vnow (mixed d t s).
  Proof using. intros Ht Hs q. rewrite mixed_lookup. destruct (decide (under d q)); [apply Ht|apply Hs]. Qed.
  Lemma len_at x p : V0 x = Some p -> length x = length keys.
  Proof using Hsh0. intros H. by apply (hw_part _ _ _ _ (sh_view _ _ _ _ _ _ Hsh0)) in H as [? _]. Qed.
  Lemma len_vs x : x ∈ vs -> length x = length keys.
  Proof using Hsh0 Hall. intros H. destruct (Hall x H) as [_ [p Hp]]. by eapply len_at. Qed.
  Lemma vnow_ref s q : vnow s -> (forall x, x ∈ vs -> ~ under (vdir w x) q) -> s !! q = s0 !! q.
  Proof using. intros Hs Hq. destruct (Hs q) as [|(x & n & p & a & cs & ci & Hx & _ & _ & _ & _ & _ & -> & _)]; [done|]. destruct (Hq x Hx). apply under_app. Qed.
  (** What was changed below the directory of a partition. *)
  Lemma vnow_at s x p n r : vnow s -> V0 x = Some p ->
    s !! (vdir w x ++ n :: r) = s0 !! (vdir w x ++ n :: r) \/
      exists a cs ci, x ∈ vs /\ W n /\ dget (vp_vars p) n = Some a /\ s0 !! (vdir w x ++ [n; ZARRAY]) = Some (CMeta (MArray (zarr_for a cs))) /\
        valid (grid (v_shape a) cs) ci /\ r = [chunk_key ci] /\
        (s !! (vdir w x ++ n :: r) = Some CTorn \/ exists y, arr_wf y /\ a_shape y = v_shape a /\ s !! (vdir w x ++ n :: r) = Some (CChunk (chunk_at y cs ci))).
  Proof using Hsh0.
    intros Hs Hx. destruct (Hs (vdir w x ++ n :: r)) as [|(x' & n' & p' & a & cs & ci & Hx' & HW & Hp' & Ha & Hz & Vg & Eq & Hc)]; [by left|].
    destruct (decide (x' = x)) as [->|N].
    - right. assert (p' = p) as -> by congruence. apply app_inv_head in Eq as Eq'. injection Eq' as <- ->. exists a, cs, ci. done.
    - exfalso. apply (vdirs_apart w x' x (len_at _ _ Hp') (len_at _ _ Hx) N (vdir w x ++ n :: r)); [rewrite Eq; apply under_app|apply under_app].
  Qed.

  (** The files, when what is being written is as before. *)
  Definition mended (s : store) : store := merge (fun a b => match a with Some CTorn => b | _ => a end) s s0.
  Lemma mended_lookup s q : mended s !! q = match s !! q with Some CTorn => s0 !! q | o => o end.
  Proof using. unfold mended. rewrite lookup_merge. by destruct (s !! q) as [[]|], (s0 !! q). Qed.
  Lemma mended_same s q : s !! q = s0 !! q -> mended s !! q = s0 !! q.
  Proof using. intros E. rewrite mended_lookup, E. by destruct (s0 !! q) as [[]|]. Qed.

  Lemma mended_part s x p : vnow s -> V0 x = Some p -> exists l, vfits p l /\ keeps_part v w (sub (vdir w x) (mended s)) (vassign p l) /\
    forall n a, dget (vp_vars p) n = Some a -> ~ W n -> dget (vp_vars (vassign p l)) n = Some a.
  Proof using Hsh0 Hw Hck.
    intros Hs Hx. destruct (hw_part _ _ _ _ (sh_view _ _ _ _ _ _ Hsh0) _ _ Hx) as (_ & Hk).
    assert (Hone : forall n a, dget (vp_vars p) n = Some a -> exists b, arr_wf b /\ a_shape b = v_shape a /\ keeps (sub [n] (sub (vdir w x) (mended s))) (with_array a b) /\ (~ W n -> b = v_array a)).
    { intros n a Ha. destruct (kt_vars _ _ _ _ Hk _ _ Ha) as (mv & Em & Hf & Ka). destruct (keeps_read _ _ Ka) as (cs & Hc & Hz & _).
      rewrite !sub_sub in *. destruct (keeps_patch _ (sub (vdir w x ++ [n]) (mended s)) a cs Ka Hz) as (b & H1 & H2 & H3).
      { intros q. rewrite !sub_lookup, <-!app_assoc. cbn [app]. destruct (vnow_at s x p n q Hs Hx) as [E|(a' & cs' & ci & _ & _ & Ha' & Hz' & Vg & -> & Hcase)]; [left; by apply mended_same|].
        assert (a' = a) as -> by congruence. rewrite sub_lookup, <-app_assoc in Hz. cbn [app] in Hz. rewrite Hz in Hz'. injection Hz' as Hz'. subst cs'.
        rewrite mended_lookup. destruct Hcase as [->|(y & Hy & Hsh & ->)]; [by left|right]. exists ci, y. done. }
      exists b. split; [done|]. split; [done|]. split; [done|]. intros HnW. apply (keeps_inj _ a b Ka); [|done].
      replace (sub (vdir w x ++ [n]) s0) with (sub (vdir w x ++ [n]) (mended s)); [done|]. apply map_eq. intros q. rewrite !sub_lookup, <-!app_assoc. cbn [app].
      apply mended_same. destruct (vnow_at s x p n q Hs Hx) as [E|(a' & cs' & ci & _ & ? & _)]; done. }
    assert (exists l, NoDup (dkeys l) /\ (forall n, n ∈ dkeys l <-> n ∈ dkeys (vp_vars p)) /\ forall n b, dget l n = Some b -> exists a, dget (vp_vars p) n = Some a /\ arr_wf b /\ a_shape b = v_shape a /\
       keeps (sub [n] (sub (vdir w x) (mended s))) (with_array a b) /\ (~ W n -> b = v_array a)) as (l & Hnd & Hin & Hl).
    { pose proof (kt_nodup _ _ _ _ Hk) as Hnd. clear Hk Hx. induction (vp_vars p) as [|[n a] vars IH].
      - exists []. split; [constructor|]. split; [done|]. done.
      - cbn in Hnd. inversion Hnd as [|? ? Hn Hnd']; subst. destruct IH as (l & H1 & H2 & H3); [|done|].
        { intros m a' Ha'. apply Hone. cbn. rewrite decide_False; [done|]. intros ->. apply Hn, dget_is_Some. by eexists. }
        destruct (Hone n a) as (b & Hb); [cbn; by rewrite decide_True|]. exists ((n, b) :: l). split; [cbn; constructor; [by rewrite H2|done]|]. split.
        + intros m. cbn. rewrite !elem_of_cons. by rewrite H2.
        + intros m b'. cbn. destruct (decide (m = n)) as [->|]; [intros [= <-]; exists a; done|]. apply H3. }
    exists l. assert (Hf : vfits p l) by (intros n b Hb; destruct (Hl n b Hb) as (a & Ha & H1 & H2 & _); split; [done|]; by exists a). split; [done|].
    assert (Hget : forall n a', dget (vp_vars (vassign p l)) n = Some a' -> exists a b, dget (vp_vars p) n = Some a /\ dget l n = Some b /\ a' = with_array a b).
    { intros n a'. rewrite vassign_get. destruct (dget (vp_vars p) n) as [a|] eqn:Ea; [|done]. intros [= <-]. assert (exists b, dget l n = Some b) as [b Hb]; [|rewrite Hb; by exists a, b].
      apply dget_is_Some, Hin, dget_is_Some. by eexists. }
    split; [split|].
    - intros q y Hq. rewrite sub_lookup in Hq. destruct (Hs (vdir w x ++ q)) as [E|(x' & n & p' & a & cs & ci & Hx' & HW & Hp' & Ha & Hz & Vg & Eq & _)].
      + rewrite mended_same in Hq by done. apply (kt_names _ _ _ _ Hk q y). by rewrite sub_lookup.
      + destruct (decide (x' = x)) as [->|N].
        * assert (p' = p) as -> by congruence. apply app_inv_head in Eq as ->. exists n, [chunk_key ci]. split; [done|]. right. apply (kt_same _ _ _ _ Hk), dget_is_Some. by eexists.
        * exfalso. apply (vdirs_apart w x' x (len_at _ _ Hp') (len_at _ _ Hx) N (vdir w x ++ q)); [rewrite Eq; apply under_app|apply under_app].
    - destruct (kt_axis _ _ _ _ Hk) as (H1 & dt & H2). split; [done|]. exists dt. cbn [vassign vp_axis].
      replace (sub [CHECKSUM] (sub (vdir w x) (mended s))) with (sub [CHECKSUM] (sub (vdir w x) s0)); [done|]. apply map_eq. intros q. rewrite !sub_lookup. cbn [app]. symmetry.
      apply mended_same. destruct (vnow_at s x p CHECKSUM q Hs Hx) as [|(a & cs & ci & _ & ? & _)]; done.
    - rewrite vassign_keys. apply Hk.
    - intros n. rewrite vassign_keys. apply Hk.
    - intros n a' Ha'. destruct (Hget n a' Ha') as (a & b & Ea & Eb & ->). destruct (kt_vars _ _ _ _ Hk _ _ Ea) as (mv & Em & Hfi & _). exists mv. split; [done|]. split; [done|].
      destruct (Hl n b Eb) as (a1 & Ea1 & _ & _ & K & _). assert (a1 = a) as -> by congruence. done.
    - intros n a' k Ha'. destruct (Hget n a' Ha') as (a & b & Ea & Eb & ->). destruct (Hl n b Eb) as (a1 & Ea1 & _ & Hsh & _). assert (a1 = a) as -> by congruence. unfold v_shape at 1. cbn. rewrite Hsh.
      by apply (kt_sizes _ _ _ _ Hk n).
    - intros n a Ea HW. rewrite vassign_get, Ea. cbn. destruct (dget l n) as [b|] eqn:Eb; [|done]. destruct (Hl n b Eb) as (a1 & Ea1 & _ & _ & _ & H). assert (a1 = a) as -> by congruence.
      rewrite (H HW). by destruct a.
  Qed.
  Lemma names_apart x ds p : M x = Some ds -> V0 x = Some p -> forall n, n ∈ dkeys (vp_vars p) -> dget (d_vars ds) n = None.
  Proof using Hsh0 Hw Hmo.
    intros HM HV n Hn. apply dget_is_Some in Hn as [a Ha]. destruct (hw_part _ _ _ _ (sh_view _ _ _ _ _ _ Hsh0) _ _ HV) as (_ & Hk).
    by destruct (part_name v w Hw ds p s0 x (Hmo _ _ HM) Hk n a Ha) as (_ & _ & ?).
  Qed.
  Lemma ref_sound x ds : M x = Some ds -> sound ds.
  Proof using Hsh0. intros H. by apply (rp_part _ _ _ _ (sh_ref _ _ _ _ _ _ Hsh0)) in H as (_ & ? & _). Qed.
  Lemma part_combined x ds p l : M x = Some ds -> V0 x = Some p -> vfits p l -> combined ds (vassign p l) = assign_all (combined ds p) l /\ Update_State.fits (combined ds p) l.
  Proof using Hsh0 Hw Hmo.
    intros HM HV Hf. pose proof (names_apart x ds p HM HV) as Hn. assert (Hnd : NoDup (dkeys (d_vars ds))) by (by apply (ref_sound _ _ HM)). split.
    - apply combined_vassign; [|done]. intros n Hn'. apply dget_is_Some in Hn' as [a Ha]. destruct (Hf n a Ha) as (_ & y & Ey & _). apply Hn, dget_is_Some. by eexists.
    - by apply vfits_fits.
  Qed.
  Lemma mended_shown s : vnow s -> exists V1, shown v w M I V1 (mended s) /\
    forall x ds p, M x = Some ds -> V0 x = Some p -> exists p1, V1 x = Some p1 /\ varies W (combined ds p) (combined ds p1).
  Proof using Hsh0 Hw Hck Hmo Hall.
    intros Hs. destruct (choose_parts vs (fun x p1 => exists p l, V0 x = Some p /\ vfits p l /\ p1 = vassign p l /\ keeps_part v w (sub (vdir w x) (mended s)) p1 /\
       forall n a, dget (vp_vars p) n = Some a -> ~ W n -> dget (vp_vars p1) n = Some a)) as (g & Hg & Hng).
    { intros x Hx. destruct (Hall x Hx) as [_ [p Hp]]. destruct (mended_part s x p Hs Hp) as (l & H1 & H2 & H3). exists (vassign p l), p, l. done. }
    exists (fun x => match g x with Some p1 => Some p1 | None => V0 x end). split; [split|].
    - eapply (represents_frame w); [apply Hsh0|]. intros q Hq. apply mended_same, vnow_ref; [done|]. intros x Hx U. eapply (vw_apart _ _ Hw); [by eapply under_more|exact Hq].
    - apply (holds_view_change v w V0 s0 vs); [apply Hsh0|..].
      + intros x Hx. split; [by apply len_vs|]. destruct (Hg x Hx) as (p1 & E & p & l & _ & _ & _ & Hk & _). exists p1. by rewrite E.
      + intros x Hx. by rewrite (Hng x Hx).
      + intros q _ Hq. by apply mended_same, vnow_ref.
    - intros x ds p1 HM. destruct (g x) as [p1'|] eqn:Eg; [|by apply (sh_agrees _ _ _ _ _ _ Hsh0)]. intros [= ->].
      assert (Hx : x ∈ vs) by (destruct (decide (x ∈ vs)) as [|N]; [done|]; by rewrite (Hng x N) in Eg).
      destruct (Hg x Hx) as (p2 & E & p & l & Hp & Hf & -> & _). rewrite Eg in E. injection E as ->. apply vassign_agrees; [|done]. by apply (sh_agrees _ _ _ _ _ _ Hsh0 x).
    - intros x ds p HM HV. destruct (g x) as [p1|] eqn:Eg; [|exists p; split; [done|apply varies_refl]]. exists p1. split; [done|].
      assert (Hx : x ∈ vs) by (destruct (decide (x ∈ vs)) as [|N]; [done|]; by rewrite (Hng x N) in Eg).
      destruct (Hg x Hx) as (p2 & E & p' & l & Hp & Hf & -> & _ & Hkeep). rewrite Eg in E. injection E as ->. assert (p' = p) as -> by congruence.
      destruct (part_combined x ds p l HM HV Hf) as [Ec Hfi]. exists l. split; [done|]. split; [done|]. intros n a Ha HW. rewrite part_get in *.
      destruct (dget (d_vars ds) n) as [b|]; [done|]. destruct (dget (vp_vars p) n) as [b|] eqn:Eb; [|done]. cbn in Ha. injection Ha as <-. by rewrite (Hkeep n b Eb HW).
  Qed.

  (** *** Reading the partitions *)
  Local Notation loads := (fun x => load_part w true sel (zip keys x, [])).
  Definition own (x : list Z) (q : path) : Prop := under (part_dir c x) q \/ under (vdir w x) q.
  Lemma own_apart x y q : length x = length keys -> length y = length keys -> x <> y -> own x q -> ~ own y q.
  Proof using Hw.
    intros Hx Hy N [H|H] [H'|H'].
    - by apply (parts_apart c x y Hx Hy N q).
    - by apply (vdir_part v w Hw y x q).
    - by apply (vdir_part v w Hw x y q).
    - by apply (vdirs_apart w x y Hx Hy N q).
  Qed.
  Lemma looks_part x : looks (own x) (loads x).
  Proof using.
    unfold load_part, load_one. cbv zeta. cbn [fst snd]. apply looks_bind.
    - apply looks_get. intros q Hq. by left.
    - intros ds. apply looks_bind.
      + apply looks_pseq. intros n _. apply looks_get. intros q Hq. right. unfold vdir, key_dirs. eapply under_trans; [|exact Hq]. rewrite app_assoc. apply under_app.
      + intros l. destruct (d_dims ds); [apply looks_bind; [done|by intros]|]. apply looks_bind; [done|]. by intros ds'.
  Qed.
  Lemma fresh_part U x : length x = length keys -> (forall q, own x q -> ~ U q) -> fresh U (loads x).
  Proof using Hw.
    intros Hl HU. unfold load_part, load_one. cbv zeta. cbn [fst snd]. apply (fresh_bind (under (part_dir c x))).
    - apply fresh_get. intros q Hq. apply HU. by left.
    - by apply looks_get.
    - intros ds. apply (fresh_bind (under (vdir w x))).
      + apply (fresh_pseq _ (fun n => under (vdir w x ++ [n]))).
        * apply (C47_select_variables (w_meta w) sel None (vw_nodup _ _ Hw)).
        * intros n _. unfold open_view_array. rewrite app_assoc. change (w_dir w ++ map (p_dir (c_part c)) (zip keys x)) with (vdir w x). split; [|by apply looks_get]. apply fresh_get.
          intros q Hq [[H|H]|(m & _ & N & H)].
          -- apply (HU q); [|done]. right. eapply under_trans; [apply under_app|exact Hq].
          -- apply (vdir_part v w Hw x x q); [|done]. eapply under_trans; [apply under_app|exact Hq].
          -- destruct Hq as [r ->], H as [r' E]. rewrite <-!app_assoc in E. apply app_inv_head in E. by injection E.
      + apply looks_pseq. intros n _. unfold open_view_array. rewrite app_assoc. change (w_dir w ++ map (p_dir (c_part c)) (zip keys x)) with (vdir w x). apply looks_get. intros q Hq. eapply under_trans; [apply under_app|exact Hq].
      + intros l. destruct (d_dims ds); [apply (fresh_bind (fun _ => False)); [done..|by intros]|]. apply (fresh_bind (fun _ => False)); [done..|]. by intros ds'.
  Qed.
  Lemma fresh_parts : fresh (fun _ => False) (pseq (map loads vs)).
  Proof using Hw Hsh0 Hall Hvs.
    apply (fresh_pseq _ own); [done|]. intros x Hx. split; [|apply looks_part]. apply fresh_part; [by apply len_vs|]. intros q Hq [[]|(y & Hy & N & H)].
    by apply (own_apart x y q (len_vs x Hx) (len_vs y Hy) ltac:(congruence)).
  Qed.

  (** What is read is what the mended files hold. *)
  Definition improves {A} (p : program A) (s s' : store) : Prop := forall y, (exec p s).1 = Ok y -> (exec p s').1 = Ok y.
  Lemma improves_bind {A B} R (p : program A) (k : A -> program B) s s' : looks R p -> improves p s s' -> (forall a, improves (k a) s s') -> improves (pbind p k) s s'.
  Proof using.
    intros Hl Hp Hk y. rewrite !exec_bind. pose proof (looks_exec R p s Hl) as E1. pose proof (looks_exec R p s' Hl) as E2. unfold improves in Hp.
    destruct (exec p s) as [r t], (exec p s') as [r' t']. cbn in E1, E2, Hp. subst t t'. destruct r as [a|ex]; [|done]. rewrite (Hp a eq_refl). apply Hk.
  Qed.
  Lemma improves_pseq {X A} R (body : X -> program A) s s' l : (forall x, looks R (body x)) -> (forall x, improves (body x) s s') -> improves (pseq (map body l)) s s'.
  Proof using.
    intros Hl H. induction l as [|x l IH]; cbn [map pseq]; [by intros y|]. eapply improves_bind; [apply Hl|apply H|]. intros a. eapply improves_bind; [|exact IH|by intros b y].
    apply looks_pseq. intros z _. apply Hl.
  Qed.
  Lemma improves_array s d x n : improves (open_view_array w d (kd x) n) s (mended s).
  Proof using.
    intros y. unfold open_view_array. rewrite !exec_bind, !exec_get_tree. cbn [exec fst]. set (D := w_dir w ++ kd x ++ [n]).
    assert (Hm : forall q z, sub D s !! q = Some z -> z <> CTorn -> sub D (mended s) !! q = Some z).
    { intros q z. rewrite !sub_lookup, mended_lookup. intros -> Hz. by destruct z. }
    destruct (sub D s !! [ZARRAY]) as [z|] eqn:Ez; [|done]. destruct z as [m| | | | | |]; try done. destruct m as [z| |]; try done. rewrite (Hm _ _ Ez) by done.
    destruct (read_array z (sub D s)) as [a|] eqn:Ea; [|done]. cbn [rbind].
    assert (read_array z (sub D (mended s)) = Ok a) as ->.
    { unfold read_array in *. destruct (traverse (read_item z (sub D s)) (indices (z_shape z))) as [l|] eqn:El; [|done]. assert (Hr : forall idx b, read_item z (sub D s) idx = Ok b -> read_item z (sub D (mended s)) idx = Ok b);
        [|rewrite (traverse_impl _ (read_item z (sub D (mended s))) _ _ (fun idx b _ => Hr idx b) El); done].
      intros idx b. unfold read_item. destruct (sub D s !! [chunk_key (chunk_of (z_chunks z) idx)]) as [k|] eqn:Ek.
      - destruct k as [| | | | | |]; try done; rewrite (Hm _ _ Ek) by done; done.
      - rewrite sub_lookup in Ek. rewrite sub_lookup, mended_lookup, Ek. done. }
    cbn [rbind]. destruct (sub D s !! [ZATTRS]) as [k|] eqn:Ek; [|done]. destruct k as [m| | | | | |]; try done. rewrite (Hm _ _ Ek) by done. done.
  Qed.
  Lemma improves_part s x : vnow s -> improves (loads x) s (mended s).
  Proof using Hw.
    intros Hs. unfold load_part, load_one. cbv zeta. cbn [fst snd]. change (map (p_dir (c_part c)) (zip keys x)) with (kd x).
    eapply (improves_bind (fun _ => True)); [by apply looks_get|..].
    - intros y. unfold open_zarr_group. rewrite !exec_bind, !exec_get_tree. cbn [exec fst]. replace (sub (c_dir c ++ kd x) (mended s)) with (sub (c_dir c ++ kd x) s); [done|].
      apply map_eq. intros q. rewrite !sub_lookup, mended_lookup. assert (E : s !! ((c_dir c ++ kd x) ++ q) = s0 !! ((c_dir c ++ kd x) ++ q)).
      { apply vnow_ref; [done|]. intros y' _ U. by apply (vdir_part v w Hw y' x ((c_dir c ++ kd x) ++ q)); [|apply under_app]. }
      rewrite E. by destruct (s0 !! _) as [[]|].
    - intros ds. eapply (improves_bind (fun _ => True)).
      + apply looks_pseq. intros n _. by apply looks_get.
      + apply (improves_pseq (fun _ => True)); [intros n; by apply looks_get|]. intros n. apply improves_array.
      + intros l. destruct (d_dims ds) as [|k dd].
        * intros y. rewrite !exec_bind. cbn [exec]. by destruct (new_dataset _ _ _ _ _).
        * intros y. rewrite !exec_bind. cbn [exec]. by destruct (foldM _ _ _).
  Qed.
  Lemma improves_parts s : vnow s -> improves (pseq (map loads vs)) s (mended s).
  Proof using Hw.
    intros Hs. apply (improves_pseq (fun _ => True)); [|intros x; by apply improves_part]. intros x. eapply looks_impl; [|apply looks_part]. done.
  Qed.

  (** The neighbours of a partition. *)
  Local Notation held V := (Forall2 (fun x d => data_at M V x = Some d)).
  Definition varound (x : list Z) (before : list dataset) (old : dataset) (after : list dataset) : Prop :=
    exists pre post, vs = pre ++ x :: post /\ data_at M V0 x = Some old /\ held V0 (drop (length pre - depth) pre) before /\ held V0 (take depth post) after.
  Definition reload (x : list Z) : program (dataset * (nat * nat)) :=
    let! l <- pseq (map loads vs); Ret (select_overlap w (Z.of_nat depth) l (kd x)).
  Lemma held_varies V1 ys : (forall x ds p, M x = Some ds -> V0 x = Some p -> exists p1, V1 x = Some p1 /\ varies W (combined ds p) (combined ds p1)) ->
    forall ds ds1, held V0 ys ds -> held V1 ys ds1 -> Forall2 (varies W) ds ds1.
  Proof using.
    intros H ds ds1 H1. revert ds1. induction H1 as [|y d ys ds Hd _ IH]; intros ds1 H2; inversion H2 as [|? d1 ? ds1' Hd1 H2']; subst; constructor; [|by apply IH].
    apply data_at_some in Hd as (r & p & HM & HV & ->), Hd1 as (r1 & p1 & HM1 & HV1 & ->). assert (r1 = r) as -> by congruence.
    destruct (H y r p HM HV) as (p2 & E & Hv). assert (p2 = p1) as -> by congruence. done.
  Qed.
  Lemma held_some V1 ys : (forall y, y ∈ ys -> is_Some (M y) /\ is_Some (V1 y)) -> exists ds, held V1 ys ds.
  Proof using. intros H. apply data_held. intros x Hx. by apply data_at_is, H. Qed.
  Lemma held_app V1 (a b : list (list Z)) ds : held V1 (a ++ b) ds -> exists d1 d2, ds = d1 ++ d2 /\ held V1 a d1 /\ held V1 b d2.
  Proof using. intros H. apply Forall2_app_inv_l in H as (d1 & d2 & H1 & H2 & ->). by exists d1, d2. Qed.
  Lemma two_parts pre (x : list Z) post : vs = pre ++ x :: post -> pre <> [] \/ post <> [].
  Proof using Htwo. intros E. destruct pre; [|by left]. destruct post; [|by right]. exfalso. apply Htwo. by rewrite E. Qed.

  Lemma shown_reload V1 s1 x : shown v w M I V1 s1 -> (forall y, y ∈ vs -> is_Some (M y) /\ is_Some (V1 y)) -> forall pre post, vs = pre ++ x :: post ->
    exists ds range before1 old1 after1, exec (reload x) s1 = (Ok (ds, range), s1) /\ held V1 (drop (length pre - depth) pre) before1 /\ data_at M V1 x = Some old1 /\ held V1 (take depth post) after1 /\
      seen_around dim true sel before1 old1 after1 ds range.
  Proof using Hw Hu Hmo Hcov Hvs Hpos Htwo.
    intros Hsh1 Hall1 pre post E. destruct (held_some V1 vs Hall1) as [olds Ho].
    destruct (load_parts v w M I V1 s1 Hw (sh_ref _ _ _ _ _ _ Hsh1) Hmo (sh_view _ _ _ _ _ _ Hsh1) (sh_agrees _ _ _ _ _ _ Hsh1) true sel Hcov vs olds Ho) as (os & El & Hop). rewrite map_map in El.
    rewrite E in Ho. apply held_app in Ho as (pres & rest & -> & Hpre & Hrest). inversion Hrest as [|? old1 ? posts Hold Hpost]; subst.
    apply Forall2_app_inv_l in Hop as (obs & rest & Hob & Hor & ->). inversion Hor as [|? o ? oas Ho' Hoa]; subst.
    destruct (select_overlap_ok v w M I V1 s1 Hw (sh_ref _ _ _ _ _ _ Hsh1) Hu Hmo (sh_view _ _ _ _ _ _ Hsh1) (sh_agrees _ _ _ _ _ _ Hsh1) true sel Hcov depth pre x post pres old1 posts obs o oas)
      as (ds & range & Esel & Hsee); try done; [by rewrite <-E|by apply two_parts with x|].
    exists ds, range, (drop (length pre - depth) pres), old1, (take depth posts). split; [|split; [by apply Forall2_drop|split; [done|split; [by apply Forall2_take|done]]]].
    unfold reload. rewrite exec_bind. rewrite El. cbn [exec]. rewrite E, Esel. done.
  Qed.
  Lemma safe_reload (O : path -> Prop) x before old after s : varound x before old after -> vnow s ->
    safe O (fun r s1 => agree O s s1 /\ forall ds range, r = Ok (ds, range) -> exists before' old' after', Forall2 (varies W) before before' /\ varies W old old' /\ Forall2 (varies W) after after' /\
       seen_around dim true sel before' old' after' ds range) (reload x) s.
  Proof using All.
    intros (pre & post & Evs & Hx & Hbe & Haf) Hm. unfold reload.
    eapply safe_bind; [done|apply (safe_fresh CTorn vnow vnow_mixed O _ _ s s fresh_parts Hm Hm)| |].
    2:{ cbv beta. intros ex s1 _ [Ha _]. split; [done|]. done. }
    cbv beta. intros l s1 Hm1 [Ha (s2 & Hm2 & _ & E)]. cbn. intros t Ht Hat. split; [by eapply agree_trans|]. intros ds range Esel.
    symmetry in E. apply (improves_parts s2 Hm2) in E. destruct (mended_shown s2 Hm2) as (V1 & Hsh1 & Hvar).
    assert (Hall1 : forall y, y ∈ vs -> is_Some (M y) /\ is_Some (V1 y)).
    { intros y Hy. destruct (Hall y Hy) as [[d Hd] [p Hp]]. split; [by eexists|]. destruct (Hvar y d p Hd Hp) as (p1 & E1 & _). by eexists. }
    destruct (shown_reload V1 (mended s2) x Hsh1 Hall1 pre post Evs) as (ds1 & range1 & before1 & old1 & after1 & El & H1 & H2 & H3 & Hsee).
    unfold reload in El. rewrite exec_bind in El. destruct (exec (pseq (map loads vs)) (mended s2)) as [r t']. cbn in E. subst r. cbn [exec] in El. injection El as El _. rewrite Esel in El. injection El as <- <-.
    exists before1, old1, after1. split; [by eapply held_varies|]. split; [|split; [by eapply held_varies|done]].
    assert (F : Forall2 (varies W) [old] [old1]) by (eapply (held_varies V1 [x]); [done|by repeat constructor..]). by inversion F.
  Qed.

  (** *** Writing the variables *)
  Local Notation keeps_at x p l s := (keeps_part v w (sub (vdir w x) s) (vassign p l)).
  Lemma safe_file (O : path -> Prop) d s : O d -> safe O (fun r s1 => agree O s s1 /\ r = Ok (s !! d)) (read_file d) s.
  Proof using. intros Hd. unfold read_file. cbn. intros t Ht Ha u Hu' Hau. split; [by eapply agree_trans|]. rewrite sub_lookup, app_nil_r. by rewrite Ha. Qed.
  Lemma simple_view_chunks x n p a cs y : x ∈ vs -> W n -> V0 x = Some p -> dget (vp_vars p) n = Some a -> s0 !! (vdir w x ++ [n; ZARRAY]) = Some (CMeta (MArray (zarr_for a cs))) ->
    arr_wf y -> a_shape y = v_shape a -> simple CTorn vnow (under (vdir w x)) (write_chunks (vdir w x ++ [n]) (zarr_for a cs) false y).
  Proof using.
    intros Hx Hn Hp Ha Hz Hy Hsh. unfold write_chunks, pfor. apply simple_bind; [|done].
    assert (Hv : forall ci, ci ∈ indices (grid (z_shape (zarr_for a cs)) (z_chunks (zarr_for a cs))) -> valid (grid (v_shape a) cs) ci) by (intros ci Hci; by apply indices_valid in Hci).
    induction (indices _) as [|ci l IH]; [done|]. cbn [map pseq andb].
    apply simple_bind; [|intros ?; apply simple_bind; [apply IH; intros cj Hcj; apply Hv; by right|done]]. specialize (Hv ci ltac:(left)). cbn. rewrite <-app_assoc. cbn [app]. split; [split; [apply under_app|]|by intros [|]].
    assert (Hset : forall s c0, vnow s -> c0 = CTorn \/ c0 = CChunk (chunk_at y cs ci) -> vnow (<[vdir w x ++ [n; chunk_key ci] := c0]> s)).
    { intros s c0 Hs Hc q. destruct (decide (vdir w x ++ [n; chunk_key ci] = q)) as [<-|N]; [|rewrite lookup_insert_ne by done; apply Hs].
      right. exists x, n, p, a, cs, ci. split_and!; try done. rewrite lookup_insert. destruct Hc as [->| ->]; [by left|right]. by exists y. }
    intros s Hs. split; apply Hset; auto.
  Qed.
  Lemma safe_view_update x n p (array : program vdata) (R : vdata -> Prop) l s : x ∈ vs -> V0 x = Some p -> W n -> vfits p l -> n ∉ dkeys l ->
    keeps_at x p l s -> vnow s ->
    (forall s1, vnow s1 -> agree (under (vdir w x)) s s1 ->
       safe (under (vdir w x)) (fun r s2 => agree (under (vdir w x)) s1 s2 /\ forall y, r = Ok y -> vd_wf y /\ R y) array s1) ->
    safe (under (vdir w x)) (fun r s' =>
      (exists ex, r = Raise ex /\ agree (under (vdir w x)) s s') \/
      (r = Ok tt /\ exists a y, dget (vp_vars p) n = Some a /\ R y /\ vd_wf y /\ vd_shape y = v_shape a /\ vfits p (l ++ [(n, to_store (v_fill a) y)]) /\
         keeps_at x p (l ++ [(n, to_store (v_fill a) y)]) s'))
      (update_zarr_array (vdir w x ++ [n]) array) s.
  Proof using All.
    intros Hx Hp Hn Hf Hnl Hk Hm Ha. set (O := under (vdir w x)) in *. unfold update_zarr_array.
    assert (Hget : dget (vp_vars (vassign p l)) n = dget (vp_vars p) n).
    { rewrite vassign_get. apply dget_None in Hnl. rewrite Hnl. by destruct (dget (vp_vars p) n). }
    eapply safe_bind; [done|apply safe_file; unfold O; rewrite <-app_assoc; apply under_app| |].
    2:{ intros ex s' _ [_ ?]. done. }
    cbv beta. intros o s1 Hm1 [Ha1 [= ->]].
    match goal with |- Rely_Proofs.safe _ _ _ ?Q _ _ => assert (Hraise : forall (ex : exn) s2, agree O s s2 -> safe O Q (praise ex) s2) end.
    { intros ex s2 H2 t Ht Hat. left. exists ex. split; [done|]. by eapply agree_trans. }
    rewrite <-app_assoc. cbn [app].
    destruct (dget (vp_vars p) n) as [a|] eqn:En.
    2:{ assert (s !! (vdir w x ++ [n; ZARRAY]) = None) as ->; [|by apply Hraise].
        destruct (s !! (vdir w x ++ [n; ZARRAY])) as [y|] eqn:E; [|done]. rewrite <-sub_lookup in E. apply (kt_names _ _ _ _ Hk) in E as (m & g & [= <- _] & [->|Hm']); [by destruct Hck|].
        apply (kt_same _ _ _ _ Hk) in Hm'. apply dget_is_Some in Hm' as [? Hm']. congruence. }
    destruct (kt_vars _ _ _ _ Hk _ _ Hget) as (mv & Em & Hfi & Ka). destruct (keeps_outside _ _ Ka) as (cs & Hc & Hz & Ho). rewrite !sub_lookup in Hz. cbn [app] in Hz. rewrite Hz.
    assert (Hz0 : s0 !! (vdir w x ++ [n; ZARRAY]) = Some (CMeta (MArray (zarr_for a cs)))).
    { destruct (vnow_at s x p n [ZARRAY] Hm Hp) as [E|(a' & cs' & ci & _ & _ & _ & _ & _ & [= E] & _)]; [by rewrite <-E|]. exfalso. symmetry in E. revert E. apply chunk_key_meta. set_solver. }
    eapply safe_bind; [done|by apply Ha| |].
    2:{ cbv beta. intros ex s2 Hm2 [Ha2 _]. left. exists ex. split; [done|]. by eapply agree_trans. }
    cbv beta. intros y s2 Hm2 [Ha2 Hy]. destruct (Hy y eq_refl) as [Hwf HR]. assert (Has2 : agree O s s2) by (by eapply agree_trans).
    change (z_shape (zarr_for a cs)) with (v_shape a). change (z_fill (zarr_for a cs)) with (v_fill a). destruct (v_shape a) as [|k sh] eqn:Esh; [by apply Hraise|]. case_bool_decide as Eshape; [|by apply Hraise]. rewrite to_store_shape in Eshape. rewrite <-Esh in *.
    eapply safe_mono; [|apply safe_simple; apply (simple_view_chunks x n p a cs); try done; [by apply to_store_wf|by rewrite to_store_shape]]. cbv beta.
    rewrite exec_write_chunks by done. cbn [fst snd]. intros r' s' Hm' [-> Ha3]. right. split; [done|]. exists a, y. split; [done|]. split; [done|]. split; [done|]. split; [done|].
    assert (Hfit : vfits p (l ++ [(n, to_store (v_fill a) y)])).
    { intros m b. rewrite dget_app. destruct (dget l m) as [b'|] eqn:El; [intros [= <-]; by apply Hf|]. cbn.
      destruct (decide (m = n)) as [->|]; [|done]. intros [= <-]. split; [by apply to_store_wf|]. exists a. split; [done|]. by rewrite to_store_shape. }
    split; [done|]. rewrite (sub_agree _ _ _ Ha3), sub_graft_in, (sub_agree _ _ _ Has2).
    assert (Evv : vassign p (l ++ [(n, to_store (v_fill a) y)]) = vassign (vassign p l) [(n, to_store (v_fill a) y)]).
    { unfold vassign. f_equal. cbn [vp_vars vp_axis]. rewrite map_map. apply map_ext. intros [m b]. unfold assign. cbn. f_equal. rewrite dget_app. cbn.
      destruct (decide (m = n)) as [->|]; [|by destruct (dget l m)]. apply dget_None in Hnl. by rewrite Hnl. }
    rewrite Evv. apply keeps_part_write; [done|done|done|done|by rewrite sub_lookup|done|by apply to_store_wf|by rewrite to_store_shape].
  Qed.
  Lemma safe_view_loop x p (body : str * result -> program unit) (R : str * result -> vdata -> Prop) : x ∈ vs -> V0 x = Some p -> forall todo dn s,
    NoDup (dkeys dn ++ dkeys todo) -> (forall m, m ∈ dkeys dn ++ dkeys todo -> W m) -> vfits p dn -> keeps_at x p dn s -> vnow s ->
    (forall nr l s1, nr ∈ todo -> nr.1 ∉ dkeys l -> vfits p l -> keeps_at x p l s1 -> vnow s1 ->
      safe (under (vdir w x)) (fun r s' => (exists ex, r = Raise ex /\ agree (under (vdir w x)) s1 s') \/
        (r = Ok tt /\ exists a y, dget (vp_vars p) nr.1 = Some a /\ R nr y /\ vd_wf y /\ vd_shape y = v_shape a /\ vfits p (l ++ [(nr.1, to_store (v_fill a) y)]) /\
         keeps_at x p (l ++ [(nr.1, to_store (v_fill a) y)]) s')) (body nr) s1) ->
    safe (under (vdir w x)) (fun r s' => exists xs, vfits p (dn ++ xs) /\ (forall m, m ∈ dkeys xs -> W m) /\ keeps_at x p (dn ++ xs) s' /\
       (r = Ok tt -> Forall2 (fun nr na => na.1 = nr.1 /\ exists a y, dget (vp_vars p) nr.1 = Some a /\ R nr y /\ vd_wf y /\ na.2 = to_store (v_fill a) y) todo xs)) (pfor todo body) s.
  Proof using Hsh0 Hall.
    intros Hx Hp todo. induction todo as [|nr todo IH]; intros dn s Hnd HW Hf Hh Hm Hb.
    - unfold pfor. cbn [map pseq]. cbn. intros t Ht Ha. exists []. rewrite app_nil_r. split; [done|]. split; [intros m Hm'; by apply elem_of_nil in Hm'|].
      rewrite (sub_agree _ _ _ Ha). split; [done|]. constructor.
    - assert (Hn : nr.1 ∉ dkeys dn) by (intros Hin; cbn in Hnd; apply NoDup_app in Hnd as (_ & Hd & _); apply (Hd _ Hin); left).
      apply safe_pfor_cons.
      eapply safe_bind; [done|exact (Hb nr dn s (elem_of_list_here _ _) Hn Hf Hh Hm)| |].
      + cbv beta. intros [] s1 Hm1 [(ex & ? & _)|(_ & a & y & E0 & HR & Hwf & Hsh & Hf1 & Hh1)]; [done|].
          eapply safe_mono; [|apply (IH (dn ++ [(nr.1, to_store (v_fill a) y)]) s1); try done].
        * cbv beta. intros r s' _ (xs & H1 & H2 & H3 & H4). exists ((nr.1, to_store (v_fill a) y) :: xs). rewrite <-app_assoc in H1, H3. cbn [app] in H1, H3. split; [done|]. split; [|split; [done|]].
          -- cbn [dkeys map fst]. intros m [->|Hm']%elem_of_cons; [apply HW, elem_of_app; right; left|by apply H2].
          -- intros Er. constructor; [|by apply H4]. split; [done|]. by exists a, y.
        * unfold dkeys in *. rewrite map_app, <-app_assoc. exact Hnd.
        * unfold dkeys in *. rewrite map_app, <-app_assoc. exact HW.
        * intros nr' l' s2 Hin. apply Hb. by right.
      + cbv beta. intros ex s1 Hm1 [(ex' & [= <-] & Ha)|(? & _)]; [|done]. exists []. rewrite app_nil_r. split; [done|]. split; [intros m Hm'; by apply elem_of_nil in Hm'|].
        by rewrite (sub_agree _ _ _ Ha).
  Qed.

  (** *** One partition *)
  Context (o_at : list Z -> dataset).
  Local Notation item := (vitem w o_at).
  Local Notation one := (view_update_overlap w true (Z.of_nat depth) sel trim f (map item vs)).
  Lemma reload_is x : (let! l <- pseq (map (fun y : list (str * Z) * (dataset * path) => load_part w true sel (y.1, [])) (map item vs)); Ret (select_overlap w (Z.of_nat depth) l (item x).2.2)) = reload x.
  Proof using. by rewrite map_map. Qed.
  Definition vmade (x : list Z) (before : list dataset) (old : dataset) (after : list dataset) (l : list (str * arr)) : Prop :=
    exists ds range l0, exec (reload x) s0 = (Ok (ds, range), s0) /\ seen_around dim true sel before old after ds range /\
      cb_call f ds (if cb_info f then Some (dim, range) else None) = Ok l0 /\
      Forall2 (fun nr na => na.1 = nr.1 /\ exists v0 y, dget (d_vars old) nr.1 = Some v0 /\ written c trim ds range old nr y /\ vd_wf y /\ na.2 = to_store (v_fill v0) y) (dict_of l0) l.
  Lemma vmade_unique x before old after l l' : vmade x before old after l -> vmade x before old after l' -> l' = l.
  Proof using.
    intros (ds & range & l0 & E & _ & Ecb & H) (ds' & range' & l0' & E' & _ & Ecb' & H'). rewrite E in E'. injection E' as <- <-. rewrite Ecb in Ecb'. injection Ecb' as <-.
    clear E Ecb. revert l' H'. induction H as [|nr [n a] todo l (En & v0 & y & Ev & (z & Ex & Hy) & _ & Ea) _ IH]; intros l' H'; inversion H' as [|? [n' a'] ? l1 (En' & v1 & y' & Ev' & (z' & Ex' & Hy') & _ & Ea') H1]; subst; [done|].
    f_equal; [|by apply IH]. cbn in *. subst. assert (z' = z) as -> by congruence. assert (v1 = v0) as -> by congruence. assert (y' = y) as ->; [|done].
    destruct trim; [|congruence]. destruct Hy as (w0 & key & Ew & Ek & _ & Ey), Hy' as (w' & key' & Ew' & Ek' & _ & Ey'). assert (w' = w0) as -> by congruence. congruence.
  Qed.
  Lemma data_at_sound x old : data_at M V0 x = Some old -> sound old /\ measured dim sel old.
  Proof using Hw Hsh0 Hmo Hcov.
    intros H. by apply (data_sound v w M I V0 s0 Hw (sh_ref _ _ _ _ _ _ Hsh0) Hmo (sh_view _ _ _ _ _ _ Hsh0) (sh_agrees _ _ _ _ _ _ Hsh0) sel Hcov) in H as (_ & ? & ?).
  Qed.
  Lemma safe_view_part x ds1 p before after s : varound x before (combined ds1 p) after -> M x = Some ds1 -> V0 x = Some p -> vnow s -> sub (vdir w x) s = sub (vdir w x) s0 ->
    safe (under (vdir w x)) (fun r s' => exists l, vfits p l /\ (forall n, n ∈ dkeys l -> W n) /\ keeps_at x p l s' /\ (r = Ok tt -> vmade x before (combined ds1 p) after l)) (one (item x)) s.
  Proof using All.
    intros Har HM HV Hm Esub. pose proof Har as (pre & post & Evs & Hold & Hbe & Haf). set (old := combined ds1 p) in *.
    assert (Hin : x ∈ vs) by (rewrite Evs; apply elem_of_app; right; left).
    destruct (data_at_sound x old Hold) as [Hso Hme]. set (O := under (vdir w x)).
    destruct (hw_part _ _ _ _ (sh_view _ _ _ _ _ _ Hsh0) _ _ HV) as (_ & Hk).
    set (Q := fun (r : res unit) (s' : store) => exists l, vfits p l /\ (forall n, n ∈ dkeys l -> W n) /\ keeps_at x p l s' /\ (r = Ok tt -> vmade x before old after l)).
    assert (Hnone : forall ex s', agree O s s' -> Q (Raise ex) s').
    { intros ex s' Ha. exists []. split; [done|]. split; [intros n Hn; by apply elem_of_nil in Hn|]. rewrite vassign_nil. split; [|done]. by rewrite (sub_agree _ _ _ Ha), Esub. }
    assert (Hvget : forall n a, dget (vp_vars p) n = Some a -> dget (d_vars old) n = Some (with_delayed a (d_delayed ds1))).
    { intros n a Ha. unfold old. rewrite part_get, (names_apart x ds1 p HM HV), Ha; [done|]. apply dget_is_Some. by eexists. }
    destruct (shown_reload V0 s0 x Hsh0 Hall pre post Evs) as (ds0 & range & before0 & old0 & after0 & E0 & Hb0 & Ho0 & Ha0 & Hsee0).
    assert (before0 = before) as -> by exact (held_unique _ _ _ _ Hbe Hb0). assert (after0 = after) as -> by exact (held_unique _ _ _ _ Haf Ha0). assert (old0 = old) as -> by congruence.
    assert (Hhd : exists y, data_at M V0 y = Some (hd old before)).
    { clear Hsee0. inversion Hbe as [E1 E2|y d ys ds' Hy _ E1 E2]; [by exists x|by exists y]. }
    destruct Hhd as [wh Hwh].
    assert (Hlay0 : same_layout dim (hd old before) old).
    { eapply (data_layout v w M I V0 s0 Hw (sh_ref _ _ _ _ _ _ Hsh0) Hu Hmo (sh_view _ _ _ _ _ _ Hsh0) (sh_agrees _ _ _ _ _ _ Hsh0)); done. }
    assert (Hsame : forall before' old' after' ds range', Forall2 (varies W) before before' -> varies W old old' -> Forall2 (varies W) after after' ->
       seen_around dim true sel before' old' after' ds range' -> alike W ds0 ds /\ range' = range).
    { intros before' old' after' ds range' H1 H2 H3 Hsee. eapply seen_alike; [..|exact Hsee0|exact Hsee].
      - intros u Hu'. eapply sound_dims; [|done]. by apply (data_at_sound wh).
      - done.
      - done.
      - eapply Forall2_impl; [done|apply varies_alike].
      - by apply varies_alike.
      - eapply Forall2_impl; [done|apply varies_alike]. }
    unfold view_update_overlap. cbv zeta. rewrite reload_is.
    assert (Evd : forall n : str, w_dir w ++ (item x).2.2 ++ [n] = vdir w x ++ [n]) by (intros n; unfold vdir; by rewrite <-app_assoc).
    eapply safe_bind; [done|by apply (safe_reload O x before old after)| |].
    2:{ cbv beta. intros ex s1 _ [Ha _]. by apply Hnone. }
    cbv beta. intros [ds range'] s1 Hm1 [Ha1 Hds]. destruct (Hds ds range' eq_refl) as (before1 & old1 & after1 & V1 & V2 & V3 & Hsee).
    destruct (Hsame _ _ _ _ _ V1 V2 V3 Hsee) as [Hal ->]. pose proof (sa_proper _ _ _ _ _ _ _ _ Hsee0) as Hp0. pose proof (sa_proper _ _ _ _ _ _ _ _ Hsee) as Hp1.
    set (info := if cb_info f then Some (dim, range) else None).
    assert (Ecw : call_with f ds (dim, range) = cb_call f ds info) by (unfold call_with, info; by destruct (cb_info f)). rewrite Ecw.
    destruct (Hblind ds0 ds info Hp0 Hp1 Hal) as [Ecall Hval]. rewrite Ecall.
    destruct (cb_call f ds0 info) as [l0|ex] eqn:Ecb; cbn [call_dict rbind].
    2:{ cbn. intros t Ht Ha. apply Hnone. by eapply agree_trans. }
    set (todo := dict_of l0). cbn [pbind].
    assert (Hin0 : forall nr, nr ∈ todo -> nr ∈ l0) by (intros [n r] Hnr; apply dict_of_elem, elem_dget; [apply dict_of_NoDup|done]).
    assert (HW : forall m, m ∈ dkeys todo -> W m) by (intros m Hm'; exists ds0, info, l0; split; [done|by apply dict_of_keys]).
    assert (Hev : forall nr s2, nr ∈ todo -> vnow s2 -> safe O (fun r s3 => agree O s2 s3 /\ forall y, r = Ok y -> vd_wf y /\ value ds0 nr.2 = Ok y)
        (evaluate (let! di <- reload x; pret di.1) true ds nr.2) s2).
    { intros [n r] s2 Hnr Hm2. cbn [snd]. assert (Hwf : forall y, value ds0 r = Ok y -> vd_wf y) by (intros y Hy; exact (Hsane ds0 info l0 n r Hp0 Ecb (Hin0 _ Hnr) ds0 y Hp0 Hy)).
      assert (Hone : forall ds', proper ds' -> alike W ds0 ds' -> value ds' r = value ds0 r).
      { intros ds' Hp' Ha'. destruct (Hblind ds0 ds' info Hp0 Hp' Ha') as [_ H]. by apply (H l0 n r Ecb), Hin0. }
      destruct r as [d|g]; cbn [evaluate].
      - cbn. intros t Ht Ha. split; [done|]. intros y [= <-]. split; [by apply Hwf|done].
      - eapply safe_bind; [done| | |].
        + eapply safe_bind; [done|by apply (safe_reload O x before old after)| |].
          * cbv beta. intros di s3 Hm3 H. refine (safe_ret _ _ O (fun r s4 => agree O s2 s4 /\ forall ds', r = Ok ds' -> alike W ds0 ds' /\ proper ds') _ _ _).
            intros s4 Hm4 Ha4. destruct H as [Ha3 H]. split; [by eapply agree_trans|]. intros ds' [= <-]. destruct di as [ds' rg]. destruct (H ds' rg eq_refl) as (b1 & o1 & a1 & X1 & X2 & X3 & X4).
            split; [by apply (Hsame _ _ _ _ _ X1 X2 X3 X4)|by apply (sa_proper _ _ _ _ _ _ _ _ X4)].
          * cbv beta. intros ex s3 Hm3 [Ha3 _]. split; [done|]. done.
        + cbv beta. intros ds' s3 Hm3 [Ha3 H]. destruct (H ds' eq_refl) as [Hal' Hp']. cbn. intros t Ht Ha. split; [by eapply agree_trans|]. intros y Ex.
          pose proof (Hone ds' Hp' Hal') as Hg. cbn [value] in Hg, Hwf |- *. rewrite Ex in Hg. rewrite <-Hg. split; [|done]. apply Hwf. by rewrite <-Hg.
        + cbv beta. intros ex s3 Hm3 [Ha3 _]. by split. }
    eapply safe_mono; [|apply (safe_view_loop x p _ (written c trim ds0 range old) Hin HV todo [] s1); try done].
    - cbv beta. intros r s' _ (xs & Hf & HWx & Hhx & Hok). cbn [app] in Hf, Hhx. exists xs. split; [done|]. split; [done|]. split; [done|]. intros ->. specialize (Hok eq_refl).
      exists ds0, range, l0. split; [done|]. split; [done|]. split; [done|]. eapply Forall2_impl; [exact Hok|]. cbv beta. intros nr na (En & a & y & Ea & Hwr & Hwf & Ena). split; [done|].
      exists (with_delayed a (d_delayed ds1)), y. split; [by apply Hvget|]. done.
    - cbn [dkeys map app]. apply dict_of_NoDup.
    - by rewrite vassign_nil, (sub_agree _ _ _ Ha1), Esub.
    - intros nr l s2 Hnr Hnl Hf Hh2 Hm2. rewrite Evd. destruct trim eqn:Etrim.
      + match goal with |- Rely_Proofs.safe _ _ _ ?Q' _ _ => assert (Hrs : forall ex, safe O Q' (Ret (Raise ex)) s2) end.
        { intros ex t Ht Ha. left. by exists ex. }
        destruct (get_var ds nr.1) as [a1|ex] eqn:Ew; cbn [pbind]; [|by apply Hrs]. destruct (get_slices a1 dim range) as [key|ex] eqn:Ek; cbn [pbind]; [|by apply Hrs].
        apply safe_view_update; try done; [by apply HW, elem_of_list_fmap; exists nr|]. intros s3 Hm3 Ha3.
        eapply safe_bind; [done|by apply (Hev nr s3)| |].
        2:{ cbv beta. intros ex s4 Hm4 [Ha4 _]. by split. }
        cbv beta. intros z s4 Hm4 [Ha4 Hx]. destruct (Hx z eq_refl) as [Hwf Evx]. cbn. intros t Ht Ha. split; [by eapply agree_trans|]. intros y Ey.
        unfold get_var in Ew. destruct (dget (d_vars ds) nr.1) as [w'|] eqn:Ew'; [|done]. injection Ew as ->.
        destruct (sa_vars _ _ _ _ _ _ _ _ Hsee nr.1 a1 Ew') as (vp & Evp & Hsb).
        assert (exists vp0, dget (d_vars (hd old before)) nr.1 = Some vp0 /\ v_dims vp = v_dims vp0) as (vp0 & Evp0 & Edims).
        { assert (Hal1 : varies W (hd old before) (hd old1 before1)) by (by inversion V1; subst). destruct (varies_form _ _ _ Hal1) as [_ HF]. destruct (HF _ _ Evp) as (vp0 & E & Ed & _). by exists vp0. }
        assert (exists v0, dget (d_vars old) nr.1 = Some v0) as [v0 Ev0].
        { apply dget_is_Some. apply (proj1 Hlay0). apply dget_is_Some. by eexists. }
        assert (Hdw : v_dims a1 = v_dims v0).
        { destruct Hsb as (S1 & _). rewrite S1. cbn. rewrite Edims. by destruct (proj2 Hlay0 nr.1 vp0 v0 Evp0 Ev0). }
        destruct (trim_ok a1 dim range key z y) as (ax & Hax & Htr & Hwy); [|done..|].
        { rewrite Hdw. eapply sound_dims; [exact Hso|]. eapply vals_elem. by apply dget_elem. }
        split; [done|]. exists z. split; [done|]. exists v0, key. split; [done|]. unfold get_slices in *. rewrite <-Hdw. done.
      + apply safe_view_update; try done; [by apply HW, elem_of_list_fmap; exists nr|]. intros s3 Hm3 Ha3.
        eapply safe_mono; [|by apply (Hev nr s3)]. cbv beta. intros r s' _ [Ha4 Hx]. split; [done|]. intros z Ex. destruct (Hx z Ex) as [Hwf Ev]. split; [done|]. by exists z.
  Qed.

  Lemma varound_exists x : x ∈ vs -> exists ds p before after, M x = Some ds /\ V0 x = Some p /\ varound x before (combined ds p) after.
  Proof using Hall.
    intros Hx. destruct (elem_of_list_split vs x Hx) as (pre & post & E). destruct (Hall x Hx) as [[ds Hd] [p Hp]].
    destruct (held_some V0 (drop (length pre - depth) pre)) as [before Hb].
    { intros y Hy. apply Hall. rewrite E. apply elem_of_app. left. rewrite <-(take_drop (length pre - depth) pre). apply elem_of_app. by right. }
    destruct (held_some V0 (take depth post)) as [after Ha].
    { intros y Hy. apply Hall. rewrite E. apply elem_of_app. right. right. rewrite <-(take_drop depth post). apply elem_of_app. by left. }
    exists ds, p, before, after. split; [done|]. split; [done|]. exists pre, post. split; [done|]. split; [|done]. unfold data_at. by rewrite Hd, Hp.
  Qed.
  Lemma varound_unique x before old after before' old' after' : varound x before old after -> varound x before' old' after' -> before' = before /\ old' = old /\ after' = after.
  Proof using Hvs.
    intros (pre & post & E & H1 & H2 & H3) (pre' & post' & E' & H1' & H2' & H3').
    destruct (split_unique x pre post pre' post') as [-> ->]; [by rewrite <-E|by rewrite <-E|].
    split; [exact (held_unique _ _ _ _ H2 H2')|]. split; [congruence|exact (held_unique _ _ _ _ H3 H3')].
  Qed.
  Definition vpart_done (x : list Z) (ok : Prop) (s : store) : Prop :=
    forall ds p before after, M x = Some ds -> V0 x = Some p -> varound x before (combined ds p) after ->
      exists l, vfits p l /\ (forall n, n ∈ dkeys l -> W n) /\ keeps_at x p l s /\ (ok -> vmade x before (combined ds p) after l).
  Lemma vpart_done_local x (ok ok' : Prop) s s' : (ok' -> ok) -> sub (vdir w x) s' = sub (vdir w x) s -> vpart_done x ok s -> vpart_done x ok' s'.
  Proof using.
    intros Hok E H ds p before after HM HV Ha. destruct (H ds p before after HM HV Ha) as (l & H1 & H2 & H3 & H4). exists l. rewrite E. split; [done|]. split; [done|]. split; [done|]. auto.
  Qed.
  Lemma vpart_done_not x (ok : Prop) s : sub (vdir w x) s = sub (vdir w x) s0 -> ~ ok -> vpart_done x ok s.
  Proof using Hsh0.
    intros E Hok ds p before after HM HV Ha. exists []. destruct (hw_part _ _ _ _ (sh_view _ _ _ _ _ _ Hsh0) _ _ HV) as (_ & Hk).
    split; [done|]. split; [intros n Hn; by apply elem_of_nil in Hn|]. rewrite vassign_nil, E. done.
  Qed.
  Lemma safe_view_batch b : NoDup b -> (forall x, x ∈ b -> x ∈ vs) -> forall s, vnow s -> (forall x, x ∈ b -> sub (vdir w x) s = sub (vdir w x) s0) ->
    safe (vregion w b) (fun r s' => forall x, x ∈ b -> vpart_done x (r = Ok tt) s') (pfor (map item b) one) s.
  Proof using All.
    induction b as [|x b IH]; intros Hnd Hb s Hm Esub.
    - unfold pfor. cbn. intros t _ _ y Hy. by apply elem_of_nil in Hy.
    - inversion Hnd as [|? ? Hxb Hnd']; subst. cbn [map]. apply safe_pfor_cons. destruct (varound_exists x) as (ds & p & before & after & HM & HV & Har); [apply Hb; left|].
      assert (Hap : forall y q, y ∈ b -> under (vdir w y) q -> ~ under (vdir w x) q).
      { intros y q Hy U U'. refine (vdirs_apart w y x (len_vs y _) (len_vs x _) _ q U U'); [apply Hb; by right|apply Hb; left|by intros ->]. }
      assert (Hone : forall (ok : Prop) l s', vfits p l -> (forall n, n ∈ dkeys l -> W n) -> keeps_at x p l s' -> (ok -> vmade x before (combined ds p) after l) -> vpart_done x ok s').
      { intros ok l s' H1 H2 H3 H4 ds' p' before' after' HM' HV' Har'. assert (ds' = ds) as -> by congruence. assert (p' = p) as -> by congruence.
        destruct (varound_unique _ _ _ _ _ _ _ Har Har') as (-> & _ & ->). by exists l. }
      eapply safe_bind; [done|eapply (safe_widen _ _ (under (vdir w x))); [|apply (safe_view_part x ds p before after s Har HM HV Hm); apply Esub; left]| |].
      + intros q Hq. apply Exists_cons. by left.
      + cbv beta. intros [] s1 Hm1 [(l & Hf & HW & Hh & Hok) Hout].
        assert (Hs1 : forall y, y ∈ b -> sub (vdir w y) s1 = sub (vdir w y) s).
        { intros y Hy. apply map_eq. intros q. rewrite !sub_lookup. apply Hout; [|by eapply Hap; [|apply under_app]]. apply Exists_cons. right. apply Exists_exists. exists y. split; [done|apply under_app]. }
        eapply safe_mono; [|eapply (safe_widen _ _ (vregion w b)); [|apply (IH Hnd'); [intros y Hy; apply Hb; by right|done|]]].
        * cbv beta. intros r s' _ [H1 H2] y [->|Hy]%elem_of_cons; [|by apply H1]. apply (Hone _ l); [done|done| |intros _; by apply Hok].
          assert (E : sub (vdir w x) s' = sub (vdir w x) s1); [|by rewrite E].
          apply map_eq. intros q. rewrite !sub_lookup. apply H2; [apply Exists_cons; left; apply under_app|]. intros X. apply Exists_exists in X as (y & Hy & U).
          apply (Hap y _ Hy U), under_app.
        * intros q Hq. apply Exists_cons. by right.
        * intros y Hy. rewrite Hs1 by done. apply Esub. by right.
      + cbv beta. intros ex s1 Hm1 [(l & Hf & HW & Hh & Hok) Hout] y [->|Hy]%elem_of_cons.
        * by apply (Hone _ l).
        * apply vpart_done_not; [|done]. rewrite <-(Esub y) by (by right). apply map_eq. intros q. rewrite !sub_lookup. apply Hout; [|by eapply Hap; [|apply under_app]].
          apply Exists_cons. right. apply Exists_exists. exists y. split; [done|apply under_app].
  Qed.
  Lemma safe_view_transaction sched bs r s' : concat bs = vs ->
    exec (execute_transaction CTorn sched (map (fun b => pfor b one) (map (map item) bs))) s0 = (r, s') ->
    vnow s' /\ forall x, x ∈ vs -> vpart_done x (is_ok r = true) s'.
  Proof using All.
    intros Hcat E. unfold execute_transaction in E. rewrite exec_bind in E. set (tasks := map (fun b => pfor b one) (map (map item) bs)) in *.
    assert (Hlk : forall i p, tasks !! i = Some p -> exists b, bs !! i = Some b /\ p = pfor (map item b) one).
    { intros i p. unfold tasks. rewrite map_map. change (map ?g bs) with (g <$> bs). rewrite list_lookup_fmap. destruct (bs !! i) as [b|]; [|done]. intros [= <-]. eauto. }
    assert (Hlt : length tasks = length bs) by (unfold tasks; by rewrite !map_length).
    assert (Hcin : forall i b x, bs !! i = Some b -> x ∈ b -> x ∈ vs).
    { intros i b x Hi Hx. rewrite <-Hcat. apply elem_of_list_In, in_concat. exists b. split; [|by apply elem_of_list_In]. apply elem_of_list_In. by eapply elem_of_list_lookup_2. }
    assert (Hndb : forall i b, bs !! i = Some b -> NoDup b).
    { pose proof Hvs as Hn. rewrite <-Hcat in Hn. clear -Hn. induction bs as [|x bs IH]; intros i b Hi; [done|]. cbn in Hn. apply NoDup_app in Hn as (H1 & _ & H2). destruct i; [by injection Hi as ->|by eapply (IH H2)]. }
    assert (Hdis : forall i j b b' x, i <> j -> bs !! i = Some b -> bs !! j = Some b' -> x ∈ b -> x ∉ b').
    { pose proof Hvs as Hn. rewrite <-Hcat in Hn. clear -Hn. induction bs as [|y bs IH]; intros i j b b' x N Hi Hj Hx Hx'; [done|]. cbn in Hn. apply NoDup_app in Hn as (_ & Hd & Hnd). destruct i as [|i], j as [|j]; [done|..].
      - injection Hi as ->. apply (Hd x Hx). apply elem_of_list_In, in_concat. exists b'. split; [|by apply elem_of_list_In]. apply elem_of_list_In. by eapply elem_of_list_lookup_2.
      - injection Hj as ->. apply (Hd x Hx'). apply elem_of_list_In, in_concat. exists b. split; [|by apply elem_of_list_In]. apply elem_of_list_In. by eapply elem_of_list_lookup_2.
      - apply (IH Hnd i j b b' x); [congruence|done..]. }
    set (O := fun i q => match bs !! i with Some b => vregion w b q | None => False end).
    set (Q := fun i (r : res unit) (s' : store) => match bs !! i with Some b => forall x, x ∈ b -> vpart_done x (r = Ok tt) s' | None => True end).
    destruct (safe_interleave CTorn vnow sched tasks O Q s0) as (rs & s1 & E1 & Hm & Hl & HQ & _).
    - intros i j q Hi Hj N Hq Hq'. unfold O in *. destruct (bs !! i) as [b|] eqn:Ei; [|done]. destruct (bs !! j) as [b'|] eqn:Ej; [|done].
      apply Exists_exists in Hq as (x & Hx & U), Hq' as (x' & Hx' & U'). refine (vdirs_apart w x x' (len_vs x _) (len_vs x' _) _ q U U'); [exact (Hcin i b x Ei Hx)|exact (Hcin j b' x' Ej Hx')|].
      intros ->. by apply (Hdis i j b b' x').
    - apply vnow_start.
    - intros i p Ep. apply Hlk in Ep as (b & Ei & ->). unfold O, Q. rewrite Ei. apply safe_view_batch; [by eapply Hndb| |apply vnow_start|done].
      intros x Hx. exact (Hcin i b x Ei Hx).
    - rewrite E1 in E. cbn [exec] in E. injection E as <- <-. split; [done|]. intros x Hx. rewrite <-Hcat in Hx.
      apply elem_of_list_In, in_concat in Hx as (b & Hb & Hx). apply elem_of_list_In in Hb, Hx. apply elem_of_list_lookup_1 in Hb as [i Hi].
      destruct (lookup_lt_is_Some_2 rs i) as [ri Eri]; [rewrite Hl, Hlt; by eapply lookup_lt_Some|].
      specialize (HQ i ri Eri). unfold Q in HQ. rewrite Hi in HQ. eapply vpart_done_local; [|done|by apply HQ].
      intros Hok. destruct (first_error rs) as [l|] eqn:Ef; [|done]. apply first_error_Ok in Ef. rewrite Ef in Eri. change (map Ok l) with (Ok <$> l) in Eri. rewrite list_lookup_fmap in Eri.
      destruct (l !! i) as [[]|]; [|done]. by injection Eri as <-.
  Qed.

  (** *** What the view holds at the end *)
  Lemma view_done sched bs r s' : concat bs = vs ->
    exec (execute_transaction CTorn sched (map (fun b => pfor b one) (map (map item) bs))) s0 = (r, s') ->
    exists V', shown v w M I V' s' /\ (forall x, x ∉ vs -> V' x = V0 x) /\
      (forall x, x ∈ vs -> exists ds p before after l, M x = Some ds /\ V0 x = Some p /\ varound x before (combined ds p) after /\ V' x = Some (vassign p l) /\ vfits p l /\ (forall n, n ∈ dkeys l -> W n) /\
         (is_ok r = true -> vmade x before (combined ds p) after l)) /\
      forall q, (forall x n, x ∈ vs -> W n -> ~ under (vdir w x ++ [n]) q) -> s' !! q = s0 !! q.
  Proof using All.
    intros Hcat E. destruct (safe_view_transaction sched bs r s' Hcat E) as [Hm Hd].
    destruct (choose_parts vs (fun x p1 => exists ds p before after l, M x = Some ds /\ V0 x = Some p /\ varound x before (combined ds p) after /\ p1 = vassign p l /\ vfits p l /\ (forall n, n ∈ dkeys l -> W n) /\
       (is_ok r = true -> vmade x before (combined ds p) after l) /\ keeps_part v w (sub (vdir w x) s') p1)) as (g & Hg & Hng).
    { intros x Hx. destruct (varound_exists x Hx) as (ds & p & before & after & HM & HV & Har). destruct (Hd x Hx ds p before after HM HV Har) as (l & H1 & H2 & H3 & H4).
      exists (vassign p l), ds, p, before, after, l. done. }
    exists (fun x => match g x with Some p1 => Some p1 | None => V0 x end). split; [split|split; [|split]].
    - eapply (represents_frame w); [apply Hsh0|]. intros q Hq. apply vnow_ref; [done|]. intros x Hx U. eapply (vw_apart _ _ Hw); [by eapply under_more|exact Hq].
    - apply (holds_view_change v w V0 s0 vs); [apply Hsh0|..].
      + intros x Hx. split; [by apply len_vs|]. destruct (Hg x Hx) as (p1 & Eg & ds & p & before & after & l & _ & _ & _ & _ & _ & _ & _ & Hk). exists p1. by rewrite Eg.
      + intros x Hx. by rewrite (Hng x Hx).
      + intros q _ Hq. by apply vnow_ref.
    - intros x ds p1 HM. destruct (g x) as [p1'|] eqn:Eg; [|by apply (sh_agrees _ _ _ _ _ _ Hsh0)]. intros [= ->].
      assert (Hx : x ∈ vs) by (destruct (decide (x ∈ vs)) as [|N]; [done|]; by rewrite (Hng x N) in Eg).
      destruct (Hg x Hx) as (p2 & Eg' & ds' & p & before & after & l & HM' & HV & _ & -> & Hf & _). rewrite Eg in Eg'. injection Eg' as ->. apply vassign_agrees; [|done]. by apply (sh_agrees _ _ _ _ _ _ Hsh0 x).
    - intros x Hx. by rewrite (Hng x Hx).
    - intros x Hx. destruct (Hg x Hx) as (p1 & Eg & ds & p & before & after & l & H1 & H2 & H3 & -> & H4 & H5 & H6 & _). exists ds, p, before, after, l. rewrite Eg. done.
    - intros q Hq. destruct (Hm q) as [|(x & n & p & a & cs & ci & Hx & HW & _ & _ & _ & _ & -> & _)]; [done|]. destruct (Hq x n Hx HW). change [n; chunk_key ci] with ([n] ++ [chunk_key ci]). rewrite app_assoc. apply under_app.
  Qed.

  (** *** One task *)
  Definition vvaried (V1 : list Z -> option vpart) : Prop :=
    forall x ds p, M x = Some ds -> V0 x = Some p -> exists p1, V1 x = Some p1 /\ varies W (combined ds p) (combined ds p1).
  Lemma vvaried_set V1 x p l : vvaried V1 -> V0 x = Some p -> vfits p l -> (forall n, n ∈ dkeys l -> W n) -> vvaried (set_at V1 x (vassign p l)).
  Proof using Hsh0 Hw Hmo.
    intros H HV Hf HW y ds p' HM HV'. unfold set_at. destruct (decide (y = x)) as [->|N]; [|by apply H]. assert (p' = p) as -> by congruence. exists (vassign p l). split; [done|].
    destruct (part_combined x ds p l HM HV Hf) as [-> Hfi]. by apply varies_assign.
  Qed.
  Lemma reload_alone V1 s1 x before old after ds0 range : shown v w M I V1 s1 -> vvaried V1 -> varound x before old after -> seen_around dim true sel before old after ds0 range ->
    exists ds, exec (reload x) s1 = (Ok (ds, range), s1) /\ alike W ds0 ds /\ proper ds.
  Proof using Hw Hsh0 Hu Hmo Hcov Hvs Hpos Htwo Hall.
    intros Hsh1 Hvar (pre & post & Evs & Hold & Hbe & Haf) Hsee0.
    assert (Hall1 : forall y, y ∈ vs -> is_Some (M y) /\ is_Some (V1 y)).
    { intros y Hy. destruct (Hall y Hy) as [[d Hd] [p Hp]]. split; [by eexists|]. destruct (Hvar y d p Hd Hp) as (p1 & E1 & _). by eexists. }
    destruct (shown_reload V1 s1 x Hsh1 Hall1 pre post Evs) as (ds & range1 & before1 & old1 & after1 & E & H1 & H2 & H3 & Hsee).
    pose proof (held_varies V1 _ Hvar _ _ Hbe H1) as F1. pose proof (held_varies V1 _ Hvar _ _ Haf H3) as F3.
    assert (F2 : Forall2 (varies W) [old] [old1]) by (eapply (held_varies V1 [x]); [done|by repeat constructor..]). inversion F2 as [|? ? ? ? F _]; subst. clear F2.
    assert (Hhd : exists y, data_at M V0 y = Some (hd old before)).
    { clear Hsee0 F1. inversion Hbe as [E1 E2|y d ys ds' Hy _ E1 E2]; [by exists x|by exists y]. }
    destruct Hhd as [wh Hwh].
    destruct (seen_alike W dim true sel before old after before1 old1 after1 ds0 ds range range1) as [Hal ->]; try done.
    - intros u Hu'. eapply sound_dims; [|done]. by apply (data_at_sound wh).
    - eapply (data_layout v w M I V0 s0 Hw (sh_ref _ _ _ _ _ _ Hsh0) Hu Hmo (sh_view _ _ _ _ _ _ Hsh0) (sh_agrees _ _ _ _ _ _ Hsh0)); done.
    - by apply (data_at_sound x).
    - eapply Forall2_impl; [done|apply varies_alike].
    - by apply varies_alike.
    - eapply Forall2_impl; [done|apply varies_alike].
    - exists ds. split; [done|]. split; [done|]. by apply (sa_proper _ _ _ _ _ _ _ _ Hsee).
  Qed.
  Lemma view_alone V1 s1 x ds1 p before after : (forall n, W n -> n ∈ dkeys (md_vars (w_meta w))) -> shown v w M I V1 s1 -> vvaried V1 -> V1 x = V0 x ->
    varound x before (combined ds1 p) after -> M x = Some ds1 -> V0 x = Some p ->
    works_around dim true sel trim f before (combined ds1 p) after ->
    exists s' l, exec (one (item x)) s1 = (Ok tt, s') /\ vfits p l /\ (forall n, n ∈ dkeys l -> W n) /\ shown v w M I (set_at V1 x (vassign p l)) s'.
  Proof using All.
    intros HWm Hsh1 Hvar Hsame Har HM HV Hwk. pose proof Har as (pre & post & Evs & Hold & Hbe & Haf). set (old := combined ds1 p) in *. rewrite HV in Hsame.
    destruct (data_at_sound x old Hold) as [Hso Hme].
    destruct (hw_part _ _ _ _ (sh_view _ _ _ _ _ _ Hsh0) _ _ HV) as (_ & Hk).
    assert (Hvget : forall n a, dget (vp_vars p) n = Some a -> dget (d_vars old) n = Some (with_delayed a (d_delayed ds1))).
    { intros n a Ha. unfold old. rewrite part_get, (names_apart x ds1 p HM HV), Ha; [done|]. apply dget_is_Some. by eexists. }
    destruct (shown_reload V0 s0 x Hsh0 Hall pre post Evs) as (ds0 & range & before0 & old0 & after0 & E0 & Hb0 & Ho0 & Ha0 & Hsee0).
    assert (before0 = before) as -> by exact (held_unique _ _ _ _ Hbe Hb0). assert (after0 = after) as -> by exact (held_unique _ _ _ _ Haf Ha0). assert (old0 = old) as -> by congruence.
    assert (Hhd : exists y, data_at M V0 y = Some (hd old before)).
    { clear Hsee0. inversion Hbe as [E1 E2|y d ys ds' Hy _ E1 E2]; [by exists x|by exists y]. }
    destruct Hhd as [wh Hwh].
    assert (Hlay0 : same_layout dim (hd old before) old).
    { eapply (data_layout v w M I V0 s0 Hw (sh_ref _ _ _ _ _ _ Hsh0) Hu Hmo (sh_view _ _ _ _ _ _ Hsh0) (sh_agrees _ _ _ _ _ _ Hsh0)); done. }
    destruct (reload_alone V1 s1 x before old after ds0 range Hsh1 Hvar Har Hsee0) as (ds & Eld & Hal & Hp1).
    pose proof (sa_proper _ _ _ _ _ _ _ _ Hsee0) as Hp0.
    unfold view_update_overlap. cbv zeta. rewrite reload_is.
    assert (Evd : forall n : str, w_dir w ++ (item x).2.2 ++ [n] = vdir w x ++ [n]) by (intros n; unfold vdir; by rewrite <-app_assoc).
    rewrite exec_bind, Eld.
    set (info := if cb_info f then Some (dim, range) else None).
    assert (Ecw : call_with f ds (dim, range) = cb_call f ds info) by (unfold call_with, info; by destruct (cb_info f)). rewrite Ecw.
    destruct (Hblind ds0 ds info Hp0 Hp1 Hal) as [Ecall Hval]. rewrite Ecall.
    destruct (Hwk ds0 range Hsee0) as (l0 & Ecb & Hl0). change (cb_call f ds0 info = Ok l0) in Ecb. rewrite Ecb. cbn [call_dict rbind]. rewrite exec_bind. cbn [exec].
    set (todo := dict_of l0). set (body := fun nr : str * result => _).
    assert (Hin0 : forall nr, nr ∈ todo -> nr ∈ l0) by (intros [n r] Hnr; apply dict_of_elem, elem_dget; [apply dict_of_NoDup|done]).
    assert (HW : forall m, m ∈ dkeys todo -> W m) by (intros m Hm'; exists ds0, info, l0; split; [done|by apply dict_of_keys]).
    assert (Hnck : CHECKSUM ∉ dkeys todo) by (intros H; by apply Hck, HW).
    (* the value of an array *)
    assert (Hev : forall nr l s2, nr ∈ todo -> vfits p l -> (forall m, m ∈ dkeys l -> m ∈ dkeys todo) -> shown v w M I (set_at V1 x (vassign p l)) s2 ->
        exec (evaluate (let! di <- reload x; pret di.1) true ds nr.2) s2 = (value ds0 nr.2, s2) /\ forall y, value ds0 nr.2 = Ok y -> vd_wf y).
    { intros [n r] l s2 Hnr Hf Hm Hs2. cbn [snd]. split; [|intros y Hy; exact (Hsane ds0 info l0 n r Hp0 Ecb (Hin0 _ Hnr) ds0 y Hp0 Hy)].
      destruct r as [d|g]; cbn [evaluate]; [done|].
      destruct (reload_alone _ s2 x before old after ds0 range Hs2) as (ds2 & E2 & Hal2 & Hp2); [apply vvaried_set; auto|done|done|].
      rewrite exec_bind, exec_bind, E2. cbn [exec pret fst]. f_equal. destruct (Hblind ds0 ds2 info Hp0 Hp2 Hal2) as [_ H]. exact (H l0 n (Lazy g) Ecb (Hin0 _ Hnr)). }
    (* the array that is written *)
    assert (Hbody : forall nr, nr ∈ todo -> exists a y, dget (vp_vars p) nr.1 = Some a /\ v_shape a <> [] /\ vd_shape y = v_shape a /\ vd_wf y /\
       forall l s2, vfits p l -> (forall m, m ∈ dkeys l -> m ∈ dkeys todo) -> shown v w M I (set_at V1 x (vassign p l)) s2 ->
         exists array, exec array s2 = (Ok y, s2) /\ exec (body nr) s2 = exec (update_zarr_array (vdir w x ++ [nr.1]) array) s2).
    { intros [n r] Hnr. destruct (Hl0 n r (Hin0 _ Hnr)) as (v0 & y & Ev0 & Hne & Ey & Hsh). cbn [fst] in *.
      assert (Hnp : n ∈ dkeys (vp_vars p)). { apply (kt_same _ _ _ _ Hk), HWm, HW. apply elem_of_list_In, in_map_iff. exists (n, r). split; [done|by apply elem_of_list_In]. }
      apply dget_is_Some in Hnp as [a Ha]. rewrite (Hvget n a Ha) in Ev0. injection Ev0 as <-.
      assert (Hwf : vd_wf y) by exact (Hsane ds0 info l0 n r Hp0 Ecb (Hin0 _ Hnr) ds0 y Hp0 Ey).
      unfold body. clear body. cbn [fst snd]. destruct trim.
      - destruct Hsh as (Hdim & w0 & Ew0 & Hsh). destruct (trim_shape _ _ _ _ _ _ _ _ n w0 _ Hsee0 Hlay0 (sound_dims _ Hso) Ew0 (Hvget n a Ha) Hdim) as (Ed & Hlen & ax & Hax & Hrg & Hins).
        destruct (alike_get W ds0 ds n w0 Hal Ew0) as (w1 & Ew1 & Eqw & _). assert (Edw : v_dims w1 = v_dims w0) by (rewrite Eqw; done).
        assert (Hnd : NoDup (v_dims w1)) by (rewrite Edw, Ed; eapply sound_dims; [exact Hso|]; eapply vals_elem; apply dget_elem; exact (Hvget n a Ha)).
        destruct (trim_works w1 dim ax range y) as (key & z & Ek & Ez & Hz); [done|by rewrite Edw|by rewrite Edw, Hsh|done|by rewrite Hsh|].
        exists a, z. split; [done|]. split; [done|]. split; [rewrite Hz, Hsh; exact Hins|]. split; [by destruct (trim_ok w1 dim range key y z Hnd Ek Hwf Ez) as (_ & _ & _ & ?)|].
        intros l s2 Hf Hm Hs2. destruct (Hev (n, r) l s2 Hnr Hf Hm Hs2) as [E _]. cbn [snd fst] in *. rewrite Evd.
        exists (let! y0 <- evaluate (let! di <- reload x; pret di.1) true ds r; Ret (vd_index key y0)). split; [rewrite exec_bind, E, Ey; cbn [exec]; by rewrite Ez|].
        rewrite exec_bind. unfold get_var. rewrite Ew1. cbn [exec]. rewrite exec_bind, Ek. done.
      - exists a, y. do 4 (split; [done|]). intros l s2 Hf Hm Hs2. destruct (Hev (n, r) l s2 Hnr Hf Hm Hs2) as [E _]. cbn [snd fst] in *. rewrite Evd. eexists. split; [|done]. by rewrite E, Ey. }
    destruct (view_loop v w Hw M I V1 x p (dkeys todo) body (fun _ _ => True) Hnck todo [] s1) as (r & s' & xs & E & Hf & Hs' & _ & k & Hxs & Hkk).
    { cbn [app dkeys map]. apply dict_of_NoDup. }
    { done. }
    { done. }
    { apply (shown_ext v w M I V1); [|done]. intros y. unfold set_at. rewrite vassign_nil. destruct (decide (y = x)) as [->|]; [by rewrite Hsame|done]. }
    { intros nr Hnr l s2 Hf Hm Hs2. right. destruct (Hbody nr Hnr) as (a & y & _ & _ & _ & Hwf & H). destruct (H l s2 Hf Hm Hs2) as (array & Ea & Eb). exists array, (Ok y). split; [done|]. split; [done|].
      intros z [= <-]. done. }
    cbn [app] in *.
    assert (Hdk : forall n, n ∈ dkeys xs -> n ∈ dkeys todo).
    { intros n Hn. apply elem_of_list_In, in_map_iff in Hn as ([n' a] & <- & Hin'). apply elem_of_list_In in Hin'. apply elem_of_list_lookup in Hin' as [i Hi'].
      destruct (Forall2_lookup_r _ _ _ _ _ Hxs Hi') as ([n2 r2] & Hl2 & E2 & _). cbn in E2. subst n2. apply elem_of_list_lookup_2 in Hl2.
      apply elem_of_take in Hl2 as (j & Hj & _). apply elem_of_list_lookup_2 in Hj. apply elem_of_list_In, in_map_iff. exists (n', r2). split; [done|]. by apply elem_of_list_In. }
    destruct r as [[]|ex].
    - exists s', xs. split; [exact E|]. split; [done|]. split; [intros n Hn; by apply HW, Hdk|done].
    - exfalso. destruct Hkk as (nr & l & s2 & Hnr & Hfl & Hml & Hs2 & Ebad). destruct (Hbody nr Hnr) as (a & y & Ha & Hne & Hsh & Hwf & H).
      destruct (H l s2 Hfl (fun m Hm => proj1 (Hml m Hm)) Hs2) as (array & Ea & Eb).
      destruct (view_variable v w Hw M I V1 s2 x p l nr.1 array (Ok y) Hs2 Hfl) as (r' & s3 & E3 & _ & Hok); [by intros [_ ?]%Hml| |done|by intros z [= <-]|].
      { intros Ec. apply Hnck. rewrite <-Ec. apply elem_of_list_In, in_map_iff. exists nr. split; [done|by apply elem_of_list_In]. }
      rewrite Eb, E3 in Ebad. cbn in Ebad. by rewrite (Hok a y Ha eq_refl Hne Hsh) in Ebad.
  Qed.
  Lemma view_parts_alone b : (forall n, W n -> n ∈ dkeys (md_vars (w_meta w))) -> NoDup b ->
    (forall x, x ∈ b -> x ∈ vs /\ forall before old after, varound x before old after -> works_around dim true sel trim f before old after) ->
    forall V1 s1, shown v w M I V1 s1 -> vvaried V1 -> (forall x, x ∈ b -> V1 x = V0 x) -> exists s', exec (pfor (map item b) one) s1 = (Ok tt, s').
  Proof using All.
    intros HWm. induction b as [|x b IH]; intros Hnd Hb V1 s1 Hs1 Hv1 Hsame; [by exists s1|]. inversion Hnd as [|? ? Hxb Hnd']; subst.
    destruct (Hb x ltac:(left)) as [Hx Hwk]. destruct (varound_exists x Hx) as (ds & p & before & after & HM & HV & Har).
    destruct (view_alone V1 s1 x ds p before after HWm Hs1 Hv1 (Hsame x ltac:(left)) Har HM HV (Hwk _ _ _ Har)) as (s' & l & E & Hf & HW & Hs').
    destruct (IH Hnd' (fun y Hin => Hb y (elem_of_list_further _ _ _ Hin)) _ s' Hs') as [s2 E2].
    - by apply vvaried_set.
    - intros y Hin. unfold set_at. rewrite decide_False by (intros ->; done). apply Hsame. by right.
    - exists s2. unfold pfor in *. cbn [map pseq]. rewrite exec_bind, exec_bind, E. rewrite exec_bind in E2. rewrite exec_bind.
      destruct (exec (pseq (map one (map item b))) s') as [[y|] s3]; [|done]. exact E2.
  Qed.
End concurrent.
