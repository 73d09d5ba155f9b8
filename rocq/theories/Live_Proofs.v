(** * Proofs about reading a collection while its files change *)
From Verif Require Import Py Dict Order NdArray_Model Dataset_Model Dataset_Spec Meta_Model PartPath_Model Split_Spec FS_Model FS_Proofs Pool_Model Pool_Proofs Storage_Model Storage_Spec
  Listing_Model Listing_Spec Listing_Proofs Listing_Props Collection_Model Collection_Spec Collection_State Collection_Select Collection_Load Crash_Spec Live_Model Live_Spec.

(** ** Readers *)
Section live.
  Context (Phi : store -> Prop).
  (** The program only reads, and ends as [Q] says if each of its operations
      sees some state that satisfies [Phi]. *)
  Fixpoint live {A : Type} (Q : res A -> Prop) (p : program A) : Prop :=
    match p with
    | Ret r => Q r
    | Op (Get d) k => forall u, Phi u -> live Q (k (Some (sub d u)))
    | Op _ _ => False
    end.
  Lemma live_mono {A : Type} (Q Q' : res A -> Prop) p : (forall r, Q r -> Q' r) -> live Q p -> live Q' p.
  Proof. intros H. induction p as [r|o k IH]; cbn; [apply H|]. destruct o; try done. intros Hk u Hu. by apply IH, Hk. Qed.
  Lemma live_bind {A B : Type} (Q : res A -> Prop) (Q' : res B -> Prop) p k : live Q p ->
    (forall a, Q (Ok a) -> live Q' (k a)) -> (forall ex, Q (Raise ex) -> Q' (Raise ex)) -> live Q' (pbind p k).
  Proof.
    intros Hp Hk Hex. induction p as [[a|ex]|o g IH]; cbn in *; [by apply Hk|by apply Hex|]. destruct o; try done. intros u Hu. by apply IH, Hp.
  Qed.
  Lemma live_get_tree d : live (fun r => exists u, Phi u /\ r = Ok (sub d u)) (get_tree d).
  Proof. cbn. intros u Hu. by exists u. Qed.
  Lemma live_pseq {A B : Type} (Q : A -> B -> Prop) (g : A -> program B) l : (forall a, a ∈ l -> live (fun r => exists b, r = Ok b /\ Q a b) (g a)) ->
    live (fun r => exists bs, r = Ok bs /\ Forall2 Q l bs) (pseq (map g l)).
  Proof.
    induction l as [|a l IH]; intros H; cbn [map pseq]; [exists []; by split|].
    eapply live_bind; [apply H; left| |by intros ex (b & ? & _)]. intros b (b' & [= <-] & Hb).
    eapply live_bind; [apply IH; intros x Hx; apply H; by right| |by intros ex (b' & ? & _)]. intros bs (bs' & [= <-] & Hbs). cbn. exists (b :: bs). split; [done|by constructor].
  Qed.
  (** A program that reads files that do not change ends as if it was alone. *)
  Lemma live_still {A : Type} (X : path -> Prop) (p : program A) s : within X (fun _ => False) p -> (forall u, Phi u -> agree X s u) ->
    live (fun r => r = (exec p s).1) p.
  Proof.
    intros Hw Hphi. induction p as [r|o k IH]; cbn; [done|]. destruct o as [d|d x|d|d|a b]; cbn in Hw; destruct Hw as [Ho Hk].
    - intros u Hu. assert (sub d u = sub d s) as ->.
      { apply map_eq. intros q. rewrite !sub_lookup. symmetry. apply Hphi; [done|]. destruct (Ho _ (under_app d q)) as [|[]]; done. }
      eapply IH. apply Hk. cbn. by eexists.
    - done.
    - exfalso. exact (Ho _ (under_refl d)).
    - exfalso. exact (Ho _ (under_refl d)).
    - exfalso. exact (Ho a (or_introl (under_refl a))).
  Qed.

  (** In a schedule, the reader sees states of the writer. *)
  Lemma live_beside {A B : Type} (Q : res A -> Prop) (p : program A) (q : program B) s r u q' :
    live Q p -> (forall q'' t, rtc (step CTorn) (q, s) (q'', t) -> Phi t) -> rtc beside ((p, q), s) ((Ret r, q'), u) ->
    Q r /\ rtc (step CTorn) (q, s) (q', u).
  Proof.
    intros Hp Hphi H. remember ((p, q), s) as x eqn:Ex. remember ((Ret r, q'), u) as y eqn:Ey. revert p q s Ex Hp Hphi.
    induction H as [x|x y z Hxy _ IH]; intros p q s -> Hp Hphi.
    - injection Ey as -> -> ->. split; [done|]. apply rtc_refl.
    - specialize (IH Ey). inversion Hxy as [? p1 ? ? s1 Hst|? ? q1 ? s1 Hst]; subst.
      + assert (Hp1 : live Q p1 /\ s1 = s).
        { inversion Hst; subst; cbn in Hp; try done. destruct o as [d| | | |]; try done. cbn. split; [|done]. apply Hp. eapply (Hphi q). apply rtc_refl. }
        destruct Hp1 as [Hp1 ->]. by apply (IH p1 q s eq_refl).
      + destruct (IH p q1 s1 eq_refl Hp) as [H1 H2].
        { intros q'' t Ht. eapply Hphi. by eapply rtc_l. }
        split; [done|]. by eapply rtc_l.
  Qed.
End live.

(** ** Alone *)
Lemma exec_live_deep order depth p (s : store) : exec (live_deep order depth p) s = (Ok (list_deep order depth s p), s).
Proof.
  revert p. induction depth as [|k IH]; intros p; cbn [live_deep list_deep]; rewrite exec_bind, exec_get_tree, sub_root; [done|].
  rewrite exec_bind. rewrite (exec_pseq_pure _ s (map (list_deep order k s) (ls order p s))); [done|].
  generalize (ls order p s). intros l. induction l as [|x l IHl]; cbn [map]; constructor; [apply IH|done].
Qed.
Lemma exec_live_root order n d (s : store) : exec (live_root order n d) s = (Ok (list_root order n s d), s).
Proof.
  unfold live_root, list_root. destruct n as [|[|k]]; [done| |]; rewrite exec_bind, exec_get_tree, sub_root; [done|].
  cbv zeta. generalize (map (fun n => d ++ [n]) (List.filter (fun n => is_dir (d ++ [n]) s && negb (hidden n)) (children order d s))). intros l.
  rewrite exec_bind, (exec_pseq_pure _ s (map (list_deep order k s) l)); [done|].
  induction l as [|x l IHl]; cbn [map]; constructor; [apply exec_live_deep|done].
Qed.
Lemma exec_live_select e c f s : exec (live_select e c f) s = exec (select_parts e c f) s.
Proof.
  unfold live_select, live_partitions, select_parts. rewrite !exec_bind, exec_get_tree, sub_root, exec_live_root. cbn [exec].
  unfold partitions, list_partitions. destruct (traverse _ _) as [keyed|ex]; [|done]. cbn [rbind exec]. done.
Qed.
Lemma exec_load_live e c delayed f sel s : exec (load_live e c delayed f sel) s = exec (load e c delayed f sel) s.
Proof.
  unfold load_live, load. rewrite !exec_bind, exec_live_select. destruct (exec (select_parts e c f) s) as [[parts|ex] s'] eqn:E; [|done].
  assert (s' = s) as ->.
  { unfold select_parts in E. rewrite exec_bind, exec_get_tree in E. cbn [exec] in E. by injection E. }
  destruct parts as [|p parts]; [done|]. by rewrite exec_bind, exec_live_select, E.
Qed.

(** ** The listing *)
Section listing.
  Context (Phi : store -> Prop) (order : list str -> list str) (Horder : forall l, order l ≡ₚ l).
  Local Notation present := (Listing_Spec.present (C := content)).

  Lemma live_children t d (x : str) : x ∈ children order d t <-> present t (d ++ [x]).
  Proof using Horder. rewrite (children_elem order Horder). apply present_child. Qed.
  (** The lists found below different directories. *)
  Lemma concat_nodup (l : list path) (ls : list (list path)) : NoDup l ->
    Forall2 (fun p l => NoDup l /\ forall x, x ∈ l -> exists r, x = p ++ r) l ls ->
    (forall p p' r r', p ∈ l -> p' ∈ l -> p ++ r = p' ++ r' -> p = p') -> NoDup (concat ls).
  Proof.
    intros Hnd H. induction H as [|p k l ls [Hk Hx] Hl IH]; intros Hinj; cbn; [constructor|]. inversion Hnd as [|? ? Hp Hnd']; subst.
    apply NoDup_app. split_and!; [done| |apply IH; [done|]; intros a b r r' Ha Hb; apply Hinj; by right].
    intros x Hxk Hin. apply elem_of_list_In, in_concat in Hin as (k' & Hk' & Hxk'). apply elem_of_list_In in Hk', Hxk'.
    apply elem_of_list_lookup in Hk' as [i Hi]. destruct (Forall2_lookup_r _ _ _ _ _ Hl Hi) as (p' & Hp' & _ & Hx'). apply elem_of_list_lookup_2 in Hp'.
    destruct (Hx x Hxk) as [r ->], (Hx' _ Hxk') as [r' E]. assert (p = p') as <-; [|done]. apply (Hinj p p' r r'); [left|by right|done].
  Qed.

  (** No file lies at the first levels below [p]. *)
  Definition free (depth : nat) (p : path) : Prop := forall u r, Phi u -> length r <= depth -> u !! (p ++ r) = None.
  Definition found (n : nat) (p : path) (l : list path) : Prop :=
    NoDup l /\ (forall x, x ∈ l -> exists u r, Phi u /\ x = p ++ r /\ length r = n /\ present u x) /\
    (forall r, length r = n -> (forall u, Phi u -> present u (p ++ r)) -> p ++ r ∈ l).
  Lemma live_deep_found depth p : free depth p -> live Phi (fun r => exists l, r = Ok l /\ found (S depth) p l) (live_deep order depth p).
  Proof using Horder.
    revert p. induction depth as [|k IH]; intros p Hp; cbn [live_deep]; (eapply live_bind; [apply live_get_tree| |by intros ex (u & _ & ?)]);
      intros t0 (t & Ht & [= ->]); rewrite sub_root; unfold ls; (assert (t !! p = None) as -> by (specialize (Hp t [] Ht ltac:(cbn; lia)); by rewrite app_nil_r in Hp)).
    - cbn. eexists. split; [done|]. split_and!.
      + apply (NoDup_fmap_2_strong (fun n => p ++ [n])); [|by apply children_nodup]. intros x y _ _ E. by apply (inj (p ++.)) in E; injection E.
      + intros x Hx. apply elem_of_list_In, in_map_iff in Hx as (n & <- & Hn). apply elem_of_list_In, live_children in Hn. by exists t, [n].
      + intros [|n [|]] Hl Hr; try done. apply elem_of_list_In, in_map_iff. exists n. split; [done|]. apply elem_of_list_In, live_children. by apply Hr.
    - eapply live_bind; [apply (live_pseq Phi (fun q l => found (S k) q l))| |by intros ex (b & ? & _)].
      + intros q Hq. apply elem_of_list_In, in_map_iff in Hq as (n & <- & Hn). apply IH. intros u r Hu Hl. rewrite <-app_assoc. apply Hp; [done|]. cbn. lia.
      + intros bs (bs' & [= <-] & Hbs). cbn. eexists. split; [done|]. split_and!.
        * eapply concat_nodup; [|eapply Forall2_impl; [exact Hbs|]; intros q l (H1 & H2 & _); split; [done|]; intros x Hx; destruct (H2 x Hx) as (u & r & _ & -> & _); by exists r|].
          -- apply (NoDup_fmap_2_strong (fun n => p ++ [n])); [|by apply children_nodup]. intros x y _ _ E. by apply (inj (p ++.)) in E; injection E.
          -- intros a b r r' Ha Hb E. apply elem_of_list_In, in_map_iff in Ha as (n & <- & _). apply elem_of_list_In, in_map_iff in Hb as (m & <- & _).
             rewrite <-!app_assoc in E. apply app_inv_head in E. by injection E as -> _.
        * intros x Hx. apply elem_of_list_In, in_concat in Hx as (l & Hl & Hx). apply elem_of_list_In in Hl, Hx. apply elem_of_list_lookup in Hl as [i Hi].
          destruct (Forall2_lookup_r _ _ _ _ _ Hbs Hi) as (q & Hq & _ & H2 & _). apply elem_of_list_lookup_2 in Hq. apply elem_of_list_In, in_map_iff in Hq as (n & <- & _).
          destruct (H2 x Hx) as (u & r & Hu & -> & Hl & Hpr). exists u, (n :: r). rewrite <-app_assoc in *. cbn [app length] in *. split_and!; [done|done|lia|done].
        * intros [|n r] Hl Hr; [done|]. assert (Hn : p ++ [n] ∈ map (fun n => p ++ [n]) (children order p t)).
          { apply elem_of_list_In, in_map_iff. exists n. split; [done|]. apply elem_of_list_In, live_children. apply present_child.
            destruct (Hr t Ht) as [[x Hx]|(m & g & x & Hx)]; [by exists r, x|]. exists (r ++ m :: g), x. by rewrite <-app_assoc in Hx. }
          apply elem_of_list_lookup in Hn as [i Hi]. destruct (Forall2_lookup_l _ _ _ _ _ Hbs Hi) as (l & Hl' & _ & _ & H3).
          apply elem_of_list_In, in_concat. exists l. split; [apply elem_of_list_In; by eapply elem_of_list_lookup_2|]. apply elem_of_list_In.
          replace (p ++ n :: r) with ((p ++ [n]) ++ r) by (by rewrite <-app_assoc). apply H3; [cbn in Hl; lia|]. intros u Hu. rewrite <-app_assoc. by apply Hr.
  Qed.

  (** The directories found at the root: their first name is visible. *)
  Definition found_root (n : nat) (d : path) (l : list path) : Prop :=
    NoDup l /\ (forall x, x ∈ l -> exists u a r, Phi u /\ x = d ++ a :: r /\ ~ starts_with_dot a /\ length (a :: r) = n /\ present u x) /\
    (forall a r, ~ starts_with_dot a -> length (a :: r) = n -> (forall u, Phi u -> directory u (d ++ a :: r)) -> d ++ a :: r ∈ l).
  Lemma directory_up (u : store) d a r : directory u (d ++ a :: r) -> directory u (d ++ [a]).
  Proof.
    intros (n & f & x & H). rewrite <-app_assoc in H. cbn in H. destruct (r ++ n :: f) as [|m g] eqn:E; [by destruct r|].
    exists m, g, x. by rewrite <-app_assoc.
  Qed.
  Lemma live_root_found n d : 0 < n -> (forall a, ~ starts_with_dot a -> free (n - 2) (d ++ [a])) ->
    live Phi (fun r => exists l, r = Ok l /\ found_root n d l) (live_root order n d).
  Proof using Horder.
    intros Hn Hfree. unfold live_root. destruct n as [|n]; [lia|]. eapply live_bind; [apply live_get_tree| |by intros ex (u & _ & ?)].
    intros t0 (t & Ht & [= ->]). rewrite sub_root. cbv zeta.
    pose proof (folders_elem order Horder t d) as Hfo. pose proof (folders_nodup order Horder t d) as Hnd.
    set (folders := map (fun n => d ++ [n]) (List.filter (fun n => is_dir (d ++ [n]) t && negb (hidden n)) (children order d t))) in *. clearbody folders.
    destruct n as [|k].
    - cbn. eexists. split; [done|]. split_and!; [done| |].
      + intros x Hx. apply Hfo in Hx as (a & -> & Ha & Hd). exists t, a, []. split_and!; try done. by right.
      + intros a [|] Ha Hl Hd; [|done]. apply Hfo. exists a. split_and!; [done..|]. by apply Hd.
    - eapply live_bind; [apply (live_pseq Phi (fun q l => found (S k) q l))| |by intros ex (b & ? & _)].
      + intros q Hq. apply Hfo in Hq as (a & -> & Ha & _). apply live_deep_found. specialize (Hfree a Ha). cbn in Hfree. by rewrite Nat.sub_0_r in Hfree.
      + intros bs (bs' & [= <-] & Hbs). cbn. eexists. split; [done|]. split_and!.
        * eapply concat_nodup; [exact Hnd|eapply Forall2_impl; [exact Hbs|]; intros q l (H1 & H2 & _); split; [done|]; intros x Hx; destruct (H2 x Hx) as (u & r & _ & -> & _); by exists r|].
          intros a b r r' Ha Hb E. apply Hfo in Ha as (n & -> & _), Hb as (m & -> & _). rewrite <-!app_assoc in E. apply app_inv_head in E. by injection E as -> _.
        * intros x Hx. apply elem_of_list_In, in_concat in Hx as (l & Hl & Hx). apply elem_of_list_In in Hl, Hx. apply elem_of_list_lookup in Hl as [i Hi].
          destruct (Forall2_lookup_r _ _ _ _ _ Hbs Hi) as (q & Hq & _ & H2 & _). apply elem_of_list_lookup_2 in Hq. apply Hfo in Hq as (a & -> & Ha & _).
          destruct (H2 x Hx) as (u & r & Hu & -> & Hl & Hpr). exists u, a, r. rewrite <-app_assoc in *. cbn [app length] in *. split_and!; [done|done|done|lia|done].
        * intros a r Ha Hl Hd. assert (Hin : d ++ [a] ∈ folders) by (apply Hfo; exists a; split_and!; [done..|]; by eapply directory_up, Hd).
          apply elem_of_list_lookup in Hin as [i Hi]. destruct (Forall2_lookup_l _ _ _ _ _ Hbs Hi) as (l & Hl' & _ & _ & H3).
          apply elem_of_list_In, in_concat. exists l. split; [apply elem_of_list_In; by eapply elem_of_list_lookup_2|]. apply elem_of_list_In.
          replace (d ++ a :: r) with ((d ++ [a]) ++ r) by (by rewrite <-app_assoc). apply H3; [cbn in Hl; lia|]. intros u Hu. rewrite <-app_assoc. right. by apply Hd.
  Qed.
End listing.

(** The listed directories, sorted by key. *)
Lemma sorted_listing p d ws : plain_keys p -> plain_path d -> Forall (fun v => length v = length (p_keys p)) ws -> NoDup ws ->
  exists vss, (do keyed <- traverse (fun q => do k <- p_parse p (path_str q); Ok (k, q)) (map (fun v => d ++ key_dirs p v) ws);
               Ok (map snd (sorted_by scheme_lt fst keyed))) = Ok (map (fun v => d ++ key_dirs p v) vss) /\
    StronglySorted row_lt vss /\ vss ≡ₚ ws.
Proof.
  intros Hp Hd Hws Hnd.
  assert (Ht' : traverse (fun q => do k <- p_parse p (path_str q); Ok (k, q)) (map (fun v => d ++ key_dirs p v) ws)
    = Ok (map (fun v => (zip (p_keys p) v, d ++ key_dirs p v)) ws)).
  { clear -Hp Hd Hws. induction Hws as [|v ws Hv _ IH]; [done|]. cbn [map traverse].
    rewrite parse_key_dirs by done. cbn [rbind]. by rewrite IH. }
  rewrite Ht'. cbn [rbind].
  set (vss := sorted_by scheme_lt (zip (p_keys p)) ws).
  assert (Hfst : forall v : list Z, length v = length (p_keys p) -> (map fst (zip (p_keys p) v) : list str) = p_keys p).
  { intros v Hv. apply (fst_zip (p_keys p) v). lia. }
  assert (Hsnd : forall v : list Z, length v = length (p_keys p) -> map snd (zip (p_keys p) v) = v).
  { intros v Hv. apply (snd_zip (p_keys p) v). lia. }
  assert (Hinj : forall x y, x ∈ ws -> y ∈ ws -> zip (p_keys p) x = zip (p_keys p) y -> x = y).
  { rewrite Forall_forall in Hws. intros x y Hx Hy E. by rewrite <-(Hsnd x), <-(Hsnd y), E by auto. }
  exists vss. split_and!; [| |apply sorted_by_perm].
  - f_equal.
    assert (Es : sorted_by scheme_lt fst (map (fun v => (zip (p_keys p) v, d ++ key_dirs p v)) ws)
      = map (fun v => (zip (p_keys p) v, d ++ key_dirs p v)) vss).
    { apply sorted_unique_by with (lt := scheme_lt) (f := @fst (list (str * Z)) path); [apply scheme_order|apply sorted_by_sorted, scheme_order| | |].
      - assert (Hs : StronglySorted (key_le scheme_lt (zip (p_keys p))) vss) by apply sorted_by_sorted, scheme_order.
        clear -Hs. induction Hs as [|v vss Hs IH Hv]; cbn; constructor; [done|].
        apply Forall_forall. intros x Hx. apply elem_of_list_In, in_map_iff in Hx as (w & <- & Hw).
        rewrite Forall_forall in Hv. apply (Hv w). by apply elem_of_list_In.
      - rewrite sorted_by_perm. unfold vss. apply (fmap_Permutation (fun v => (zip (p_keys p) v, d ++ key_dirs p v))).
        by rewrite sorted_by_perm.
      - intros x y. rewrite !sorted_by_perm, !elem_of_list_In, !in_map_iff.
        intros (v & <- & Hv) (w & <- & Hw) E. cbn in E. f_equal; [done|].
        rewrite (Hinj v w); [done|by apply elem_of_list_In|by apply elem_of_list_In|done]. }
    rewrite Es, map_map. done.
  - assert (Hs : StronglySorted (key_le scheme_lt (zip (p_keys p))) vss) by apply sorted_by_sorted, scheme_order.
    assert (Hn : NoDup vss) by (unfold vss; by rewrite sorted_by_perm).
    assert (Hall : Forall (fun v => length v = length (p_keys p)) vss) by (unfold vss; by rewrite sorted_by_perm).
    clear -Hs Hn Hall Hfst Hsnd. induction Hs as [|v vss Hs IH Hv]; [constructor|].
    apply NoDup_cons in Hn as [Hn1 Hn2]. inversion Hall as [|?? Hlv Hall']; subst.
    constructor; [by apply IH|]. apply Forall_forall. intros w Hw.
    rewrite Forall_forall in Hv, Hall'. specialize (Hv w Hw). unfold key_le in Hv.
    assert (Hlw : length w = length (p_keys p)) by (by apply Hall').
    destruct (scheme_lt (zip (p_keys p) v) (zip (p_keys p) w)) eqn:E.
    + apply (scheme_lt_rows (p_keys p)) in E; [|by apply Hfst|by apply Hfst].
      by rewrite !Hsnd in E.
    + exfalso. apply Hn1.
      assert (Ez : zip (p_keys p) v = zip (p_keys p) w) by (by apply (so_total _ scheme_order)).
      by rewrite <-(Hsnd v), Ez, (Hsnd w).
Qed.
