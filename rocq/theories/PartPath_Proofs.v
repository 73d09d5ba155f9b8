(** * Parsing of partition paths *)
From Verif Require Import Py Calendar_Model PartPath_Model PartPath_Numbers.

Definition eqc : ascii := "="%char.

(** Number of '=' and position of the first one. *)
Fixpoint ceq (s : str) : nat :=
  match s with [] => 0 | c :: s => (if decide (c = eqc) then 1 else 0) + ceq s end.
Fixpoint feq (s : str) : nat :=
  match s with [] => 0 | c :: s => if decide (c = eqc) then 0 else S (feq s) end.

Lemma ceq_app a b : ceq (a ++ b) = ceq a + ceq b.
Proof. induction a as [|c a IH]; cbn; [done|]. rewrite IH. destruct (decide _); lia. Qed.
Lemma ceq_0 s : Forall (fun c => c <> eqc) s -> ceq s = 0.
Proof. induction 1 as [|c s H _ IH]; cbn; [done|]. rewrite decide_False by done. done. Qed.
Lemma feq_app a b : Forall (fun c => c <> eqc) a -> feq (a ++ b) = length a + feq b.
Proof. induction 1 as [|c s H _ IH]; cbn; [done|]. rewrite decide_False by done. lia. Qed.
Lemma feq_lit s : feq (lit "=" ++ s) = 0.
Proof. change (lit "=") with [eqc]. cbn [app feq]. by rewrite decide_True. Qed.
Lemma ceq_drop m s : ceq (drop m s) <= ceq s.
Proof. revert s; induction m as [|m IH]; intros [|c s]; cbn; try lia. specialize (IH s). lia. Qed.
Lemma feq_drop m s : ceq (drop m s) = ceq s -> 0 < ceq s -> m + feq (drop m s) = feq s.
Proof.
  revert s; induction m as [|m IH]; intros [|c s] H Hc; cbn in *; try lia.
  destruct (decide (c = eqc)) as [->|Hn].
  - pose proof (ceq_drop m s). lia.
  - rewrite <-(IH s); lia.
Qed.

Lemma strip_prefix_spec p s t : strip_prefix p s = Some t <-> s = p ++ t.
Proof.
  revert s; induction p as [|a p IH]; intros s; cbn.
  - split; [by intros [= ->]|by intros ->].
  - destruct s as [|b s]; [done|]. destruct (decide (a = b)) as [->|Hn].
    + rewrite IH. split; [by intros ->|by intros [= ->]].
    + split; [done|]. intros [= -> ->]. done.
Qed.

Lemma greedy_spec {R} (k : str -> option R) s v r :
  greedy k s = Some (v, r) ->
  exists t, s = v ++ t /\ k t = Some r /\ Forall (fun c => c <> newline) v.
Proof.
  revert v r; induction s as [|c s IH]; intros v r; cbn [greedy].
  - destruct (k []) eqn:E; [|done]. intros [= <- <-]. exists []. by repeat constructor.
  - assert (Hh : match k (c :: s) with Some r => Some ([], r) | None => None end = Some (v, r) ->
      exists t, c :: s = v ++ t /\ k t = Some r /\ Forall (fun c => c <> newline) v).
    { destruct (k (c :: s)) eqn:E; [|done]. intros [= <- <-]. exists (c :: s). by repeat constructor. }
    unfold is_newline. case_bool_decide as Hn; [exact Hh|].
    destruct (greedy k s) as [[v' r']|] eqn:E; [|exact Hh].
    intros [= <- <-]. destruct (IH v' r' eq_refl) as (t & -> & Ht & Hv). exists t. by repeat constructor.
Qed.

Lemma greedy_unique {R} (k : str -> option R) v t r :
  Forall (fun c => c <> newline) v -> k t = Some r ->
  (forall m, m <= length (v ++ t) -> k (drop m (v ++ t)) <> None -> m = length v) ->
  greedy k (v ++ t) = Some (v, r).
Proof.
  intros Hv Hk. induction Hv as [|c v Hc Hv IH]; intros Hu.
  - cbn [app] in *. destruct t as [|c t]; cbn [greedy]; [by rewrite Hk|].
    rewrite Hk. unfold is_newline. case_bool_decide; [done|].
    destruct (greedy k t) as [[v' r']|] eqn:E; [|done].
    apply greedy_spec in E as (t' & -> & Ht' & _). exfalso.
    assert (Hm : S (length v') = 0).
    { apply Hu; [cbn; rewrite app_length; lia|].
      change (drop (S (length v')) (c :: v' ++ t')) with (drop (length v') (v' ++ t')).
      rewrite drop_app. congruence. }
    lia.
  - cbn [app greedy]. unfold is_newline. rewrite bool_decide_eq_false_2 by done.
    rewrite IH; [done|]. intros m Hm Hkm.
    assert (S m = length (c :: v)); [|cbn in *; lia].
    apply Hu; cbn; [lia|done].
Qed.

Lemma greedy_last v : Forall (fun c => c <> newline) v ->
  @greedy (list (str * str)) (fun _ => Some []) v = Some (v, []).
Proof.
  induction 1 as [|c v Hc Hv IH]; [done|]. cbn [greedy]. unfold is_newline.
  rewrite bool_decide_eq_false_2 by done. by rewrite IH.
Qed.

(** A match consumes one '=' per key, and starts right before the first '='. *)
Lemma match_from_ceq ks s r : match_from ks s = Some r -> length ks <= ceq s.
Proof.
  revert s r; induction ks as [|k ks IH]; intros s r; cbn [match_from]; [cbn; lia|].
  destruct (strip_prefix (k ++ lit "=") s) as [s'|] eqn:Es; [|done].
  apply strip_prefix_spec in Es as ->. rewrite !ceq_app. cbn [length].
  change (ceq (lit "=")) with 1.
  destruct ks as [|k' ks]; [intros; cbn; lia|].
  destruct (greedy _ s') as [[v r']|] eqn:E; [|done]. intros _.
  apply greedy_spec in E as ([|c t] & -> & Ht & _); [done|].
  destruct (is_newline c); [done|]. apply IH in Ht.
  rewrite ceq_app. cbn [ceq length] in *. lia.
Qed.

Lemma match_from_start k ks s r :
  Forall (fun c => c <> eqc) k -> match_from (k :: ks) s = Some r -> feq s = length k.
Proof.
  intros Hk. cbn [match_from].
  destruct (strip_prefix (k ++ lit "=") s) as [s'|] eqn:Es; [|done].
  intros _. apply strip_prefix_spec in Es as ->. rewrite <-app_assoc, feq_app, feq_lit by done. lia.
Qed.

Lemma match_from_position k ks s m r :
  Forall (fun c => c <> eqc) k -> ceq s = S (length ks) ->
  match_from (k :: ks) (drop m s) = Some r -> m + length k = feq s.
Proof.
  intros Hk Hc H. pose proof (match_from_ceq _ _ _ H) as Hge. cbn [length] in Hge.
  pose proof (ceq_drop m s) as Hle. unfold str in *.
  assert (E1 : ceq (drop m s) = ceq s) by lia.
  pose proof (feq_drop m s E1 ltac:(lia)) as Hf.
  by rewrite (match_from_start _ _ _ _ Hk H) in Hf.
Qed.

(** The text of a list of key-value pairs. *)
Definition kvs (kv : str * str) : str := kv.1 ++ lit "=" ++ kv.2.
Definition text (l : list (str * str)) : str := join_with (lit "/") (map kvs l).

Definition good_pair (kv : str * str) : Prop :=
  Forall (fun c => c <> eqc) kv.1 /\ Forall (fun c => c <> eqc) kv.2 /\
  Forall (fun c => c <> newline) kv.2.

Lemma kvs_ceq kv : good_pair kv -> ceq (kvs kv) = 1.
Proof.
  intros (H1 & H2 & _). unfold kvs. rewrite !ceq_app. rewrite (ceq_0 kv.1), (ceq_0 kv.2) by done. done.
Qed.

Lemma text_cons kv l : l <> [] -> text (kv :: l) = kvs kv ++ lit "/" ++ text l.
Proof. by destruct l. Qed.

Lemma text_ceq l : Forall good_pair l -> ceq (text l) = length l.
Proof.
  induction 1 as [|kv l H Hl IH]; [done|].
  destruct l as [|kv' l].
  - cbn. by apply kvs_ceq.
  - rewrite text_cons by done. rewrite !ceq_app, IH, kvs_ceq by done. done.
Qed.

Lemma text_feq kv l : good_pair kv -> feq (text (kv :: l)) = length kv.1.
Proof.
  intros (H1 & _). destruct l as [|kv' l].
  - cbn [text map join_with]. unfold text; cbn [map join_with]. unfold kvs. rewrite feq_app, feq_lit by done. lia.
  - rewrite text_cons by done. unfold kvs. rewrite <-!app_assoc. rewrite feq_app, feq_lit by done. lia.
Qed.

Lemma match_text l : Forall good_pair l -> match_from (map fst l) (text l) = Some l.
Proof.
  induction 1 as [|[k v] l Hg Hl IH]; [done|].
  pose proof Hg as (Hk & Hv & Hvn). cbn [fst snd] in *.
  destruct l as [|kv' l].
  - cbn [map fst match_from]. unfold text. cbn [map join_with]. unfold kvs. cbn [fst snd].
    rewrite (proj2 (strip_prefix_spec (k ++ lit "=") _ v)) by by rewrite <-app_assoc.
    by rewrite greedy_last.
  - rewrite text_cons by done. unfold kvs. cbn [fst snd].
    change (map fst ((k, v) :: kv' :: l)) with (k :: map fst (kv' :: l)).
    cbn [match_from].
    rewrite (proj2 (strip_prefix_spec (k ++ lit "=") _ (v ++ lit "/" ++ text (kv' :: l)))).
    2:{ by rewrite <-!app_assoc. }
    change (map fst (kv' :: l)) with (kv'.1 :: map fst l) at 1. cbv iota beta.
    erewrite (greedy_unique _ v (lit "/" ++ text (kv' :: l)) (kv' :: l)); [done|done|exact IH|].
    intros m Hm Hne.
    set (s := v ++ lit "/" ++ text (kv' :: l)) in *.
    assert (Hkv' : good_pair kv') by by inversion Hl.
    assert (Hcs : ceq s = length (kv' :: l)).
    { unfold s. rewrite !ceq_app, (ceq_0 v), text_ceq by done. done. }
    assert (Hfs : feq s = length v + 1 + length kv'.1).
    { unfold s. rewrite feq_app by done. change (lit "/") with ["/"%char]. cbn [app feq].
      rewrite decide_False by done. rewrite text_feq by done. lia. }
    assert (Hd : exists c t, drop m s = c :: t /\ match_from (map fst (kv' :: l)) t <> None).
    { destruct (drop m s) as [|c t]; [done|]. exists c, t. split; [done|]. by destruct (is_newline c). }
    destruct Hd as (c & t & Hd & Hm').
    destruct (match_from (map fst (kv' :: l)) t) as [r|] eqn:Er; [|done].
    assert (Ht : t = drop (S m) s).
    { replace (S m) with (m + 1) by lia. rewrite <-drop_drop, Hd. by cbn. }
    rewrite Ht in Er. change (map fst (kv' :: l)) with (kv'.1 :: map fst l) in Er.
    apply match_from_position in Er; [lia|by destruct Hkv'|].
    rewrite Hcs. cbn. by rewrite map_length.
Qed.

Lemma search_found ks s m r :
  m <= length s -> match_from ks (drop m s) = Some r ->
  (forall m', m' < m -> match_from ks (drop m' s) = None) ->
  search ks s = Some r.
Proof.
  revert s; induction m as [|m IH]; intros s Hm H Hn.
  - destruct s; cbn [search drop] in *; by rewrite H.
  - destruct s as [|c s]; [cbn in Hm; lia|]. cbn [search].
    pose proof (Hn 0 ltac:(lia)) as H0. rewrite drop_0 in H0. rewrite H0.
    apply IH; [cbn in Hm; lia|done|]. intros m' Hm'. apply (Hn (S m')). lia.
Qed.

Lemma search_text root l : l <> [] ->
  Forall (fun c => c <> eqc) root -> Forall good_pair l ->
  search (map fst l) (root ++ text l) = Some l.
Proof.
  intros Hne Hr Hl. apply (search_found _ _ (length root)).
  - rewrite app_length. lia.
  - rewrite drop_app. by apply match_text.
  - intros m Hm. destruct (match_from (map fst l) (drop m (root ++ text l))) as [r|] eqn:E; [|done].
    exfalso. destruct l as [|kv l]; [done|]. cbn [map] in E.
    inversion Hl as [|?? Hkv _]; subst.
    apply match_from_position in E; [|by destruct Hkv|].
    + rewrite feq_app in E by done. rewrite text_feq in E by done. lia.
    + rewrite ceq_app, ceq_0, text_ceq by done. cbn. by rewrite map_length.
Qed.

(** Soundness: what is matched is in the string. *)
Fixpoint shape (l : list (str * str)) (seps : list ascii) : str :=
  match l, seps with
  | [], _ => []
  | [kv], _ => kvs kv
  | kv :: l, c :: seps => kvs kv ++ c :: shape l seps
  | kv :: l, [] => kvs kv
  end.

Lemma match_from_sound ks s r : match_from ks s = Some r ->
  map fst r = ks /\ Forall (fun kv => Forall (fun c => c <> newline) kv.2) r /\
  (ks = [] \/ exists seps post, length seps = length ks - 1 /\ s = shape r seps ++ post).
Proof.
  revert s r; induction ks as [|k ks IH]; intros s r; cbn [match_from].
  { intros [= <-]. split_and!; [done|constructor|by left]. }
  destruct (strip_prefix (k ++ lit "=") s) as [s'|] eqn:Es; [|done].
  apply strip_prefix_spec in Es as ->.
  destruct ks as [|k' ks].
  - destruct (greedy _ s') as [[v r']|] eqn:E; [|done]. intros [= <-].
    apply greedy_spec in E as (t & -> & [= <-] & Hv). split_and!; [done|by repeat constructor|].
    right. exists [], t. split; [done|]. cbn. unfold kvs. cbn. by rewrite <-!app_assoc.
  - destruct (greedy _ s') as [[v r']|] eqn:E; [|done]. intros [= <-].
    apply greedy_spec in E as ([|c t] & -> & Ht & Hv); [done|].
    destruct (is_newline c); [done|].
    apply IH in Ht as (H1 & H2 & [?|(seps & post & H3 & ->)]); [done|].
    split_and!; [cbn; by rewrite H1|by constructor|]. right.
    exists (c :: seps), post. split; [cbn in *; lia|].
    destruct r' as [|kv' r']; [done|].
    change (shape ((k, v) :: kv' :: r') (c :: seps))
      with ((k ++ lit "=" ++ v) ++ c :: shape (kv' :: r') seps).
    rewrite <-!app_assoc. reflexivity.
Qed.

Lemma search_sound ks s r : ks <> [] -> search ks s = Some r ->
  map fst r = ks /\ Forall (fun kv => Forall (fun c => c <> newline) kv.2) r /\
  exists pre seps post, length seps = length ks - 1 /\ s = pre ++ shape r seps ++ post.
Proof.
  intros Hne. revert r. induction s as [|c s IH]; intros r; cbn [search].
  - destruct (match_from ks []) as [r'|] eqn:E; [|done]. intros [= ->].
    apply match_from_sound in E as (H1 & H2 & [?|(seps & post & H3 & H4)]); [done|].
    split_and!; [done|done|]. exists [], seps, post. by split.
  - destruct (match_from ks (c :: s)) as [r'|] eqn:E.
    + intros [= ->].
      apply match_from_sound in E as (H1 & H2 & [?|(seps & post & H3 & H4)]); [done|].
      split_and!; [done|done|]. exists [], seps, post. by split.
    + intros H. apply IH in H as (H1 & H2 & pre & seps & post & H3 & ->).
      split_and!; [done|done|]. exists (c :: pre), seps, post. done.
Qed.

(** ** The partitioning classes *)
Lemma p_dir_kvs p kv : p_dir p kv = kvs (kv.1, match p with Sequence _ _ => show_Z kv.2 | Date _ _ _ => show_02d kv.2 end).
Proof. by destruct p. Qed.

Lemma chars_eqc s : Forall num_char s -> Forall (fun c => c <> eqc) s /\ Forall (fun c => c <> newline) s.
Proof. intros H; split; (eapply Forall_impl; [exact H|]); intros c Hc; apply num_char_neq in Hc; tauto. Qed.

Lemma parse_join p root values :
  p_keys p <> [] -> Forall (Forall (fun c => c <> eqc)) (p_keys p) ->
  Forall (fun c => c <> eqc) root -> length values = length (p_keys p) ->
  p_parse p (root ++ p_join p (zip (p_keys p) values) (lit "/")) = Ok (zip (p_keys p) values).
Proof.
  intros Hne Hk Hr Hl. unfold p_parse, p_join.
  set (sh := fun z => match p with Sequence _ _ => show_Z z | Date _ _ _ => show_02d z end).
  set (l := zip (p_keys p) (map sh values)).
  assert (Hmap : map (p_dir p) (zip (p_keys p) values) = map kvs l).
  { unfold l. clear. generalize (p_keys p) as ks. intros ks. revert values.
    induction ks as [|k ks IH]; intros [|v vs]; try done. cbn. by rewrite p_dir_kvs, IH. }
  rewrite Hmap. fold (text l).
  assert (Hfst : map fst l = p_keys p).
  { unfold l. change (map fst) with (fmap (M:=list) (@fst str str)). rewrite fst_zip; [done|]. rewrite map_length. lia. }
  rewrite <-Hfst at 1. rewrite search_text.
  - unfold l. clear -Hl. revert values Hl. generalize (p_keys p) as ks.
    induction ks as [|k ks IH]; intros [|v vs] Hl; try done.
    cbn [map zip zip_with traverse fst snd].
    assert (Hi : int_of (sh v) = Ok v) by (unfold sh; destruct p; [apply int_of_show|apply int_of_show_02d]).
    rewrite Hi. cbn [rbind]. change (zip_with pair ks (map sh vs)) with (zip ks (map sh vs)).
    rewrite IH by (cbn in Hl; lia). done.
  - intros El. rewrite El in Hfst. by rewrite <-Hfst in Hne.
  - done.
  - unfold l. clear -Hk. revert values. induction Hk as [|k ks Hk Hks IH]; intros [|v vs]; try constructor.
    + unfold good_pair. cbn [fst snd].
      assert (Hc : Forall num_char (sh v)) by (unfold sh; destruct p; [apply show_Z_chars|apply show_02d_chars]).
      apply chars_eqc in Hc. tauto.
    + apply IH.
Qed.

Lemma date_keys_good v d r : p_keys (Date v d r) <> [] /\ Forall (Forall (fun c => c <> eqc)) (p_keys (Date v d r)).
Proof. destruct r; (split; [done|]); cbn; repeat constructor; discriminate. Qed.

Lemma traverse_ok {A B} (f : A -> res B) l r :
  traverse f l = Ok r <-> Forall2 (fun a b => f a = Ok b) l r.
Proof.
  revert r; induction l as [|a l IH]; intros r; cbn.
  - split; [intros [= <-]; constructor|inversion 1; done].
  - destruct (f a) as [b|e] eqn:E; cbn.
    + destruct (traverse f l) as [bs|e] eqn:E2; cbn.
      * split; [intros [= <-]; constructor; [done|by apply IH]|].
        inversion 1 as [|? b' ? bs' Hb Hbs]; subst. rewrite E in Hb. injection Hb as <-.
        apply IH in Hbs. by injection Hbs as <-.
      * split; [done|]. inversion 1 as [|? b' ? bs' Hb Hbs]; subst. by apply IH in Hbs.
    + split; [done|]. inversion 1; subst. congruence.
Qed.

Lemma parse_sound p s l : p_keys p <> [] -> p_parse p s = Ok l ->
  map fst l = p_keys p /\
  exists texts pre seps post, Forall2 (fun t (kv : str * Z) => t.1 = kv.1 /\ int_of t.2 = Ok kv.2) texts l /\
     length seps = length l - 1 /\
     s = pre ++ shape texts seps ++ post.
Proof.
  intros Hne. unfold p_parse. destruct (search (p_keys p) s) as [g|] eqn:E; [|done].
  intros H. apply traverse_ok in H. apply search_sound in E as (H1 & _ & pre & seps & post & H3 & ->); [|done].
  assert (HF : Forall2 (fun t (kv : str * Z) => t.1 = kv.1 /\ int_of t.2 = Ok kv.2) g l).
  { eapply Forall2_impl; [exact H|]. intros [k v] [k' z]. cbn.
    destruct (int_of v); [|done]. cbn. intros [= -> ->]. done. }
  assert (Hml : map fst l = map fst g).
  { clear -HF. induction HF as [|[??] [??] ?? [? ?] ? IH]; [done|]. cbn in *. by rewrite IH, H. }
  split; [congruence|]. exists g, pre, seps, post. split_and!; [done| |done].
  rewrite H3. apply (f_equal length) in H1. apply (f_equal length) in Hml. rewrite !map_length in *. lia.
Qed.
