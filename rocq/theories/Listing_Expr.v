(** * The filter expressions mean what they say *)
From Verif Require Import Py Dict NdArray_Model NdArray_Proofs Listing_Model Listing_Spec.

Lemma range_mem_iff z a b s : s <> 0%Z -> range_mem z a b s = true <-> in_range z a b s.
Proof.
  intros Hs. unfold range_mem, in_range, range_item. rewrite andb_true_iff, Z.eqb_eq. split.
  - intros [H1 H2]. exists ((z - a) / s)%Z.
    assert (Hd : (z - a = s * ((z - a) / s))%Z) by (apply Z.div_exact; done).
    destruct (Z.ltb_spec 0 s).
    + apply andb_true_iff in H1 as [H3 H4]. apply Z.leb_le in H3. apply Z.ltb_lt in H4.
      split_and!; [apply Z.div_pos; lia|lia|left; lia].
    + apply andb_true_iff in H1 as [H3 H4]. apply Z.leb_le in H4. apply Z.ltb_lt in H3.
      split_and!; [|lia|right; lia]. nia.
  - intros (k & Hk & -> & H). split.
    + destruct H as [[H1 H2]|[H1 H2]].
      * rewrite (proj2 (Z.ltb_lt 0 s)) by lia. apply andb_true_iff. split; [apply Z.leb_le; nia|apply Z.ltb_lt; lia].
      * rewrite (proj2 (Z.ltb_ge 0 s)) by lia. apply andb_true_iff. split; [apply Z.ltb_lt; lia|apply Z.leb_le; nia].
    + replace (a + k * s - a)%Z with (k * s)%Z by lia. by apply Z.mod_mul.
Qed.

Lemma range_item_len k z a b s : s <> 0%Z -> range_item k z a b s <-> (0 <= k < range_len a b s /\ z = a + k * s)%Z.
Proof.
  intros Hs. unfold range_item, range_len. destruct (Z.ltb_spec 0 s).
  - assert (H1 := Z.div_mod (b - a + s - 1) s ltac:(lia)). assert (H2 := Z.mod_pos_bound (b - a + s - 1) s ltac:(lia)).
    split.
    + intros (? & -> & [[_ ?]|[? _]]); [|lia]. split; [|done]. split; [done|]. nia.
    + intros [[? ?] ->]. split_and!; [done|done|]. left. nia.
  - assert (H1 := Z.div_mod (a - b - s - 1) (- s) ltac:(lia)). assert (H2 := Z.mod_pos_bound (a - b - s - 1) (- s) ltac:(lia)).
    split.
    + intros (? & -> & [[? _]|[_ ?]]); [lia|]. split; [|done]. split; [done|]. nia.
    + intros [[? ?] ->]. split_and!; [done|done|]. right. nia.
Qed.

Lemma range_some a b s : s <> 0%Z -> (0 < range_len a b s)%Z <-> exists z, in_range z a b s.
Proof.
  intros Hs. split.
  - intros H. exists a, 0%Z. apply range_item_len; [done|]. lia.
  - intros (z & k & H). apply range_item_len in H; [|done]. lia.
Qed.

Lemma range_len_nonneg a b s : (0 <= range_len a b s)%Z.
Proof. unfold range_len. destruct (0 <? s)%Z; lia. Qed.

Lemma range_eq_iff a b s a' b' s' : s <> 0%Z -> s' <> 0%Z ->
  value_eq (VRange a b s) (VRange a' b' s') = true <-> same_range (a, b, s) (a', b', s').
Proof.
  intros Hs Hs'. unfold same_range. cbn [fst snd value_eq].
  setoid_rewrite (fun k z => range_item_len k z a b s Hs). setoid_rewrite (fun k z => range_item_len k z a' b' s' Hs').
  assert (Hn := range_len_nonneg a b s). assert (Hn' := range_len_nonneg a' b' s').
  set (n := range_len a b s) in *. set (n' := range_len a' b' s') in *. clearbody n n'.
  rewrite andb_true_iff, !orb_true_iff, andb_true_iff, orb_true_iff, !Z.eqb_eq. split.
  - intros [-> H] k z. destruct H as [->|[-> [-> | ->]]]; [lia| |done].
    split; intros [? ->]; (split; [done|]); assert (k = 0%Z) as -> by lia; lia.
  - intros H. assert (n = n').
    { destruct (Z.lt_trichotomy n n') as [?|[?|?]]; [|done|].
      - destruct (proj2 (H (n' - 1) (a' + (n' - 1) * s'))%Z); lia.
      - destruct (proj1 (H (n - 1) (a + (n - 1) * s))%Z); lia. }
    subst n'. split; [done|]. destruct (decide (n = 0%Z)) as [|H0]; [by left|]. right.
    assert (E0 : (a = a')%Z) by (destruct (proj1 (H 0 a)%Z); lia). split; [done|].
    destruct (decide (n = 1%Z)) as [|H1]; [by left|]. right.
    destruct (proj1 (H 1 (a + s))%Z); lia.
Qed.

(** The locals given to [eval] hold the keys that the expression names. *)
Definition holds_names (keys locals : list (str * Z)) (names : list str) : Prop :=
  dget locals RANGE = None /\ forall n, n ∈ names -> n <> RANGE -> dget locals n = dget keys n.

Section meaning.
  Context (keys locals : list (str * Z)).
  Hypothesis Hrange : dget keys RANGE = None.

  Lemma eval_term e z : holds_names keys locals (co_names e) -> term (dget keys) e = Some z -> eval locals e = Ok (VInt z).
  Proof using Hrange.
    revert z. induction e as [z0|b|n|e IH|o a IHa b IHb|o a IHa b IHb|a IHa b IHb|a IHa b IHb|e IH|a IHa b IHb|a IHa b IHb|f IHf args];
      intros z [H1 H2] Ht; cbn [term] in Ht; try done; cbn [eval co_names] in *.
    - by injection Ht as ->.
    - destruct (decide (n = RANGE)) as [->|Hn]; [by rewrite Hrange in Ht|].
      by rewrite H2, Ht by (done || set_solver).
    - destruct (term _ e) as [x|] eqn:E; [|done]. injection Ht as <-.
      by rewrite (IH x ltac:(by split) eq_refl).
    - destruct (term _ a) as [x|] eqn:Ea; [|done]. destruct (term _ b) as [y|] eqn:Eb; [|done].
      rewrite (IHa x ltac:(split; [done|intros; apply H2; set_solver]) eq_refl).
      rewrite (IHb y ltac:(split; [done|intros; apply H2; set_solver]) eq_refl).
      cbn. destruct o; try (by injection Ht as <-).
      + destruct (decide (y = 0%Z)) as [|Hy]; [done|]. injection Ht as <-.
        by rewrite (proj2 (Z.eqb_neq _ _) Hy).
      + destruct (decide (y = 0%Z)) as [|Hy]; [done|]. injection Ht as <-.
        by rewrite (proj2 (Z.eqb_neq _ _) Hy).
  Qed.

  Lemma eval_range es zs s : holds_names keys locals (co_names (ECall (EName RANGE) es)) ->
    Forall2 (fun e x => term (dget keys) e = Some x) es zs -> range_args zs s ->
    eval locals (ECall (EName RANGE) es) = Ok (VRange s.1.1 s.1.2 s.2) /\ s.2 <> 0%Z.
  Proof using Hrange.
    intros [H1 H2] Hes Hr. cbn [eval]. rewrite H1, decide_True by done. cbn [rbind].
    assert (Hv : traverse id (map (eval locals) es) = Ok (map VInt zs)).
    { cbn [co_names] in H2. assert (H3 : forall n, n ∈ concat (map co_names es) -> n <> RANGE -> dget locals n = dget keys n)
        by (intros; apply H2; set_solver). clear H2 Hr.
      induction Hes as [|e x es zs He _ IH]; [done|]. cbn [map traverse concat] in *.
      rewrite (eval_term e x); [|split; [done|intros; apply H3; set_solver]|done].
      unfold id at 1. cbn [rbind]. rewrite IH; [done|]. intros; apply H3; set_solver. }
    rewrite Hv. cbn [rbind eval_call].
    assert (Hi : traverse int_value (map VInt zs) = Ok zs).
    { clear. induction zs as [|z zs IH]; [done|]. cbn. by rewrite IH. }
    rewrite Hi. cbn [rbind]. inversion Hr; subst; try done. cbn.
    by rewrite (proj2 (Z.eqb_neq _ _)).
  Qed.

  Lemma eval_means e P : means (dget keys) e P -> holds_names keys locals (co_names e) ->
    exists v, eval locals e = Ok v /\ (truth v = true <-> P).
  Proof using Hrange.
    induction 1 as [b|e x He|es zs s Hes Hr|es zs s es' zs' s' Hes Hr Hes' Hr'|es zs s es' zs' s' Hes Hr Hes' Hr'|o a b x y Ha Hb|a z es zs s Ha Hes Hr|a z es zs s Ha Hes Hr|e P He IH|a b P Q Ha IHa Hb IHb|a b P Q Ha IHa Hb IHb];
      intros [H1 H2]; cbn [co_names] in H2.
    - by exists (VBool b).
    - exists (VInt x). split; [by apply eval_term|]. cbn. by rewrite negb_true_iff, Z.eqb_neq.
    - destruct (eval_range es zs s ltac:(by split) Hes Hr) as [He Hs].
      change (lit "range") with RANGE. eexists. split; [exact He|]. cbn [truth]. rewrite Z.ltb_lt. by apply range_some.
    - destruct (eval_range es zs s ltac:(split; [done|intros; apply H2; set_solver]) Hes Hr) as [He Hs].
      destruct (eval_range es' zs' s' ltac:(split; [done|intros; apply H2; set_solver]) Hes' Hr') as [He' Hs'].
      change (lit "range") with RANGE. change (eval locals (ECmp Eq (ECall (EName RANGE) es) (ECall (EName RANGE) es'))) with
        (do v <- eval locals (ECall (EName RANGE) es); do w <- eval locals (ECall (EName RANGE) es'); eval_cmp Eq v w).
      rewrite He, He'. cbn [rbind eval_cmp]. eexists. split; [reflexivity|]. cbn [truth].
      rewrite range_eq_iff by done. by destruct s as [[??]?], s' as [[??]?].
    - destruct (eval_range es zs s ltac:(split; [done|intros; apply H2; set_solver]) Hes Hr) as [He Hs].
      destruct (eval_range es' zs' s' ltac:(split; [done|intros; apply H2; set_solver]) Hes' Hr') as [He' Hs'].
      change (lit "range") with RANGE. change (eval locals (ECmp Ne (ECall (EName RANGE) es) (ECall (EName RANGE) es'))) with
        (do v <- eval locals (ECall (EName RANGE) es); do w <- eval locals (ECall (EName RANGE) es'); eval_cmp Ne v w).
      rewrite He, He'. cbn [rbind eval_cmp]. eexists. split; [reflexivity|]. cbn [truth].
      rewrite negb_true_iff, <-not_true_iff_false, range_eq_iff by done. by destruct s as [[??]?], s' as [[??]?].
    - cbn [eval]. rewrite (eval_term a x), (eval_term b y); try done;
        [|by split; [|intros; apply H2; set_solver]..].
      cbn [rbind]. destruct o; cbn; eexists; (split; [reflexivity|]); cbn.
      + apply Z.eqb_eq.
      + rewrite negb_true_iff. apply Z.eqb_neq.
      + apply Z.ltb_lt.
      + apply Z.leb_le.
      + rewrite Z.ltb_lt. lia.
      + rewrite Z.leb_le. lia.
    - destruct (eval_range es zs s ltac:(split; [done|intros; apply H2; set_solver]) Hes Hr) as [He Hs].
      change (lit "range") with RANGE. change (eval locals (EIn a (ECall (EName RANGE) es))) with
        (do v <- eval locals a; do w <- eval locals (ECall (EName RANGE) es); do r <- eval_in v w; Ok (VBool r)).
      rewrite (eval_term a z), He; [|split; [done|intros; apply H2; set_solver]|done].
      cbn. eexists. split; [reflexivity|]. cbn. by apply range_mem_iff.
    - destruct (eval_range es zs s ltac:(split; [done|intros; apply H2; set_solver]) Hes Hr) as [He Hs].
      change (lit "range") with RANGE. change (eval locals (ENotIn a (ECall (EName RANGE) es))) with
        (do v <- eval locals a; do w <- eval locals (ECall (EName RANGE) es); do r <- eval_in v w; Ok (VBool (negb r))).
      rewrite (eval_term a z), He; [|split; [done|intros; apply H2; set_solver]|done].
      cbn. eexists. split; [reflexivity|]. cbn. rewrite negb_true_iff, <-not_true_iff_false.
      by rewrite range_mem_iff.
    - destruct IH as (v & Hv & Hp); [by split|]. cbn [eval]. rewrite Hv. cbn [rbind].
      eexists. split; [done|]. cbn. rewrite negb_true_iff, <-not_true_iff_false. by rewrite Hp.
    - destruct IHa as (v & Hv & Hp); [split; [done|intros; apply H2; set_solver]|].
      destruct IHb as (w & Hw & Hq); [split; [done|intros; apply H2; set_solver]|].
      cbn [eval]. rewrite Hv. cbn [rbind]. destruct (truth v) eqn:E.
      + exists w. split; [done|]. rewrite Hq. split; [|by intros [_ ?]]. split; [by apply Hp|done].
      + exists v. split; [done|]. rewrite E. split; [done|]. intros [? _]. by apply Hp.
    - destruct IHa as (v & Hv & Hp); [split; [done|intros; apply H2; set_solver]|].
      destruct IHb as (w & Hw & Hq); [split; [done|intros; apply H2; set_solver]|].
      cbn [eval]. rewrite Hv. cbn [rbind]. destruct (truth v) eqn:E.
      + exists v. split; [done|]. rewrite E. split; [|done]. intros _. left. by apply Hp.
      + exists w. split; [done|]. rewrite Hq. split; [by right|]. intros [?|?]; [|done].
        exfalso. assert (false = true) by (by apply Hp). done.
  Qed.
End meaning.

(** ** The local variables *)
Definition known (keys : list (str * Z)) (n : str) : Prop := n = RANGE \/ n ∈ dkeys keys.

Lemma locals_ok keys e : Forall (known keys) (co_names e) ->
  exists l, traverse (fun n => match dget keys n with Some z => Ok (n, z) | None => Raise NameError end)
              (List.filter (fun n => negb (bool_decide (n = RANGE))) (co_names e)) = Ok l /\
            holds_names keys (dict_of l) (co_names e).
Proof.
  intros H.
  set (names := List.filter (fun n => negb (bool_decide (n = RANGE))) (co_names e)).
  assert (Hn : forall n, n ∈ names <-> n ∈ co_names e /\ n <> RANGE).
  { intros n. unfold names. rewrite !elem_of_list_In, List.filter_In, negb_true_iff, bool_decide_eq_false. done. }
  exists (map (fun n => (n, default 0%Z (dget keys n))) names). split.
  - apply traverse_Ok. intros n Hin. apply Hn in Hin as [Hin Hr]. rewrite Forall_forall in H.
    destruct (H n Hin) as [->|Hk]; [done|]. apply dget_is_Some in Hk as [z ->]. done.
  - split.
    + apply dget_None. rewrite dict_of_keys, map_map. cbn. rewrite map_id, Hn. by intros [_ ?].
    + intros n Hin Hr. rewrite Forall_forall in H. destruct (H n Hin) as [->|Hk]; [done|].
      apply dget_is_Some in Hk as [z Hz].
      assert (Hd : is_Some (dget (dict_of (map (fun n => (n, default 0%Z (dget keys n))) names)) n)).
      { apply dget_is_Some, dict_of_keys. rewrite map_map. cbn. rewrite map_id. by apply Hn. }
      destruct Hd as [z' Hz']. rewrite Hz'. apply dict_of_elem in Hz'.
      apply elem_of_list_In, in_map_iff in Hz' as (m & [= -> <-] & _). by rewrite Hz.
Qed.

Lemma locals_missing keys e : ~ Forall (known keys) (co_names e) -> call_expression e keys = Raise NameError.
Proof.
  intros H. unfold call_expression.
  set (f := fun n => match dget keys n with Some z => Ok (n, z) | None => Raise NameError end).
  assert (Hn : exists n, n ∈ List.filter (fun n => negb (bool_decide (n = RANGE))) (co_names e) /\ dget keys n = None).
  { apply not_Forall_Exists in H; [|intros n; unfold known; apply _].
    apply Exists_exists in H as (n & Hin & Hk). exists n. split.
    - apply elem_of_list_In, List.filter_In. rewrite negb_true_iff, bool_decide_eq_false. rewrite <-elem_of_list_In.
      split; [done|]. intros ->. apply Hk. by left.
    - apply dget_None. intros ?. apply Hk. by right. }
  destruct Hn as (n & Hin & Hz).
  assert (Ht : traverse f (List.filter (fun n => negb (bool_decide (n = RANGE))) (co_names e)) = Raise NameError); [|by rewrite Ht].
  induction (List.filter _ (co_names e)) as [|m l IH]; [by apply elem_of_nil in Hin|].
  cbn [traverse]. unfold f at 1. destruct (dget keys m) eqn:E; [|done]. cbn [rbind].
  apply elem_of_cons in Hin as [->|Hin]; [congruence|]. by rewrite (IH Hin).
Qed.

Lemma call_means keys e P : dget keys RANGE = None -> means (dget keys) e P ->
  exists v, call_expression e keys = Ok v /\ (truth v = true <-> P).
Proof.
  intros Hr Hm.
  assert (Hk : Forall (known keys) (co_names e)).
  { assert (Ht : forall a z, term (dget keys) a = Some z -> Forall (known keys) (co_names a)).
    { intros a. induction a as [z0|b|n|a IH|o a IHa b IHb|o a IHa b IHb|a IHa b IHb|a IHa b IHb|a IH|a IHa b IHb|a IHa b IHb|f IHf args];
        intros z Ht; cbn [term] in Ht; try done; cbn [co_names].
      - constructor.
      - constructor; [|constructor]. right. apply dget_is_Some. by rewrite Ht.
      - destruct (term _ a) as [x|] eqn:E; [|done]. by apply (IH x).
      - destruct (term _ a) as [x|] eqn:Ea; [|done]. destruct (term _ b) as [y|] eqn:Eb; [|done].
        apply Forall_app. split; [by apply (IHa x)|by apply (IHb y)]. }
    assert (Hargs : forall es zs, Forall2 (fun e x => term (dget keys) e = Some x) es zs ->
      Forall (known keys) (co_names (ECall (EName RANGE) es))).
    { intros es zs Hes. cbn [co_names]. apply Forall_app. split; [constructor; [by left|constructor]|].
      induction Hes as [|a x es zs Hx _ IH]; [constructor|]. cbn. apply Forall_app. split; [by apply (Ht a x)|done]. }
    induction Hm; cbn [co_names]; first [constructor; fail|done|eapply Ht; eassumption|eapply Hargs; eassumption|apply Forall_app; split];
      first [done|eapply Ht; eassumption|eapply Hargs; eassumption|constructor]. }
  destruct (locals_ok keys e Hk) as (l & Hl & Hh). unfold call_expression. rewrite Hl. cbn [rbind].
  by apply (eval_means keys).
Qed.

(** Only the names of the expression matter. *)
Lemma call_agree e k1 k2 : (forall n, n ∈ co_names e -> n <> RANGE -> dget k1 n = dget k2 n) ->
  call_expression e k1 = call_expression e k2.
Proof.
  intros H. unfold call_expression.
  assert (Ht : forall l, (forall n, n ∈ l -> dget k1 n = dget k2 n) ->
    traverse (fun n => match dget k1 n with Some z => Ok (n, z) | None => Raise NameError end) l =
    traverse (fun n => match dget k2 n with Some z => Ok (n, z) | None => Raise NameError end) l).
  { induction l as [|n l IH]; intros Hl; [done|]. cbn. rewrite (Hl n) by set_solver.
    rewrite IH; [done|]. intros; apply Hl; set_solver. }
  rewrite Ht; [done|]. intros n Hn. apply elem_of_list_In, List.filter_In in Hn as [Hn Hb].
  apply H; [by apply elem_of_list_In|]. by rewrite negb_true_iff, bool_decide_eq_false in Hb.
Qed.
