(** * Lemmas on dictionaries *)
From Verif Require Import Py.

Section dict.
  Context {K V : Type} `{EqDecision K}.
  Implicit Types d l : list (K * V).

  Lemma dget_dset_eq d k v : dget (dset d k v) k = Some v.
  Proof.
    induction d as [|[k' v'] d IH]; cbn; [by rewrite decide_True|].
    destruct (decide (k = k')) as [->|]; cbn; [by rewrite decide_True|by rewrite decide_False].
  Qed.
  Lemma dget_dset_ne d k k' v : k <> k' -> dget (dset d k' v) k = dget d k.
  Proof.
    intros Hk. induction d as [|[k0 v0] d IH]; cbn; [by rewrite decide_False|].
    destruct (decide (k' = k0)) as [->|]; cbn.
    - rewrite !decide_False by done. done.
    - by destruct (decide (k = k0)).
  Qed.
  Lemma dget_dset d k k' v : dget (dset d k' v) k = if decide (k = k') then Some v else dget d k.
  Proof. destruct (decide (k = k')) as [->|]; [apply dget_dset_eq|by apply dget_dset_ne]. Qed.
  Lemma dget_ddel_eq d k : dget (ddel d k) k = None.
  Proof.
    induction d as [|[k' v'] d IH]; cbn; [done|].
    destruct (decide (k = k')); cbn; [done|]. by rewrite decide_False.
  Qed.
  Lemma dget_ddel_ne d k k' : k <> k' -> dget (ddel d k') k = dget d k.
  Proof.
    intros Hk. induction d as [|[k0 v0] d IH]; cbn; [done|].
    destruct (decide (k' = k0)) as [->|]; cbn; [by rewrite decide_False|].
    by destruct (decide (k = k0)).
  Qed.
  Lemma dget_elem d k v : dget d k = Some v -> (k, v) ∈ d.
  Proof.
    induction d as [|[k' v'] d IH]; cbn; [done|].
    destruct (decide (k = k')) as [->|]; [intros [= ->]; by left|]. intros H. right. by apply IH.
  Qed.
  Lemma dget_None d k : dget d k = None <-> k ∉ dkeys d.
  Proof.
    induction d as [|[k' v'] d IH]; cbn; [split; [intros _; apply not_elem_of_nil|done]|].
    rewrite not_elem_of_cons. destruct (decide (k = k')) as [->|]; [split; [done|intros []; done]|].
    rewrite IH. split; [done|intros []; done].
  Qed.
  Lemma dget_is_Some d k : is_Some (dget d k) <-> k ∈ dkeys d.
  Proof.
    destruct (dget d k) eqn:E.
    - split; [intros _|eauto]. apply dget_elem in E. change (dkeys d) with (fst <$> d).
      apply elem_of_list_fmap. by exists (k, v).
    - apply dget_None in E. split; [by intros []|done].
  Qed.
  Lemma dmem_true d k : dmem d k = true <-> k ∈ dkeys d.
  Proof. rewrite <-dget_is_Some. unfold dmem. destruct (dget d k); [split; eauto|]. split; [done|by intros []]. Qed.
  Lemma dmem_false d k : dmem d k = false <-> k ∉ dkeys d.
  Proof. rewrite <-dget_None. unfold dmem. by destruct (dget d k). Qed.
  Lemma elem_dget d k v : NoDup (dkeys d) -> (k, v) ∈ d -> dget d k = Some v.
  Proof.
    induction d as [|[k' v'] d IH]; intros Hnd H; [by apply elem_of_nil in H|].
    cbn in *. apply NoDup_cons in Hnd as [Hn Hnd]. apply elem_of_cons in H as [[= -> ->]|H].
    - by rewrite decide_True.
    - rewrite decide_False; [by apply IH|]. intros ->. apply Hn. change (map fst d) with (fst <$> d).
      apply elem_of_list_fmap. by exists (k', v).
  Qed.
  Lemma dkeys_dset_mem d k v : k ∈ dkeys d -> dkeys (dset d k v) = dkeys d.
  Proof.
    induction d as [|[k' v'] d IH]; intros H; [by apply elem_of_nil in H|].
    cbn in *. destruct (decide (k = k')) as [->|]; [done|]. cbn.
    apply elem_of_cons in H as [->|H]; [done|]. f_equal. by apply IH.
  Qed.
  Lemma dset_new d k v : k ∉ dkeys d -> dset d k v = d ++ [(k, v)].
  Proof.
    induction d as [|[k' v'] d IH]; intros H; [done|]. cbn in *.
    apply not_elem_of_cons in H as [Hk H]. rewrite decide_False by done. by rewrite IH.
  Qed.
  Lemma dkeys_dset_new d k v : k ∉ dkeys d -> dkeys (dset d k v) = dkeys d ++ [k].
  Proof. intros H. rewrite dset_new by done. unfold dkeys. by rewrite map_app. Qed.
  Lemma dset_elem_keys d k k' v : k ∈ dkeys (dset d k' v) <-> k = k' \/ k ∈ dkeys d.
  Proof. rewrite <-!dget_is_Some, dget_dset. destruct (decide (k = k')) as [->|]; [split; [by left|eauto]|]. naive_solver. Qed.
  Lemma dset_NoDup d k v : NoDup (dkeys d) -> NoDup (dkeys (dset d k v)).
  Proof.
    intros H. destruct (decide (k ∈ dkeys d)) as [Hk|Hk]; [by rewrite dkeys_dset_mem|].
    rewrite dkeys_dset_new by done. apply NoDup_app. split_and!; [done| |apply NoDup_singleton].
    intros x Hx ->%elem_of_list_singleton. done.
  Qed.
  Lemma dkeys_ddel d k : dkeys (ddel d k) = List.filter (fun k' => negb (bool_decide (k = k'))) (dkeys d).
  Proof.
    induction d as [|[k' v'] d IH]; [done|]. cbn. destruct (decide (k = k')) as [E|E].
    - rewrite bool_decide_eq_true_2 by done. apply IH.
    - rewrite bool_decide_eq_false_2 by done. cbn. f_equal. apply IH.
  Qed.
  Lemma ddel_elem d k k' : k ∈ dkeys (ddel d k') <-> k <> k' /\ k ∈ dkeys d.
  Proof.
    rewrite <-!dget_is_Some. destruct (decide (k = k')) as [->|].
    - rewrite dget_ddel_eq. split; [by intros []|by intros []].
    - rewrite dget_ddel_ne by done. naive_solver.
  Qed.
  Lemma ddel_NoDup d k : NoDup (dkeys d) -> NoDup (dkeys (ddel d k)).
  Proof.
    induction d as [|[k' v'] d IH]; intros H; [done|]. cbn in *. apply NoDup_cons in H as [H1 H2].
    destruct (decide (k = k')); [by apply IH|]. cbn. apply NoDup_cons. split; [|by apply IH].
    intros [_ H]%ddel_elem. by apply H1.
  Qed.
  Lemma ddel_notin d k : k ∉ dkeys d -> ddel d k = d.
  Proof.
    induction d as [|[k' v'] d IH]; intros H; [done|]. cbn in *. apply not_elem_of_cons in H as [Hk H].
    rewrite decide_False by done. by rewrite IH.
  Qed.
  Lemma ddel_dset_new d k v : k ∉ dkeys d -> ddel (dset d k v) k = d.
  Proof.
    intros H. rewrite dset_new by done. induction d as [|[k' v'] d IH]; cbn.
    - by rewrite decide_True.
    - cbn in H. apply not_elem_of_cons in H as [Hk H]. rewrite decide_False by done. by rewrite IH.
  Qed.

  Lemma fold_dset_app l : forall d, NoDup (dkeys d ++ map fst l) ->
    fold_left (fun d kv => dset d kv.1 kv.2) l d = d ++ l.
  Proof.
    induction l as [|[k v] l IH]; intros d H; cbn; [by rewrite app_nil_r|].
    cbn in H. apply NoDup_app in H as H'. destruct H' as (H1 & H2 & H3).
    rewrite dset_new by (intros Hk; apply (H2 k Hk); by left).
    rewrite IH; [by rewrite <-app_assoc|].
    unfold dkeys. rewrite map_app. cbn. by rewrite <-app_assoc.
  Qed.
  Lemma dict_of_id l : NoDup (map fst l) -> dict_of l = l.
  Proof. intros H. unfold dict_of. by rewrite fold_dset_app. Qed.
  Lemma fold_dset_NoDup l : forall d, NoDup (dkeys d) ->
    NoDup (dkeys (fold_left (fun d kv => dset d kv.1 kv.2) l d)).
  Proof. induction l as [|[k v] l IH]; intros d H; cbn; [done|]. by apply IH, dset_NoDup. Qed.
  Lemma dict_of_NoDup l : NoDup (dkeys (dict_of l)).
  Proof. apply fold_dset_NoDup. constructor. Qed.
  Lemma fold_dset_get l k : forall d v,
    dget (fold_left (fun d kv => dset d kv.1 kv.2) l d) k = Some v -> (k, v) ∈ l \/ (k ∉ map fst l /\ dget d k = Some v).
  Proof.
    induction l as [|[k' v'] l IH]; intros d v H; cbn in *; [right; split; [apply not_elem_of_nil|done]|].
    apply IH in H as [H|[Hn H]]; [left; by right|].
    rewrite dget_dset in H. destruct (decide (k = k')) as [->|].
    - injection H as ->. left. left.
    - right. split; [|done]. by apply not_elem_of_cons.
  Qed.
  Lemma dict_of_elem l k v : dget (dict_of l) k = Some v -> (k, v) ∈ l.
  Proof. intros H. apply fold_dset_get in H as [H|[_ H]]; [done|done]. Qed.
  Lemma fold_dset_keys l k : forall d,
    k ∈ dkeys (fold_left (fun d kv => dset d kv.1 kv.2) l d) <-> k ∈ dkeys d \/ k ∈ map fst l.
  Proof.
    induction l as [|[k' v'] l IH]; intros d; cbn [fold_left map].
    - split; [by left|intros [|H]; [done|by apply elem_of_nil in H]].
    - rewrite IH, dset_elem_keys, elem_of_cons. naive_solver.
  Qed.
  Lemma dict_of_keys l k : k ∈ dkeys (dict_of l) <-> k ∈ map fst l.
  Proof. unfold dict_of. rewrite fold_dset_keys. cbn. split; [intros [H|]; [by apply elem_of_nil in H|done]|by right]. Qed.
  Lemma fold_dset_get_iff l k : forall d,
    NoDup (map fst l) -> dget (fold_left (fun d kv => dset d kv.1 kv.2) l d) k =
      match dget l k with Some v => Some v | None => dget d k end.
  Proof.
    induction l as [|[k' v'] l IH]; intros d H; cbn in *; [done|].
    apply NoDup_cons in H as [Hn H]. rewrite IH by done. rewrite dget_dset.
    destruct (decide (k = k')) as [->|]; [|done].
    destruct (dget l k') eqn:E; [|done]. exfalso. apply Hn, dget_is_Some. eauto.
  Qed.
  Lemma elem_dvals d v : v ∈ dvals d <-> exists k, (k, v) ∈ d.
  Proof.
    change (dvals d) with (snd <$> d). rewrite elem_of_list_fmap. split.
    - intros ([k v'] & -> & H). by exists k.
    - intros [k H]. by exists (k, v).
  Qed.
  Lemma dget_app d1 d2 k : dget (d1 ++ d2) k = match dget d1 k with Some v => Some v | None => dget d2 k end.
  Proof. induction d1 as [|[k' v'] d1 IH]; [done|]. cbn. destruct (decide (k = k')); [done|apply IH]. Qed.
End dict.
