(** * Properties of datasets: C14, C15, C16, C42, C48, C49 *)
From Verif Require Import Py Dict NdArray_Model NdArray_Spec NdArray_Proofs.
From Verif Require Import Dataset_Model Dataset_Spec Dataset_Proofs Dataset_Concat Dataset_Main.

(** ** C14: selecting, cutting and joining records *)

(** What an indexer designates on an axis of [n] records. *)
Theorem C14_designates n :
  (forall a b, a <= b <= n -> positions n (ISlice (Some (Z.of_nat a)) (Some (Z.of_nat b))) = Ok (seq a (b - a))) /\
  (forall a b, 0 < a <= n -> 0 < b <= a ->
     positions n (ISlice (Some (- Z.of_nat a)%Z) (Some (- Z.of_nat b)%Z)) = Ok (seq (n - a) (a - b))) /\
  positions n (ISlice None None) = Ok (seq 0 n) /\
  (forall l, Forall (fun j => j < n) l -> positions n (IList (map Z.of_nat l)) = Ok l) /\
  (forall j, j < n -> positions n (IList [(- Z.of_nat (S j))%Z]) = Ok [n - S j]) /\
  (forall z l, (z < - Z.of_nat n \/ Z.of_nat n <= z)%Z -> z ∈ l -> positions n (IList l) = Raise IndexError) /\
  (forall ix ps, positions n ix = Ok ps -> Forall (fun j => j < n) ps).
Proof.
  split_and!.
  - apply positions_slice.
  - intros a b Ha Hb. cbn. unfold clip. rewrite !(proj2 (Z.ltb_lt _ _)) by lia.
    assert (forall u v w x : nat, u = v -> w = x -> Ok (seq u w) = Ok (seq v x)) as Heq by (intros; by subst). apply Heq; lia.
  - apply positions_all.
  - apply positions_list.
  - intros j Hj. cbn. rewrite (proj2 (Z.leb_le _ _)) by lia. rewrite (proj2 (Z.ltb_lt (- _) _)) by lia. cbn [andb].
    rewrite (proj2 (Z.ltb_lt _ _)) by lia. cbn [rbind].
    assert (forall u v : nat, u = v -> Ok [u] = Ok [v]) as Heq by (intros; by subst). apply Heq; lia.
  - intros z l Hz Hin. cbn. induction l as [|x l IH]; [by apply elem_of_nil in Hin|]. cbn.
    apply elem_of_cons in Hin as [<-|Hin].
    + assert (((- Z.of_nat n <=? z) && (z <? Z.of_nat n))%Z = false) as -> by (apply andb_false_iff; destruct Hz; [left; lia|right; lia]). done.
    + destruct ((- Z.of_nat n <=? x) && (x <? Z.of_nat n))%Z; [|done]. cbn [rbind]. by rewrite IH.
  - apply positions_bound.
Qed.
Print Assumptions C14_designates.

(** isel on one dimension keeps exactly the designated records, in the
    designated order, of the variables that have the dimension, and leaves the
    other variables alone. *)
Theorem C14_isel ds dim n ix ps : proper ds -> no_repeat ds ->
  dget (d_dims ds) dim = Some n -> positions n ix = Ok ps ->
  exists ds', ds_isel ds [(dim, ix)] = Ok ds' /\ proper ds' /\
    related (fun _ v v' => same_but_records dim v v' /\
      records v' dim = option_map (pick ps) (records v dim)) ds ds'.
Proof.
  intros Hp Hnr Hn Hps. destruct (isel_ok _ _ _ _ _ Hp Hnr Hn Hps) as (ds' & E & Ev & E1 & E2 & E3 & E4 & Hp' & _).
  exists ds'. split_and!; [done|done|]. split_and!; [|done..]. rewrite Ev.
  assert (Hin : forall nv, nv ∈ d_vars ds -> nv.2 ∈ dvals (d_vars ds)) by (intros [n' v] H; apply elem_dvals; by exists n').
  revert Hin. generalize (d_vars ds) at 1 3 4 as l. intros l. induction l as [|nv l IH]; intros Hin; [constructor|].
  cbn [map]. constructor; [|apply IH; intros nv' H; apply Hin; by right].
  split; [done|]. assert (Hv : nv.2 ∈ dvals (d_vars ds)) by (apply Hin; by left).
  destruct (proper_sized _ _ Hp Hv) as (Hs & _ & _). split; [by apply var_take_same, Hnr|].
  apply (var_take_records _ _ _ _ _ Hs Hn). by apply (positions_bound _ _ _ Hps).
Qed.
Print Assumptions C14_isel.

(** An unknown dimension is refused. *)
Theorem C14_isel_unknown ds slices dim : dim ∈ dkeys slices -> dim ∉ dkeys (d_dims ds) ->
  ds_isel ds slices = Raise ValueError.
Proof.
  intros Hin Hno. unfold ds_isel.
  assert (forallb (fun k => dmem (d_dims ds) k) (dkeys slices) = false) as ->; [|done].
  apply not_true_is_false. rewrite forallb_forall. intros H. apply Hno, dmem_true, H. by apply elem_of_list_In.
Qed.
Print Assumptions C14_isel_unknown.

(** concat: for each variable with the dimension, the records of the dataset
    followed by the records of the others in order; the other variables, the
    attributes and the settings are those of the dataset. *)
Theorem C14_concat ds others dim : others <> [] -> proper ds -> no_repeat ds ->
  (forall o, o ∈ others -> proper o /\ compatible dim ds o) ->
  exists ds', ds_concat ds others dim = Ok ds' /\ proper ds' /\
    related (fun name v v' => same_but_records dim v v' /\
      forall rs, records v dim = Some rs ->
        exists rss, records_in dim name others rss /\ records v' dim = Some (rs ++ mjoin rss)) ds ds'.
Proof.
  intros. destruct (concat_spec ds others dim) as (ds' & ? & ? & ? & ? & _); eauto.
Qed.
Print Assumptions C14_concat.

(** Cutting a dataset into consecutive pieces and concatenating them gives the
    dataset back. *)
Theorem C14_split_concat ds dim n ix0 ps0 ixs pss : proper ds -> no_repeat ds ->
  dget (d_dims ds) dim = Some n ->
  positions n ix0 = Ok ps0 -> Forall2 (fun ix ps => positions n ix = Ok ps) ixs pss ->
  ixs <> [] -> ps0 ++ mjoin pss = seq 0 n ->
  exists d0 rest ds', ds_isel ds [(dim, ix0)] = Ok d0 /\
    Forall2 (fun ix d => ds_isel ds [(dim, ix)] = Ok d) ixs rest /\
    ds_concat d0 rest dim = Ok ds' /\
    d_vars ds' = d_vars ds /\ d_attrs ds' = d_attrs ds /\ d_chunks ds' = d_chunks ds /\
    d_block ds' = d_block ds /\ d_delayed ds' = d_delayed ds.
Proof.
  intros Hp Hnr Hn Hps0 Hps Hne Hall.
  destruct (isel_ok _ _ _ _ _ Hp Hnr Hn Hps0) as (d0 & E0 & Ev0 & Ea0 & Ec0 & Eb0 & Ed0 & Hp0 & Hnr0 & _).
  assert (Hrest : exists rest, Forall2 (fun ix d => ds_isel ds [(dim, ix)] = Ok d) ixs rest /\
    Forall2 (fun d ps => d_vars d = map (fun nv => (nv.1, var_take dim ps nv.2)) (d_vars ds)) rest pss /\
    (forall o, o ∈ rest -> proper o /\ d_delayed o = d_delayed ds)).
  { clear Hne Hall. induction Hps as [|ix ps ixs pss Hx _ (rest & H1 & H2 & H3)].
    - exists []. split_and!; [constructor|constructor|]. by intros o ?%elem_of_nil.
    - destruct (isel_ok _ _ _ _ _ Hp Hnr Hn Hx) as (d & E & Ev & _ & _ & _ & Ed & Hpd & _).
      exists (d :: rest). split_and!; [by constructor|by constructor|].
      intros o [->|Ho]%elem_of_cons; [done|by apply H3]. }
  destruct Hrest as (rest & H1 & H2 & H3).
  destruct (concat_spec d0 rest dim) as (ds' & E & Hp' & Hnr' & (Hrel & Ea & Ec & Eb & Ed) & _).
  - intros ->. apply Forall2_length in H1. destruct ixs; done.
  - done.
  - done.
  - intros o Ho. destruct (H3 o Ho) as [Hpo Hdo]. split; [done|].
    apply elem_of_list_lookup_1 in Ho as [i Hi]. destruct (Forall2_lookup_l _ _ _ _ _ H2 Hi) as (ps & _ & Hv).
    by apply (isel_compatible ds dim ps0 ps).
  - exists d0, rest, ds'. split_and!; try done; try congruence.
    rewrite Ev0 in Hrel.
    assert (Hb : Forall (Forall (fun j => j < n)) pss).
    { clear -Hps. induction Hps; constructor; [by eapply positions_bound|done]. }
    (* compare variable by variable *)
    assert (Hin : forall nv, nv ∈ d_vars ds -> dget (d_vars ds) nv.1 = Some nv.2).
    { intros [m v] H. apply elem_dget; [apply Hp|done]. }
    assert (Hin' : forall nv, nv ∈ d_vars ds' -> arr_wf (v_array nv.2)).
    { intros [m v] H. apply (proper_arrays _ Hp'), elem_dvals. by exists m. }
    revert Hin Hin' Hrel. generalize (d_vars ds) at 1 3 4 as l. generalize (d_vars ds') as l'.
    intros l' l. revert l'. induction l as [|[m v] l IH]; intros l' Hin Hin' Hrel; cbn in Hrel;
      inversion Hrel as [|? [m' v'] ? l'' [Hm HR] Hrel']; subst; [done|].
    cbn [fst snd] in *. subst m'. rewrite (IH l''); [|intros nv Hnv; apply Hin; by right|intros nv Hnv; apply Hin'; by right|done].
    f_equal. f_equal. destruct HR as [Hsame Hrec].
    pose proof (Hin (m, v) ltac:(by left)) as Hv. cbn in Hv.
    destruct (proper_consistent _ Hp _ _ Hv) as (_ & _ & Hs).
    assert (Hvin : v ∈ dvals (d_vars ds)) by (apply elem_dvals; exists m; by apply dget_elem).
    pose proof (Hnr _ Hvin) as Hnd. pose proof (proper_arrays _ Hp _ Hvin) as Hw.
    pose proof (Hin' (m, v') ltac:(by left)) as Hw'. cbn in Hw'.
    destruct (var_take_same dim ps0 v Hnd) as (Q1 & Q2 & Q3 & Q4).
    destruct Hsame as (R1 & R2 & R3 & R4).
    assert (Hdims : v_dims (var_take dim ps0 v) = v_dims v) by (rewrite Q1; done).
    assert (Hsame : same_but_records dim v v').
    { split_and!.
      - rewrite R1 at 1. rewrite Q1 at 1. done.
      - congruence.
      - intros k Hk. rewrite R3 by congruence. by apply Q3.
      - intros Hno. rewrite R4 by congruence. by apply Q4. }
    apply (var_determined (d_dims ds) dim v v'); try done.
    pose proof (var_take_records _ _ _ _ _ Hs Hn (positions_bound _ _ _ Hps0)) as Hr0.
    destruct (records v dim) as [rs|] eqn:Er.
    + destruct (Hrec _ Hr0) as (rss & Hrss & ->). f_equal.
      rewrite (records_in_isel _ _ _ _ _ _ _ _ Hv Er Hp Hn Hb H2 _ Hrss).
      assert (Hmj : forall l, mjoin (map (fun ps => pick ps rs) l) = pick (mjoin l) rs).
      { intros l0. induction l0 as [|p l0 IHl]; [done|].
        change (pick p rs ++ mjoin (map (fun ps => pick ps rs) l0) = pick (p ++ mjoin l0) rs). rewrite pick_app. by f_equal. }
      rewrite Hmj, <-pick_app, Hall.
      assert (length rs = n) as <-; [|apply pick_seq].
      rewrite records_index in Er. destruct (index_of dim (v_dims v)) as [ax|] eqn:Ei; [|done].
      injection Er as <-. rewrite rows_length. apply index_of_lookup in Ei. by apply (sized_at _ _ _ _ _ Hs Ei Hn).
    + assert (Hno : dim ∉ v_dims v).
      { rewrite records_index in Er. destruct (index_of dim (v_dims v)) eqn:Ei; [done|]. by apply index_of_None. }
      destruct Hsame as (_ & _ & _ & H4). rewrite (H4 Hno). done.
Qed.
Print Assumptions C14_split_concat.

(** Selecting the first records of a concatenation gives the first operand
    back, selecting the others gives the records of the second. *)
Theorem C14_concat_isel a b dim : proper a -> no_repeat a -> proper b -> compatible dim a b ->
  dim ∈ mjoin (map v_dims (dvals (d_vars a))) ->
  exists c x y na nb, ds_concat a [b] dim = Ok c /\
    dget (d_dims a) dim = Some na /\ dget (d_dims b) dim = Some nb /\
    ds_isel c [(dim, ISlice (Some 0%Z) (Some (Z.of_nat na)))] = Ok x /\
    ds_isel c [(dim, ISlice (Some (Z.of_nat na)) (Some (Z.of_nat (na + nb))))] = Ok y /\
    d_vars x = d_vars a /\
    related (fun name v v' => same_but_records dim v v' /\ (dim ∈ v_dims v ->
       exists w, dget (d_vars b) name = Some w /\ records v' dim = records w dim)) a y.
Proof.
  intros Hpa Hnra Hpb Hco Hused.
  destruct (proper_dims_used _ _ Hpa Hused) as [na Hna].
  assert (exists nb, dget (d_dims b) dim = Some nb) as [nb Hnb].
  { apply elem_of_list_join in Hused as (dims & Hd & Hin). apply elem_of_list_In, in_map_iff in Hin as (v & <- & Hv%elem_of_list_In).
    apply elem_dvals in Hv as [m Hv]. apply (elem_dget _ _ _ (proper_names _ Hpa)) in Hv.
    destruct Hco as [_ Hco]. destruct (Hco _ _ Hv) as (w & Hw & _ & Hwd & _).
    destruct (proper_consistent _ Hpb _ _ Hw) as (_ & _ & Hs).
    rewrite <-Hwd in Hd. apply elem_of_list_lookup_1 in Hd as [k Hk]. destruct (Hs k dim Hk) as (q & _ & Hq). eauto. }
  destruct (concat_spec a [b] dim) as (c & Ec & Hpc & Hnrc & (Hrel & Ea & Eb & Ed & Ee) & Hdim & _);
    [done|done|done|by intros o ->%elem_of_list_singleton|].
  assert (Hnc : dget (d_dims c) dim = Some (na + nb)).
  { rewrite (Hdim Hused). f_equal. unfold size_of. rewrite Hna. cbn. rewrite Hnb. cbn. lia. }
  assert (P1 : positions (na + nb) (ISlice (Some 0%Z) (Some (Z.of_nat na))) = Ok (seq 0 na)).
  { etransitivity; [apply (positions_slice (na + nb) 0 na); lia|]. by rewrite Nat.sub_0_r. }
  assert (P2 : positions (na + nb) (ISlice (Some (Z.of_nat na)) (Some (Z.of_nat (na + nb)))) = Ok (seq na nb)).
  { rewrite (positions_slice (na + nb) na (na + nb)) by lia. repeat f_equal. lia. }
  destruct (isel_ok _ _ _ _ _ Hpc Hnrc Hnc P1) as (x & Ex & Evx & Hx1 & Hx2 & Hx3 & Hx4 & Hpx & _).
  destruct (isel_ok _ _ _ _ _ Hpc Hnrc Hnc P2) as (y & Ey & Evy & Hy1 & Hy2 & Hy3 & Hy4 & Hpy & _).
  exists c, x, y, na, nb. split_and!; try done.
  - rewrite Evx.
    assert (Hin : forall nv, nv ∈ d_vars a -> dget (d_vars a) nv.1 = Some nv.2).
    { intros [m v] H. apply elem_dget; [apply Hpa|done]. }
    assert (Hinc : forall nv, nv ∈ d_vars c -> dget (d_vars c) nv.1 = Some nv.2).
    { intros [m v] H. apply elem_dget; [apply Hpc|done]. }
    revert Hin Hinc Hrel. generalize (d_vars a) at 1 3 4 as l. generalize (d_vars c) at 1 3 4 as l'.
    intros l' l Hin Hinc Hrel. induction Hrel as [|[m v] [m' v'] l l' [Hm HR] Hrel IH]; [done|].
    cbn [fst snd map] in *. subst m'. rewrite IH; [|intros nv Hnv; apply Hin; by right|intros nv Hnv; apply Hinc; by right].
    f_equal. f_equal. destruct HR as [Hsame Hrec].
    pose proof (Hin (m, v) ltac:(by left)) as Hv. pose proof (Hinc (m, v') ltac:(by left)) as Hv'. cbn in Hv, Hv'.
    destruct (proper_consistent _ Hpa _ _ Hv) as (_ & _ & Hs). destruct (proper_consistent _ Hpc _ _ Hv') as (_ & _ & Hs').
    assert (Hvin : v ∈ dvals (d_vars a)) by (apply elem_dvals; exists m; by apply dget_elem).
    assert (Hvin' : v' ∈ dvals (d_vars c)) by (apply elem_dvals; exists m; by apply dget_elem).
    pose proof (Hnra _ Hvin) as Hnd.
    assert (Hdims : v_dims v' = v_dims v) by (destruct Hsame as [-> _]; done).
    destruct (var_take_same dim (seq 0 na) v' (Hnrc _ Hvin')) as (Q1 & Q2 & Q3 & Q4).
    destruct Hsame as (R1 & R2 & R3 & R4).
    apply (var_determined (d_dims a) dim v); try done.
    + by apply (proper_arrays _ Hpa).
    + by apply var_take_wf, (proper_arrays _ Hpc).
    + split_and!; [|congruence| |].
      * rewrite Q1 at 1. rewrite R1 at 1. done.
      * intros k Hk. rewrite Q3 by congruence. by apply R3.
      * intros Hno. rewrite Q4 by congruence. by apply R4.
    + rewrite (var_take_records _ _ _ _ _ Hs' Hnc) by (apply Forall_forall; intros j Hj%elem_of_seq; lia).
      destruct (records v dim) as [rs|] eqn:Er.
      * destruct (Hrec _ eq_refl) as (rss & _ & ->). cbn. f_equal.
        assert (length rs = na) as Hlen.
        { rewrite records_index in Er. destruct (index_of dim (v_dims v)) as [ax|] eqn:Ei; [|done].
          injection Er as <-. rewrite rows_length. apply index_of_lookup in Ei. by apply (sized_at _ _ _ _ _ Hs Ei Hna). }
        rewrite pick_take by (rewrite app_length; lia). rewrite <-Hlen. apply take_app.
      * rewrite records_index in *. rewrite Hdims. by destruct (index_of dim (v_dims v)).
  - split_and!; try congruence. rewrite Evy.
    assert (Hin : forall nv, nv ∈ d_vars a -> dget (d_vars a) nv.1 = Some nv.2).
    { intros [m v] H. apply elem_dget; [apply Hpa|done]. }
    assert (Hinc : forall nv, nv ∈ d_vars c -> dget (d_vars c) nv.1 = Some nv.2).
    { intros [m v] H. apply elem_dget; [apply Hpc|done]. }
    revert Hin Hinc Hrel. generalize (d_vars a) at 1 3 4 as l. generalize (d_vars c) at 1 3 4 as l'.
    intros l' l Hin Hinc Hrel. induction Hrel as [|[m v] [m' v'] l l' [Hm HR] Hrel IH]; [constructor|].
    cbn [fst snd map] in *. subst m'. constructor; [|apply IH; [intros nv Hnv; apply Hin; by right|intros nv Hnv; apply Hinc; by right]].
    split; [done|]. cbn [fst snd]. destruct HR as [Hsame Hrec].
    pose proof (Hin (m, v) ltac:(by left)) as Hv. pose proof (Hinc (m, v') ltac:(by left)) as Hv'. cbn in Hv, Hv'.
    destruct (proper_consistent _ Hpa _ _ Hv) as (_ & _ & Hs). destruct (proper_consistent _ Hpc _ _ Hv') as (_ & _ & Hs').
    assert (Hvin' : v' ∈ dvals (d_vars c)) by (apply elem_dvals; exists m; by apply dget_elem).
    assert (Hdims : v_dims v' = v_dims v) by (destruct Hsame as [-> _]; done).
    destruct (var_take_same dim (seq na nb) v' (Hnrc _ Hvin')) as (Q1 & Q2 & Q3 & Q4).
    destruct Hsame as (R1 & R2 & R3 & R4).
    split.
    + split_and!; [|congruence| |].
      * rewrite Q1 at 1. rewrite R1 at 1. done.
      * intros k Hk. rewrite Q3 by congruence. by apply R3.
      * intros Hno. rewrite Q4 by congruence. by apply R4.
    + intros Hd. destruct (records v dim) as [rs|] eqn:Er.
      2:{ rewrite records_index in Er. destruct (index_of dim (v_dims v)) eqn:Ei; [done|]. by apply index_of_None in Ei. }
      destruct (Hrec _ eq_refl) as (rss & Hrss & Hr'). inversion Hrss as [|? rw ? ? (w & Hw & Hrw) Hnil]; subst.
      inversion Hnil; subst. exists w. split; [done|]. rewrite Hrw.
      rewrite (var_take_records _ _ _ _ _ Hs' Hnc) by (apply Forall_forall; intros j Hj%elem_of_seq; lia).
      rewrite Hr'. cbn. rewrite app_nil_r. f_equal.
      assert (length rs = na) as Hlen.
      { rewrite records_index in Er. destruct (index_of dim (v_dims v)) as [ax|] eqn:Ei; [|done].
        injection Er as <-. rewrite rows_length. apply index_of_lookup in Ei. by apply (sized_at _ _ _ _ _ Hs Ei Hna). }
      assert (length rw = nb) as Hlw.
      { destruct (proper_consistent _ Hpb _ _ Hw) as (_ & _ & Hsw).
        rewrite records_index in Hrw. destruct (index_of dim (v_dims w)) as [ax|] eqn:Ei; [|done].
        injection Hrw as <-. rewrite rows_length. apply index_of_lookup in Ei. by apply (sized_at _ _ _ _ _ Hsw Ei Hnb). }
      rewrite pick_drop by (rewrite app_length; lia). rewrite <-Hlen. apply drop_app.
Qed.
Print Assumptions C14_concat_isel.

(** delete removes exactly the designated records. *)
Theorem C14_delete ds dim n ix ps : proper ds -> no_repeat ds ->
  dget (d_dims ds) dim = Some n -> positions n ix = Ok ps ->
  (forall v, v ∈ dvals (d_vars ds) -> dim ∈ v_dims v) ->
  exists ds', ds_delete ds ix dim = Ok ds' /\ proper ds' /\
    related (fun _ v v' => same_but_records dim v v' /\
      records v' dim = option_map (pick (List.filter (fun i => negb (memb i ps)) (seq 0 n))) (records v dim)) ds ds'.
Proof. apply delete_ok. Qed.
Print Assumptions C14_delete.

(** A variable without the dimension makes delete raise. *)
Theorem C14_delete_refused ds dim ix v l : d_vars ds = (v_name v, v) :: l -> dim ∉ v_dims v ->
  ds_delete ds ix dim = Raise ValueError.
Proof.
  intros E Hno. unfold ds_delete. rewrite E. cbn.
  destruct (index_of dim (v_dims v)) eqn:Ei; [|done]. exfalso. apply index_of_lookup in Ei. by apply elem_of_list_lookup_2 in Ei.
Qed.
Print Assumptions C14_delete_refused.

(** A concrete dataset of three variables: the axis, a matrix whose second
    dimension is the axis, and a constant. *)
Definition nums (l : list Z) : list val := map Num l.
Definition simple_var (name : string) (dims : list string) (shape : list nat) (data : list Z) : variable :=
  Var (lit name) false (Arr shape (nums data)) (lit "int64") (map lit dims) [] None None [].
Definition sample : dataset :=
  Dataset [(lit "time", 3); (lit "x", 2)]
    [(lit "time", simple_var "time" ["time"] [3] [10; 20; 30]%Z);
     (lit "m", simple_var "m" ["x"; "time"] [2; 3] [1; 2; 3; 4; 5; 6]%Z);
     (lit "k", simple_var "k" ["x"] [2] [7; 8]%Z)] [(lit "title", lit "s")] [] 128%Z false.

Lemma sample_proper : proper sample /\ no_repeat sample.
Proof.
  split; [split|].
  - apply (bool_decide_eq_true_1 (NoDup _)). vm_compute. reflexivity.
  - constructor.
  - done.
  - intros v Hv. cbn in Hv. repeat (apply elem_of_cons in Hv as [->|Hv]; [vm_compute; reflexivity|]). by apply elem_of_nil in Hv.
  - intros name v Hv. apply dget_elem in Hv. cbn in Hv.
    repeat (apply elem_of_cons in Hv as [[= -> ->]|Hv]; [split_and!; [done|done|]; intros k d Hk; 
      destruct k as [|[|k]]; cbn in Hk; try (injection Hk as <-); try done; eexists; split; reflexivity|]).
    by apply elem_of_nil in Hv.
  - intros v Hv. cbn in Hv.
    repeat (apply elem_of_cons in Hv as [->|Hv]; [apply (bool_decide_eq_true_1 (NoDup _)); vm_compute; reflexivity|]).
    by apply elem_of_nil in Hv.
Qed.

Example C14_case : exists d0 d1 d2 ds', 
  ds_isel sample [(lit "time", ISlice None (Some 1%Z))] = Ok d0 /\
  ds_isel sample [(lit "time", IList [1]%Z)] = Ok d1 /\
  ds_isel sample [(lit "time", ISlice (Some (-1)%Z) None)] = Ok d2 /\
  v_array (default (simple_var "" [] [] []) (dget (d_vars d1) (lit "m"))) = Arr [2; 1] (nums [2; 5]%Z) /\
  ds_concat d0 [d1; d2] (lit "time") = Ok ds' /\ d_vars ds' = d_vars sample.
Proof.
  destruct sample_proper as [Hp Hnr].
  destruct (C14_split_concat sample (lit "time") 3 (ISlice None (Some 1%Z)) [0]
    [IList [1]%Z; ISlice (Some (-1)%Z) None] [[1]; [2]]) as (d0 & rest & ds' & E0 & Er & Ec & Ev & _); try done.
  - repeat constructor.
  - inversion Er as [|? d1 ? r1 E1 Er1]; subst. inversion Er1 as [|? d2 ? r2 E2 Er2]; subst. inversion Er2; subst.
    exists d0, d1, d2, ds'. split_and!; try done. vm_compute in E1. injection E1 as <-. reflexivity.
Qed.
