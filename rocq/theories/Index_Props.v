(** * The index of a collection (C32, C33, C58, C59) and the loading with an
    indexer (C34) *)
From Verif Require Import Py Dict Order NdArray_Model NdArray_Spec NdArray_Proofs Dataset_Model Dataset_Spec Dataset_Proofs Dataset_Props Meta_Model PartPath_Model PartPath_Proofs Split_Spec FS_Model FS_Proofs
  Storage_Model Storage_Spec Listing_Model Listing_Spec Listing_Proofs Collection_Model Collection_Spec Collection_State Collection_Select Collection_Load Collection_Example
  Update_Model Update_Spec Update_Example Map_Props Index_Model Index_Spec Index_Proofs Index_Load.

(** ** C32: queries *)

(** The slices of a query cover, for each partition, exactly the records of the
    rows that are selected, and they are in order with gaps between them. *)
Theorem C32_query ix file t columns op mask only names :
  indexed ix t -> ix_read ix file = Ok t -> (forall c, c ∈ columns -> c.1 ∈ t_names t) ->
  op ∈ [None; Some []; Some (lit "and"); Some (lit "and_not"); Some (lit "or"); Some (lit "xor")] ->
  (forall m, mask = Some m -> length m = length (t_rows t)) ->
  labels ix t only names -> unnested names (picked t columns op mask) ->
  exists out, query ix file columns op mask only = Ok out /\
    (forall k i, k.*1 = names -> covered out k i <-> designated (picked t columns op mask) k i) /\
    (forall k a b, (k, (a, b)) ∈ out -> k.*1 = names) /\ (only = true -> in_order out).
Proof.
  intros Hix Hrd Hcol Hop Hmask Hla Hun.
  assert (exists f, logical_op op = Ok f /\ f <> Invert) as (f & Ef & Hf).
  { unfold logical_op. repeat (apply elem_of_cons in Hop as [->|Hop]; [by eexists; split; [reflexivity|]|]). by apply elem_of_nil in Hop. }
  apply labels_unique in Hla as ->; [|apply (ixd_complete _ _ Hix)]. by apply (query_covers ix file t columns op mask only Hix Hrd f Ef Hf).
Qed.
Print Assumptions C32_query.

(** An unknown operator, or columns that are all unknown, raise ValueError. *)
Theorem C32_errors ix file columns op mask only : ix_keys ix <> [] ->
  (op ∉ [None; Some []; Some (lit "and"); Some (lit "and_not"); Some (lit "invert"); Some (lit "or"); Some (lit "xor")] \/
   (columns <> [] /\ forall c, c ∈ columns -> c.1 ∉ ix_types ix)) ->
  query ix file columns op mask only = Raise ValueError.
Proof.
  intros Hk H. unfold query. destruct (ix_keys ix) as [|k0 ks]; [done|]. clear Hk. destruct (logical_op op) as [f|ex] eqn:Ef.
  - destruct H as [H|[Hne H]].
    + exfalso. rewrite !not_elem_of_cons in H. destruct H as (H1 & H2 & H3 & H4 & H5 & H6 & H7 & _). destruct op as [o|]; [|done].
      unfold logical_op in Ef. destruct o as [|a o]; [done|]. rewrite !bool_decide_false in Ef by congruence. done.
    + cbn [rbind]. destruct columns as [|c cs]; [done|]. replace (existsb _ _) with false; [done|]. symmetry. apply not_true_iff_false. intros (c' & Hc & Hm)%existsb_exists.
      apply elem_of_list_In in Hc. apply (H c' Hc). unfold memb in Hm. by apply bool_decide_eq_true in Hm.
  - cbn [rbind]. unfold logical_op in Ef. repeat (destruct (bool_decide _) in Ef; [done|]). congruence.
Qed.
Print Assumptions C32_errors.

(** ** C58: queries whose rows are nested, or inverted *)

Definition T_ix : index := Ix [lit "pass"] [lit "start"; lit "stop"; lit "label"; lit "pass"] None.
Definition T_row (start stop label pass : Z) : row := [(lit "start", start); (lit "stop", stop); (lit "label", label); (lit "pass", pass)].
Definition T_table (l : list row) : table := Table [lit "start"; lit "stop"; lit "label"; lit "pass"] l.
Lemma T_indexed l : (forall r, r ∈ l -> exists a b x p, r = T_row a b x p) -> indexed T_ix (T_table l).
Proof.
  intros H. split.
  - split; [by apply (bool_decide_unpack _); vm_compute|]. intros r Hr. by destruct (H r Hr) as (a & b & x & p & ->).
  - apply (bool_decide_unpack _). by vm_compute.
  - apply (bool_decide_unpack _). by vm_compute.
  - split; [done|]. split; [apply (bool_decide_unpack _); by vm_compute|]. intros n Hn. apply elem_of_list_singleton in Hn as ->. split_and!; apply (bool_decide_unpack _); by vm_compute.
  - intros n Hn. exact Hn.
Qed.

(** The hypotheses of C32 can be met: overlapping rows of two partitions. *)
Definition T_rows : list row := [T_row 4 9 1 2; T_row 0 5 1 1; T_row 3 6 2 1; T_row 8 9 1 1; T_row 5 7 3 1].
Example C32_case : exists out, query T_ix (Some (T_table T_rows)) [(lit "label", [1; 2]%Z)] None None true = Ok out /\
  covered out [(lit "pass", 1%Z)] 4 /\ ~ covered out [(lit "pass", 1%Z)] 6 /\ out = [([(lit "pass", 1%Z)], (0, 6)%Z); ([(lit "pass", 1%Z)], (8, 9)%Z); ([(lit "pass", 2%Z)], (4, 9)%Z)].
Proof.
  assert (Hix : indexed T_ix (T_table T_rows)).
  { apply T_indexed. intros r Hr. unfold T_rows in Hr. repeat (apply elem_of_cons in Hr as [->|Hr]; [by eexists _, _, _, _|]). by apply elem_of_nil in Hr. }
  destruct (C32_query T_ix (Some (T_table T_rows)) (T_table T_rows) [(lit "label", [1; 2]%Z)] None None true [lit "pass"] Hix eq_refl) as (out & E & Hc & _).
  - intros c Hcc. apply elem_of_list_singleton in Hcc as ->. apply (bool_decide_unpack _). by vm_compute.
  - left.
  - done.
  - reflexivity.
  - intros r r' k a b a' b' Hk (i & Hi & _ & Hch) (j & Hj & _ & Hch') Hab Hab' [R1 R2] [R1' R2'] Hlt.
    assert (Hp : forall r, about k r -> dget r (lit "pass") = option_map snd (head k)).
    { intros r0 Ha. destruct k as [|[n v] [|]]; try done. injection Hk as ->. inversion Ha as [|? ? Hv _]; subst. exact Hv. }
    pose proof (Hp r Hab) as Hpr. rewrite <-(Hp r' Hab') in Hpr. clear Hp Hk Hab Hab'.
    assert (Hm : forall r, chosen (lit "and") [(lit "label", [1; 2]%Z)] r -> exists v, dget r (lit "label") = Some v /\ v <> 3%Z).
    { intros r0 [H|[[_ H]|[[H _]|[[H _]|[H _]]]]]; try done. inversion H as [|? ? (v & Hv & Hin) _]; subst. exists v. split; [exact Hv|].
      intros ->. cbn in Hin. apply elem_of_cons in Hin as [|Hin]; [done|]. apply elem_of_list_singleton in Hin. done. }
    apply Hm in Hch as (x & Hx & Hx3), Hch' as (x' & Hx' & Hx3'). clear Hm.
    apply elem_of_list_lookup_2 in Hi, Hj. cbn [t_rows T_table] in Hi, Hj. unfold T_rows in Hi, Hj.
    repeat (apply elem_of_cons in Hi as [->|Hi]); [..|by apply elem_of_nil in Hi];
    repeat (apply elem_of_cons in Hj as [->|Hj]); [..|by apply elem_of_nil in Hj| | | | | |by apply elem_of_nil in Hj| | | | | |by apply elem_of_nil in Hj| | | | | |by apply elem_of_nil in Hj| | | | | |by apply elem_of_nil in Hj];
    vm_compute in Hpr, R1, R2, R1', R2', Hx, Hx'; simplify_eq; lia.
  - exists out. assert (Eo : out = [([(lit "pass", 1%Z)], (0, 6)%Z); ([(lit "pass", 1%Z)], (8, 9)%Z); ([(lit "pass", 2%Z)], (4, 9)%Z)]).
    { assert (Ec : query T_ix (Some (T_table T_rows)) [(lit "label", [1; 2]%Z)] None None true = Ok [([(lit "pass", 1%Z)], (0, 6)%Z); ([(lit "pass", 1%Z)], (8, 9)%Z); ([(lit "pass", 2%Z)], (4, 9)%Z)]) by (vm_compute; reflexivity).
      rewrite E in Ec. by injection Ec. }
    split; [done|]. rewrite Eo. split; [|split; [|done]].
    + exists 0%Z, 6%Z. split; [left|lia].
    + intros (a & b & Hin & Hr). repeat (apply elem_of_cons in Hin as [[= -> ->]|Hin]; [lia|]). apply elem_of_cons in Hin as [Hin|Hin]; [discriminate Hin|]. by apply elem_of_nil in Hin.
Qed.

(** The records of a row are lost when another row of the partition is in it. *)
Theorem C58_nested_refuted : exists ix t out k i, indexed ix t /\ query ix (Some t) [] None None true = Ok out /\
  k.*1 = ix_keys ix /\ designated (picked t [] None None) k i /\ ~ covered out k i.
Proof.
  exists T_ix, (T_table [T_row 0 10 1 1; T_row 2 5 2 1]), [([(lit "pass", 1%Z)], (0, 5)%Z)], [(lit "pass", 1%Z)], 7%Z. split_and!.
  - apply T_indexed. intros r Hr. repeat (apply elem_of_cons in Hr as [->|Hr]; [by eexists _, _, _, _|]). by apply elem_of_nil in Hr.
  - vm_compute. reflexivity.
  - reflexivity.
  - exists (T_row 0 10 1 1), 0%Z, 10%Z. split_and!; [|by repeat constructor|split; reflexivity|lia|lia]. exists 0. split; [done|]. split; [done|]. by left.
  - intros (a & b & Hin & Hr). apply elem_of_list_singleton in Hin. injection Hin as -> ->. lia.
Qed.
Print Assumptions C58_nested_refuted.
(** 'invert' on one condition selects the rows that meet it, as 'and' does, and
    with several conditions it raises TypeError. *)
Theorem C58_invert_refuted ix file c cs : ix_keys ix <> [] ->
  (forall mask only, query ix file [c] (Some (lit "invert")) mask only = query ix file [c] (Some (lit "and")) mask only) /\
  (forall t only, indexed ix t -> ix_read ix file = Ok t -> (forall c', c' ∈ c :: cs -> c'.1 ∈ t_names t) -> cs <> [] ->
    query ix file (c :: cs) (Some (lit "invert")) None only = Raise TypeError).
Proof.
  intros Hk. unfold query. destruct (ix_keys ix) as [|k0 ks] eqn:Ek; [done|]. clear Hk.
  change (logical_op (Some (lit "invert"))) with (Ok Invert : res logical). change (logical_op (Some (lit "and"))) with (Ok And : res logical). cbn [rbind]. split.
  - intros mask only. destruct (_ && _); [reflexivity|]. destruct (ix_read ix file) as [whole|]; [|reflexivity]. cbn [rbind].
    destruct (match mask with Some m => _ | None => _ end) as [t|]; [|reflexivity]. cbn [rbind traverse].
    destruct (do col <- column t c.1; _) as [m|]; reflexivity.
  - intros t only Hix Hrd Hc Hcs. rewrite Hrd. cbn [rbind].
    assert (Hty : forall c', c' ∈ c :: cs -> c'.1 ∈ ix_types ix) by (intros; apply (ixd_types _ _ Hix); auto).
    replace (existsb (fun c : str * list Z => memb c.1 (ix_types ix)) (c :: cs)) with true.
    2:{ symmetry. apply existsb_exists. exists c. split; [left; reflexivity|]. apply bool_decide_true, Hty. left. }
    cbn [length Nat.eqb negb andb]. destruct cs as [|c2 cs]; [done|].
    erewrite (traverse_Ok _ (fun c => map (fun x => memb x c.2) (map (fun r => cell r c.1) (t_rows t)))); [reflexivity|].
    intros c' Hc'. cbv beta. rewrite column_ok by auto. cbn [rbind]. unfold memb at 1. rewrite bool_decide_true by auto. reflexivity.
Qed.
Print Assumptions C58_invert_refuted.

(** ** C33: updating the index *)

Section Update.
  Context (e : env) (c : collection) (M : list Z -> option dataset) (I : option dataset) (s : store).
  Context (Hr : regular e c) (Hs : represents c M I s) (Hu : uniform c M I) (Hfi : filterable c).
  Context (f : callback struct) (delayed : bool) (ix : index) (file : option table) (names : list str).
  Context (Hkeys : ix_keys ix = p_keys (c_part c)) (Hkne : ix_keys ix <> []) (Hty : forall n, n ∈ names -> n ∈ ix_types ix) (Hnd : NoDup names).
  Context (Hfile : forall t, file = Some t -> t_names t = names /\ complete t).
  Context (Hf : forall v old ds, M v = Some old -> seen delayed None (fixed_part c I) old ds -> exists a, cb_call f ds None = Ok a /\ array_for ix names a).

  (** After the update the rows of a partition are those that the function gives
      for its dataset, in their order; the partitions for which it gives none, and
      those that are not in the collection, keep their rows. *)
Theorem C33_update :
  let key v := zip (p_keys (c_part c)) v in
  exists ix' file', exec (update_index e c f delayed ix file) s = (Ok (ix', file'), s) /\
    (forall v old, M v = Some old -> exists ds a, seen delayed None (fixed_part c I) old ds /\ cb_call f ds None = Ok a /\
      (s_items a <> [] -> Forall2 (describes (key v) (s_fields a)) (s_items a) (rows_about file' (key v))) /\
      (s_items a = [] -> rows_about file' (key v) = rows_about file (key v))) /\
    (forall k, k.*1 = p_keys (c_part c) -> (forall v, is_Some (M v) -> k <> key v) -> rows_about file' k = rows_about file k) /\
    ((ix' = ix /\ file' = file) \/
     exists t, file' = Some t /\ t_names t = names /\ complete t /\ ix_keys ix' = ix_keys ix /\ ix_types ix' = ix_types ix /\ forall other, ix_read ix' other = Ok t).
Proof using All.
  cbv zeta. destruct (C26_map e c f delayed NoFilter None M I s (fun _ => True) Hr Hs Hu Hfi) as (vs & r & Hso & Hin & E & Hq); [intros; by split|].
  assert (Hvs : forall v, v ∈ vs <-> is_Some (M v)) by (intros v; rewrite Hin; tauto).
  destruct r as [results|ex]. 2:{ destruct Hq as (v & old & ds & _ & Hv & Hsee & Hc). destruct (Hf v old ds Hv Hsee) as (a & Ha & _). congruence. }
  assert (Hlen : forall v, is_Some (M v) -> length v = length (p_keys (c_part c))) by (intros v [d Hv]; by destruct (rp_part _ _ _ _ Hs _ _ Hv) as (? & _)).
  assert (Hzip : forall v w, is_Some (M v) -> is_Some (M w) -> zip (p_keys (c_part c)) v = zip (p_keys (c_part c)) w -> v = w).
  { intros v w Hv Hw Ez. apply Hlen in Hv, Hw. apply (f_equal (map snd)) in Ez. change (@map) with (@fmap list _) in Ez. 
    rewrite !snd_zip in Ez by lia. exact Ez. }
  assert (Hk1 : results.*1 = map (fun v => zip (p_keys (c_part c)) v) vs).
  { clear -Hq. induction Hq as [|v kb vs out [H _] _ IH]; [done|]. cbn [fmap list_fmap map]. rewrite H. f_equal. exact IH. }
  assert (Hq1 : forall k a, (k, a) ∈ results -> exists v old ds, M v = Some old /\ k = zip (p_keys (c_part c)) v /\ seen delayed None (fixed_part c I) old ds /\ cb_call f ds None = Ok a).
  { intros k a (i & Hi)%elem_of_list_lookup. destruct (Forall2_lookup_r _ _ _ _ _ Hq Hi) as (v & Hv & Ek & old & ds & H1 & H2 & H3). by exists v, old, ds. }
  destruct (ix_update_ok ix file results names Hty Hnd Hkne Hfile) as (ix' & file' & Eu & Hst & Hne & Hem).
  { intros k a Hka. destruct (Hq1 k a Hka) as (v & old & ds & Hv & -> & Hsee & Hc). split.
    - rewrite Hkeys, fst_zip; [done|]. rewrite (Hlen v); [done|by eexists].
    - destruct (Hf v old ds Hv Hsee) as (a' & Ha & Haf). congruence. }
  { rewrite Hk1. change (@map) with (@fmap list _). apply NoDup_fmap_2_strong; [|by apply sorted_nodup_rows].
    intros v w Hv%Hvs Hw%Hvs. by apply Hzip. }
  exists ix', file'. split; [unfold update_index; rewrite exec_bind, E; cbn [exec]; by rewrite Eu|]. split; [|split].
  - intros v old Hv. assert (v ∈ vs) as (i & Hi)%elem_of_list_lookup by (apply Hvs; by eexists).
    destruct (Forall2_lookup_l _ _ _ _ _ Hq Hi) as ([k a] & Hi' & Ek & old' & ds & H1 & H2 & H3). cbn [fst snd] in *. subst k. assert (old' = old) as -> by congruence.
    exists ds, a. split; [done|]. split; [done|]. apply elem_of_list_lookup_2 in Hi'. split.
    + by apply Hne.
    + intros Ha. apply Hem. { rewrite Hkeys, fst_zip; [done|]. rewrite (Hlen v); [done|by eexists]. }
      intros a' Ha'. destruct (Hq1 _ _ Ha') as (w & old' & ds' & Hw & Ez & _ & _). 
      assert (NoDup results.*1) as Hnr. { rewrite Hk1. change (@map) with (@fmap list _). apply NoDup_fmap_2_strong; [|by apply sorted_nodup_rows]. intros v1 w1 Hv1%Hvs Hw1%Hvs. by apply Hzip. }
      assert (a' = a) as ->; [|done]. apply elem_of_list_lookup in Ha', Hi'. destruct Ha' as [i1 Hi1], Hi' as [i2 Hi2].
      assert (i1 = i2) as ->. { eapply NoDup_lookup; [exact Hnr| |]; rewrite list_lookup_fmap; [rewrite Hi1|rewrite Hi2]; reflexivity. } congruence.
  - intros k Hk Hno. apply Hem; [congruence|]. intros a Ha. destruct (Hq1 _ _ Ha) as (w & old' & ds' & Hw & -> & _). exfalso. apply (Hno w); [by eexists|done].
  - destruct Hst as [(-> & -> & _)|(t & -> & -> & Hn & Hc)]; [by left|]. right. exists t. do 2 (split; [done|]). split; [exact Hc|]. done.
Qed.

  Local Lemma describes_get r k fields item n x : describes k fields item r -> n ∈ fields -> dget r n = Some x <-> dget (zip fields item) n = Some x.
  Proof using.
    intros [_ H]. induction H as [|m v fs vs Hm _ IH]; [by intros ?%elem_of_nil|]. intros Hn. cbn [zip_with dget fst snd].
    destruct (decide (m = n)) as [->|Hne]; [by rewrite Hm, ?decide_True, ?bool_decide_true by done|]. rewrite ?decide_False, ?bool_decide_false by congruence.
    apply IH. apply elem_of_cons in Hn as [->|Hn]; [done|exact Hn].
  Qed.
  (** A first update, then a query: the slices are those of the arrays that the
      function gives. *)
Theorem C33_update_query : file = None -> lit "start" ∈ names -> lit "stop" ∈ names -> lit "start" ∉ ix_keys ix -> lit "stop" ∉ ix_keys ix ->
  let value a item n x := dget (zip (s_fields a) item) n = Some x in
  let gives old a := exists ds, seen delayed None (fixed_part c I) old ds /\ cb_call f ds None = Ok a in
  (exists v old, M v = Some old /\ forall a, gives old a -> s_items a <> []) ->
  (forall v old a i j x y x' y', M v = Some old -> gives old a -> i ∈ s_items a -> j ∈ s_items a -> value a i (lit "start") x -> value a i (lit "stop") y ->
     value a j (lit "start") x' -> value a j (lit "stop") y' -> (x < x')%Z -> (y <= y')%Z) ->
  exists ix' file' out, exec (update_index e c f delayed ix file) s = (Ok (ix', file'), s) /\ query ix' file' [] None None true = Ok out /\ in_order out /\
    (forall v old, M v = Some old -> exists a, gives old a /\
      forall i, covered out (zip (p_keys (c_part c)) v) i <-> exists item x y, item ∈ s_items a /\ value a item (lit "start") x /\ value a item (lit "stop") y /\ (x <= i < y)%Z) /\
    (forall k i, k.*1 = p_keys (c_part c) -> (forall v, is_Some (M v) -> k <> zip (p_keys (c_part c)) v) -> ~ covered out k i).
Proof using All.
  intros Hnone Hsta Hsto Hks Hks' value gives (v0 & old0 & Hv0 & Hne0) Hun.
  destruct C33_update as (ix' & file' & Eu & H1 & H2 & H3).
  assert (Hlen : forall v, is_Some (M v) -> length v = length (p_keys (c_part c))) by (intros v [d Hv]; by destruct (rp_part _ _ _ _ Hs _ _ Hv) as (? & _)).
  destruct H3 as [[-> ->]|(t & -> & Hnames & Hcomp & Hk' & Ht' & Hrd)].
  { destruct (H1 v0 old0 Hv0) as (ds & a & Hsee & Ha & Hin & _). exfalso. pose proof (Hne0 a (ex_intro _ ds (conj Hsee Ha))) as Hne. specialize (Hin Hne).
    rewrite Hnone in Hin. cbn [rows_about] in Hin. by apply Forall2_nil_inv_r in Hin. }
  assert (Harr : forall v old a, M v = Some old -> gives old a -> s_fields a ++ ix_keys ix = names /\ lit "start" ∈ s_fields a /\ lit "stop" ∈ s_fields a).
  { intros v old a Hv (ds & Hsee & Ha). destruct (Hf v old ds Hv Hsee) as (a' & Ha' & [Haf _]). assert (a' = a) as -> by congruence. split; [done|].
    rewrite <-Haf in Hsta, Hsto. apply elem_of_app in Hsta as [?|?]; [|done]. apply elem_of_app in Hsto as [?|?]; [|done]. done. }
  (* the rows of the file that are about a partition *)
  assert (Hrow : forall k r, k.*1 = p_keys (c_part c) -> r ∈ t_rows t -> about k r -> exists v old, M v = Some old /\ k = zip (p_keys (c_part c)) v).
  { intros k r Hk Hr0 Hab. assert (k = zip (p_keys (c_part c)) k.*2) as Ez by (by rewrite <-Hk, zip_fst_snd). destruct (M k.*2) as [old|] eqn:EM; [by eauto|].
    exfalso. assert (Hrow : r ∈ rows_about (Some t) k) by (cbn [rows_about]; by apply elem_of_list_filter).
    rewrite (H2 k Hk) in Hrow; [rewrite Hnone in Hrow; by apply elem_of_nil in Hrow|]. intros v Hv ->. rewrite snd_zip in EM by (by rewrite Hlen). rewrite EM in Hv. by destruct Hv. }
  assert (Hrow' : forall v old, M v = Some old -> exists a, gives old a /\ Forall2 (describes (zip (p_keys (c_part c)) v) (s_fields a)) (s_items a) (rows_about (Some t) (zip (p_keys (c_part c)) v))).
  { intros v old Hv. destruct (H1 v old Hv) as (ds & a & Hsee & Ha & Hi1 & Hi2). exists a. split; [by exists ds|]. destruct (s_items a) as [|i0 its]; [|by apply Hi1].
    rewrite Hi2 by done. rewrite Hnone. constructor. }
  assert (Hix : indexed ix' t).
  { destruct (Hrow' v0 old0 Hv0) as (a & Hg & _). destruct (Harr _ _ _ Hv0 Hg) as (Haf & _). split; [done|by rewrite Hnames|by rewrite Hnames| |by rewrite Hnames, Ht'].
    rewrite Hk'. split; [done|]. rewrite <-Haf in Hnd. apply NoDup_app in Hnd as (_ & _ & ?). split; [done|]. intros n Hn. split; [rewrite Hnames, <-Haf; apply elem_of_app; by right|].
    split; intros ->; done. }
  destruct (C32_query ix' (Some t) t [] None None true (p_keys (c_part c)) Hix (Hrd _)) as (out & Eq & Hcov & Hlab & Hord); [by intros ? ?%elem_of_nil|left|done|by cbn; rewrite Hk'| |].
  { intros r r' k a b a' b' Hk (i & Hi & _ & _) (j & Hj & _ & _) Hab Hab' [R1 R2] [R1' R2']. apply elem_of_list_lookup_2 in Hi, Hj.
    destruct (Hrow k r Hk Hi Hab) as (v & old & Hv & ->). destruct (Hrow' v old Hv) as (ar & Hg & Hde). destruct (Harr _ _ _ Hv Hg) as (_ & S1 & S2).
    assert (Hir : r ∈ rows_about (Some t) (zip (p_keys (c_part c)) v)) by (by apply elem_of_list_filter). assert (Hjr : r' ∈ rows_about (Some t) (zip (p_keys (c_part c)) v)) by (by apply elem_of_list_filter).
    apply elem_of_list_lookup in Hir as [i1 Hi1], Hjr as [j1 Hj1]. destruct (Forall2_lookup_r _ _ _ _ _ Hde Hi1) as (it & Hit & Dit), (Forall2_lookup_r _ _ _ _ _ Hde Hj1) as (jt & Hjt & Djt).
    apply elem_of_list_lookup_2 in Hit, Hjt. apply (Hun v old ar it jt a b a' b' Hv Hg Hit Hjt); unfold value.
    - by apply (describes_get r _ _ _ _ _ Dit S1). - by apply (describes_get r _ _ _ _ _ Dit S2).
    - by apply (describes_get r' _ _ _ _ _ Djt S1). - by apply (describes_get r' _ _ _ _ _ Djt S2). }
  exists ix', (Some t), out. split; [done|]. split; [done|]. split; [by apply Hord|]. split.
  - intros v old Hv. destruct (Hrow' v old Hv) as (ar & Hg & Hde). destruct (Harr _ _ _ Hv Hg) as (_ & S1 & S2). exists ar. split; [done|]. intros i.
    rewrite Hcov by (rewrite fst_zip; [done|rewrite Hlen; [done|by eexists]]). split.
    + intros (r & x & y & (j & Hj & _) & Hab & [R1 R2] & Hxy). apply elem_of_list_lookup_2 in Hj. assert (Hir : r ∈ rows_about (Some t) (zip (p_keys (c_part c)) v)) by (by apply elem_of_list_filter).
      apply elem_of_list_lookup in Hir as [i1 Hi1]. destruct (Forall2_lookup_r _ _ _ _ _ Hde Hi1) as (it & Hit & Dit). apply elem_of_list_lookup_2 in Hit.
      exists it, x, y. split; [done|]. split; [by apply (describes_get r _ _ _ _ _ Dit S1)|]. split; [by apply (describes_get r _ _ _ _ _ Dit S2)|done].
    + intros (it & x & y & Hit & V1 & V2 & Hxy). apply elem_of_list_lookup in Hit as [i1 Hi1]. destruct (Forall2_lookup_l _ _ _ _ _ Hde Hi1) as (r & Hr1 & Dit). apply elem_of_list_lookup_2, elem_of_list_filter in Hr1 as [Hab Hrt].
      exists r, x, y. split; [apply elem_of_list_lookup in Hrt as [j Hj]; exists j; split; [done|]; split; [done|by left]|]. split; [done|]. split; [|done].
      split; [by apply (describes_get r _ _ _ _ _ Dit S1)|by apply (describes_get r _ _ _ _ _ Dit S2)].
  - intros k i Hk Hno Hc. apply (Hcov k i Hk) in Hc as (r & x & y & (j & Hj & _) & Hab & _). apply elem_of_list_lookup_2 in Hj.
    destruct (Hrow k r Hk Hj Hab) as (v & old & Hv & ->). by apply (Hno v); [eexists|].
Qed.
End Update.
Print Assumptions C33_update.
Print Assumptions C33_update_query.

Lemma filter_all {A} (g : A -> bool) l : (forall x, x ∈ l -> g x = true) -> List.filter g l = l.
Proof. induction l as [|x l IH]; intros H; [done|]. cbn. rewrite (H x) by left. f_equal. apply IH. intros; apply H; by right. Qed.
Lemma filter_none {A} (g : A -> bool) l : (forall x, x ∈ l -> g x = false) -> List.filter g l = [].
Proof. induction l as [|x l IH]; intros H; [done|]. cbn. rewrite (H x) by left. apply IH. intros; apply H; by right. Qed.
(** An index that is created with these columns, updated and opened again gives
    the same answers; opening an index that was never written raises
    FileNotFoundError. *)
Theorem C33_open (p : partitioning) columns results ix' file' :
  NoDup (columns ++ map fst (p_dtype p)) -> map fst (p_dtype p) <> [] ->
  (forall k a, (k, a) ∈ results -> k.*1 = map fst (p_dtype p) /\ s_fields a = columns /\ forall i, i ∈ s_items a -> length i = length columns) -> NoDup (results.*1) ->
  ix_update (ix_create p columns) None results = Ok (ix', file') ->
  ix_keys (ix_create p columns) = map fst (p_dtype p) /\ (forall n, n ∈ ix_types (ix_create p columns) <-> n ∈ columns \/ n ∈ map fst (p_dtype p)) /\
  if bool_decide (Exists (fun ka => s_items ka.2 <> []) results)
  then exists ix2, ix_open file' columns = Ok ix2 /\ forall cs op mask only, query ix2 file' cs op mask only = query ix' file' cs op mask only
  else ix_open file' columns = Raise FileNotFoundError.
Proof.
  intros Hnd Hne Hres Hks E. set (ix := ix_create p columns) in *. pose proof Hnd as (N1 & N2 & N3)%NoDup_app.
  assert (Ek : ix_keys ix = map fst (p_dtype p)) by done.
  assert (Et : ix_types ix = columns ++ map fst (p_dtype p)).
  { cbn [ix ix_create ix_types]. f_equal. apply filter_all. intros n Hn. apply negb_true_iff, bool_decide_eq_false. intros Hc. by apply (N2 n Hc). }
  split; [done|]. split; [intros n; rewrite Et; apply elem_of_app|].
  destruct (ix_update_ok ix None results (columns ++ map fst (p_dtype p))) as (ix1 & file1 & E1 & Hst & Hrows & _).
  - intros n Hn. by rewrite Et.
  - done.
  - by rewrite Ek.
  - by intros t [=].
  - intros k a Hka. destruct (Hres k a Hka) as (H1 & H2 & H3). rewrite Ek. split; [done|]. split; [by rewrite H2, Ek|]. by rewrite H2.
  - done.
  - assert (ix1 = ix' /\ file1 = file') as [-> ->] by (split; congruence). clear E1. case_bool_decide as Hex.
    + apply Exists_exists in Hex as ([k a] & Hka & Hi). cbn in Hi. destruct Hst as [(_ & _ & Hnil)|(t & -> & -> & Hn & Hc)]; [by specialize (Hnil k a Hka)|].
      cbn [ix_open]. eexists. split; [reflexivity|]. intros cs op mask only.
      assert (Ef : List.filter (fun n => negb (memb n columns)) (t_names t) = ix_keys ix).
      { rewrite Hn, Ek, List.filter_app, filter_none, filter_all; [done| |].
        - intros n Hn'. apply negb_true_iff, bool_decide_eq_false. intros Hcc. by apply (N2 n Hcc).
        - intros n Hn'. apply negb_false_iff, bool_decide_eq_true. done. }
      rewrite Ef. unfold query. cbn [with_table ix_keys ix_types]. rewrite Hn, <-Et. reflexivity.
    + destruct Hst as [(_ & -> & _)|(t & _ & -> & _)]; [done|]. exfalso.
      unfold ix_update in E. rewrite filter_none in E; [done|]. intros ka Hka. apply negb_false_iff. destruct (s_items ka.2) eqn:Ei; [done|]. exfalso. apply Hex, Exists_exists. exists ka. split; [done|by rewrite Ei].
Qed.
Print Assumptions C33_open.

(** ** C34: loading with an indexer *)

Lemma update_dims_used vs : forall dims delayed dd, update_dimensions dims delayed vs = Ok dd ->
  forall d, d ∈ dkeys dd.1 -> d ∈ dkeys dims \/ exists v, v ∈ vs /\ d ∈ v_dims v.
Proof.
  induction vs as [|v vs IH]; intros dims delayed dd H d Hd; cbn in H; [injection H as <-; by left|].
  assert (exists dims1 del, update_dims_var dims (v_dims v) (v_shape v) = Ok dims1 /\ update_dimensions dims1 del vs = Ok dd) as (dims1 & del & E1 & E2).
  { destruct delayed as [b|]; [destruct (Bool.eqb b (v_delayed v)); [|done]|]; (destruct (update_dims_var _ _ _) as [dims1|]; [|done]); cbn [rbind] in H; by eexists _, _. }
  destruct (IH _ _ _ E2 d Hd) as [H1|(w & Hw & Hd')]; [|right; exists w; split; [by right|done]].
  apply update_dims_var_ok in E1 as (_ & _ & H3). apply dget_is_Some in H1 as [m Hm]. apply H3 in Hm as [Hm|(k & Hk & _)].
  - left. apply dget_is_Some. by eexists.
  - right. exists v. split; [left|by eapply elem_of_list_lookup_2].
Qed.
Lemma read_dims t delayed sel o d : read_group t delayed sel = Ok o -> d ∈ dkeys (d_dims o) -> exists n v, dget (d_vars o) n = Some v /\ d ∈ v_dims v.
Proof.
  intros E Hd. unfold read_group in E. destruct (read_cons _) as [m|]; [|done]. cbn [rbind] in E. destruct (traverse _ _) as [vs|]; [|done]. cbn [rbind] in E.
  unfold new_dataset in E. destruct (update_dimensions _ _ _) as [dd|] eqn:Eu; [|done]. cbn [rbind] in E. injection E as <-. cbn [d_dims d_vars] in *.
  apply (update_dims_used _ _ _ _ Eu) in Hd as [Hd|(v & Hv & Hd)]; [by apply elem_of_nil in Hd|].
  apply elem_dvals in Hv as [n Hv]. exists n, v. split; [|done]. apply elem_dget; [|done]. apply dict_of_NoDup.
Qed.

Section Load.
  Context (e : env) (c : collection) (M : list Z -> option dataset) (I : option dataset) (s : store).
  Context (Hr : regular e c) (Hs : represents c M I s) (Hu : uniform c M I) (Hfi : filterable c).
  Context (delayed : bool) (selected : option (list str)) (f : filter) (P : list Z -> Prop) (indexer : list (scheme * (Z * Z))).
  Local Notation key v := (zip (p_keys (c_part c)) v).

  (** The records of the slices, partition by partition and, in a partition, slice
      by slice in the order of the indexer. *)
Theorem C34_load :
  (forall k sl, (k, sl) ∈ indexer -> (0 <= sl.1 /\ 0 <= sl.2)%Z /\ exists v, k = key v /\ is_Some (M v)) ->
  (forall v, is_Some (M v) -> says (c_part c) f v (P v)) -> (forall v old, M v = Some old -> P v -> measured (c_dim c) selected old) ->
  exists vs r, StronglySorted row_lt vs /\ (forall v, v ∈ vs <-> is_Some (M v) /\ P v /\ exists sl, (key v, sl) ∈ indexer) /\
    exec (load_indexer e c delayed f indexer selected) s = (Ok r, s) /\
    match r with
    | None => vs = []
    | Some out => vs <> [] /\ exists pieces,
        Forall2 (fun v ps => exists old, M v = Some old /\ Forall2 (extracts (c_dim c) old) (slices_for indexer (key v)) ps) vs pieces /\
        gathered c delayed selected (concat pieces) (if c_immutable c then I else None) out
    end.
Proof using All. exact (load_indexer_ok e c Hr M I s Hs Hu Hfi delayed selected f P indexer). Qed.

  (** A partition that does not exist: KeyError. *)
Theorem C34_missing v0 :
  (forall k sl, (k, sl) ∈ indexer -> (0 <= sl.1 /\ 0 <= sl.2)%Z /\ exists v, k = key v /\ length v = length (p_keys (c_part c))) ->
  (forall v, length v = length (p_keys (c_part c)) -> says (c_part c) f v (P v)) -> (forall v old, M v = Some old -> P v -> measured (c_dim c) selected old) ->
  key v0 ∈ map fst indexer -> length v0 = length (p_keys (c_part c)) -> P v0 -> M v0 = None ->
  exec (load_indexer e c delayed f indexer selected) s = (Raise KeyError, s).
Proof using All.
  intros Hix HP Hme Hin Hl HPv HM. destruct (load_indexer_plan e c Hr s Hfi delayed selected f P indexer) as (vs & Hso & Hvs & E).
  { intros k sl H. by apply Hix in H as [_ ?]. } { intros v sl _ Hv. by apply HP. }
  rewrite E. clear E.
  assert (Hv0 : v0 ∈ vs). { apply Hvs. split; [done|]. split; [done|]. apply elem_of_list_In, in_map_iff in Hin as ([k sl] & Ek & Hk). cbn in Ek. subst k. exists sl. by apply elem_of_list_In. }
  destruct (exec_pseq_tasks (fun v => load_and_apply_indexer c delayed selected (key v, slices_for indexer (key v))) s
    (fun v r => match r with Ok _ => M v <> None | Raise ex => ex = KeyError end) vs) as (r & E & Hq).
  { intros v Hv. pose proof Hv as Hv'. apply Hvs in Hv as (Hlv & Hpv & _). destruct (M v) as [old|] eqn:EM.
    - destruct (load_apply_ok c M I s Hs delayed selected v old (slices_for indexer (key v)) EM (Hme v old EM Hpv)) as (os & ps & Ex & _).
      { intros sl Hsl. unfold slices_for in Hsl. apply elem_of_list_In, in_map_iff in Hsl as ([k sl'] & <- & Hsl). apply elem_of_list_In, elem_of_list_filter in Hsl as [_ Hsl]. by apply Hix in Hsl as [? _]. }
      exists (Ok os). by split.
    - exists (Raise KeyError). split; [|done]. unfold load_and_apply_indexer, open_zarr_group. cbn [fst snd]. change (c_dir c ++ map (p_dir (c_part c)) (key v)) with (part_dir c v).
      setoid_rewrite exec_bind. setoid_rewrite exec_bind. rewrite exec_get_tree. cbn [exec]. unfold read_group, read_cons. rewrite sub_lookup.
      rewrite (part_nothing e c Hr M I s v Hs Hlv EM) by apply under_app. done. }
  assert (Hne : vs <> []) by (intros ->; by apply elem_of_nil in Hv0). destruct vs as [|v1 vs]; [done|]. cbn [map]. rewrite exec_bind. rewrite map_map.
  cbn [map] in E. rewrite E. destruct r as [out|ex].
  - exfalso. apply elem_of_list_lookup in Hv0 as [i Hi]. destruct (Forall2_lookup_l _ _ _ _ _ Hq Hi) as (y & _ & Hn). done.
  - destruct Hq as (x & _ & ->). done.
Qed.

  (** No variable with the dimension of the partitioning among those selected:
      ValueError. *)
Theorem C34_unmeasured :
  (forall k sl, (k, sl) ∈ indexer -> exists v, k = key v /\ is_Some (M v) /\ P v) -> indexer <> [] ->
  (forall v, is_Some (M v) -> says (c_part c) f v (P v)) -> (forall v old, M v = Some old -> ~ measured (c_dim c) selected old) ->
  exec (load_indexer e c delayed f indexer selected) s = (Raise ValueError, s).
Proof using All.
  intros Hix Hne HP Hme.
  assert (HML : forall v, is_Some (M v) -> length v = length (p_keys (c_part c))) by (intros v [d Hd]; by destruct (rp_part _ _ _ _ Hs _ _ Hd) as (? & _)).
  assert (Hix' : forall v sl, (key v, sl) ∈ indexer -> length v = length (p_keys (c_part c)) -> is_Some (M v) /\ P v).
  { intros v sl Hin Hl. destruct (Hix _ _ Hin) as (v' & Ez & Hv' & Hp'). assert (v = v') as ->; [|done].
    rewrite <-(snd_zip (p_keys (c_part c)) v), <-(snd_zip (p_keys (c_part c)) v'), Ez by (rewrite ?(HML v' Hv'), ?Hl; lia). done. }
  destruct (load_indexer_plan e c Hr s Hfi delayed selected f P indexer) as (vs & Hso & Hvs & E).
  { intros k sl H. apply Hix in H as (v & -> & Hv & _). exists v. split; [done|]. by apply HML. } { intros v sl Hin Hv. apply HP. by apply (Hix' v sl). }
  rewrite E. clear E.
  assert (Hv0 : vs <> []). { destruct indexer as [|[k sl] ix]; [done|]. destruct (Hix k sl ltac:(left)) as (v & -> & Hv & Hp). intros ->.
    apply (not_elem_of_nil v), Hvs. split; [by apply HML|]. split; [done|]. exists sl. left. }
  destruct (exec_pseq_tasks (fun v => load_and_apply_indexer c delayed selected (key v, slices_for indexer (key v))) s
    (fun v r => r = Raise ValueError) vs) as (r & E & Hq).
  { intros v Hv. apply Hvs in Hv as (Hlv & Hpv & sl & Hsl). destruct (Hix' v sl Hsl Hlv) as [[old Hv] _]. exists (Raise ValueError). split; [|done].
    destruct (rp_part _ _ _ _ Hs _ _ Hv) as (_ & Hsd & Hh). destruct (open_opens _ s old delayed selected Hsd Hh) as (o & Eo & Ho).
    unfold load_and_apply_indexer. cbn [fst snd]. change (c_dir c ++ map (p_dir (c_part c)) (key v)) with (part_dir c v). setoid_rewrite exec_bind. rewrite Eo. cbn [exec].
    assert (Hs0 : sl ∈ slices_for indexer (key v)). { unfold slices_for. apply elem_of_list_In, in_map_iff. exists (key v, sl). split; [done|]. by apply elem_of_list_In, elem_of_list_filter. }
    destruct (slices_for indexer (key v)) as [|sl1 sls]; [by apply elem_of_nil in Hs0|]. cbn [traverse]. rewrite (C14_isel_unknown o _ (c_dim c)); [done|cbn; left|].
    intros Hd. unfold open_zarr_group in Eo. rewrite exec_bind, exec_get_tree in Eo. cbn [exec] in Eo. injection Eo as Eo. apply (read_dims _ _ _ _ _ Eo) in Hd as (n & w & Hw & Hd).
    destruct Ho as (Hrd & _ & _). apply (reads_vars _ _ _ _ Hrd) in Hw as (Hwa & v1 & Hv1 & ->). apply (Hme v old Hv). exists n, v1. done. }
  destruct vs as [|v1 vs]; [done|]. cbn [map]. rewrite exec_bind. rewrite map_map. cbn [map] in E. rewrite E. destruct r as [out|ex].
  - inversion Hq. done.
  - destruct Hq as (x & _ & [= ->]). done.
Qed.
End Load.
Print Assumptions C34_load.
Print Assumptions C34_missing.
Print Assumptions C34_unmeasured.

(** ** Cases *)

(** The whole partition, when it has several records: its range, and the number
    of its records. *)
Definition X_items (k : Z) : struct := Struct [lit "start"; lit "stop"; lit "label"] (if (k <=? 1)%Z then [] else [[0%Z; k; k]]).
Definition longest : callback struct :=
  Callback false (fun ds _ => match dget (d_vars ds) (lit "time") with Some v => Ok (X_items (Z.of_nat (length (a_flat (v_array v))))) | None => Raise KeyError end).
Lemma longest_call M i v old ds : X_contents M -> M v = Some old -> seen true None (fixed_part X_coll (Some i)) old ds ->
  (v = [1%Z] /\ cb_call longest ds None = Ok (X_items 2)) \/ (v = [2%Z] /\ cb_call longest ds None = Ok (X_items 1)).
Proof.
  intros (p1 & p2 & H1 & H2 & H3 & _ & Ht1 & _ & _ & _ & Ht2 & _) Hv Hsee.
  assert (Hget : forall zs, dget (d_vars old) (lit "time") = Some (X_time zs) -> cb_call longest ds None = Ok (X_items (Z.of_nat (length zs)))).
  { intros zs Hzs. cbn [longest cb_call]. assert (dget (d_vars ds) (lit "time") = Some (with_delayed (stored (X_time zs)) true)) as ->; [|cbn; by rewrite map_length].
    apply (se_vars _ _ _ _ _ Hsee). split; [done|]. exists (X_time zs). split; [by left|done]. }
  destruct (decide (v = [1%Z])) as [->|N1]; [left; split; [done|]; assert (old = p1) as -> by congruence; by rewrite (Hget _ Ht1)|].
  destruct (decide (v = [2%Z])) as [->|N2]; [right; split; [done|]; assert (old = p2) as -> by congruence; by rewrite (Hget _ Ht2)|].
  by rewrite H3 in Hv.
Qed.
Definition T_names : list str := [lit "start"; lit "stop"; lit "label"; lit "pass"].
Lemma T_array k : array_for T_ix T_names (X_items k).
Proof. split; [reflexivity|]. intros l Hl. unfold X_items in *. cbn [s_items s_fields] in *. destruct (k <=? 1)%Z; [by apply elem_of_nil in Hl|]. by apply elem_of_list_singleton in Hl as ->. Qed.
Lemma T_longest M i : X_contents M -> forall v old ds, M v = Some old -> seen true None (fixed_part X_coll (Some i)) old ds ->
  exists a, cb_call longest ds None = Ok a /\ array_for T_ix T_names a.
Proof. intros HM v old ds Hv Hsee. destruct (longest_call M i v old ds HM Hv Hsee) as [[_ E]|[_ E]]; (eexists; split; [exact E|apply T_array]). Qed.
Example C33_case : exists M i s ix file out, represents X_coll M (Some i) s /\ exec (update_index X_env X_coll longest true T_ix None) s = (Ok (ix, file), s) /\
  query ix file [] None None true = Ok out /\ (forall j, covered out [(lit "pass", 1%Z)] j <-> (0 <= j < 2)%Z) /\ forall j, ~ covered out [(lit "pass", 2%Z)] j.
Proof.
  destruct X_filled as (M & i & s & Hs & Hu & HM). pose proof (longest_call M i) as Hcall.
  destruct (C33_update_query X_env X_coll M (Some i) s X_regular Hs Hu X_filterable longest true T_ix None T_names) as (ix & file & out & E & Eq & _ & H1 & _).
  - reflexivity.
  - done.
  - intros n Hn. exact Hn.
  - apply (bool_decide_unpack _). by vm_compute.
  - by intros t [=].
  - by apply T_longest.
  - done.
  - apply (bool_decide_unpack _). by vm_compute.
  - apply (bool_decide_unpack _). by vm_compute.
  - apply (bool_decide_unpack _). by vm_compute.
  - apply (bool_decide_unpack _). by vm_compute.
  - pose proof HM as (p1 & _ & Hp1 & _). exists [1%Z], p1. split; [exact Hp1|]. intros a (ds & Hsee & Ha). destruct (Hcall _ _ _ HM Hp1 Hsee) as [[_ Ec]|[? _]]; [|done].
    rewrite Ec in Ha. injection Ha as <-. done.
  - intros v old a it jt x y x' y' Hv (ds & Hsee & Ha) Hit Hjt V1 V2 V1' V2'.
    destruct (Hcall _ _ _ HM Hv Hsee) as [[_ Ec]|[_ Ec]]; rewrite Ec in Ha; injection Ha as <-; [|by apply elem_of_nil in Hit].
    apply elem_of_list_singleton in Hit as ->, Hjt as ->. vm_compute in V1, V1'. simplify_eq. lia.
  - exists M, i, s, ix, file, out. split; [exact Hs|]. split; [exact E|]. split; [exact Eq|]. destruct HM as (p1 & p2 & Hp1 & Hp2 & HM3). split.
    + intros j. destruct (H1 _ _ Hp1) as (a & (ds & Hsee & Ha) & Hc). destruct (Hcall _ _ _ ltac:(exists p1, p2; done) Hp1 Hsee) as [[_ Ec]|[? _]]; [|done]. rewrite Ec in Ha. injection Ha as <-.
      cbn [X_coll c_part X_part p_keys] in Hc. specialize (Hc j). split.
      * intros Hj. apply Hc in Hj as (it & x & y & Hit & V1 & V2 & Hxy). apply elem_of_list_singleton in Hit as ->. vm_compute in V1, V2. simplify_eq. lia.
      * intros Hj. apply Hc. exists [0; 2; 2]%Z, 0%Z, 2%Z. split; [left|]. split; [reflexivity|]. split; [reflexivity|lia].
    + intros j Hj. destruct (H1 _ _ Hp2) as (a & (ds & Hsee & Ha) & Hc). destruct (Hcall _ _ _ ltac:(exists p1, p2; done) Hp2 Hsee) as [[? _]|[_ Ec]]; [done|]. rewrite Ec in Ha. injection Ha as <-.
      apply Hc in Hj as (it & x & y & Hit & _). by apply elem_of_nil in Hit.
Qed.

(** ** C59: the index after the partitions change *)

(** After an update, the partition for which the function gives nothing and the one
    that is not in the collection still have the rows of the former file, and a query
    gives their slices. *)
Theorem C59_stale_refuted : exists M i s file ix' file' out, represents X_coll M (Some i) s /\ M [7%Z] = None /\
  (exists old, M [2%Z] = Some old /\ forall ds, seen true None (fixed_part X_coll (Some i)) old ds -> cb_call longest ds None = Ok (Struct [lit "start"; lit "stop"; lit "label"] [])) /\
  exec (update_index X_env X_coll longest true T_ix (Some file)) s = (Ok (ix', file'), s) /\ query ix' file' [] None None true = Ok out /\
  covered out [(lit "pass", 2%Z)] 5 /\ covered out [(lit "pass", 7%Z)] 1.
Proof.
  destruct X_filled as (M & i & s & Hs & Hu & HM). pose proof (longest_call M i) as Hcall.
  set (old := T_table [T_row 3 6 1 2; T_row 0 4 1 7]).
  assert (Hcomp : complete old). { split; [apply (bool_decide_unpack _); by vm_compute|]. intros r Hr. unfold old in Hr. cbn [t_rows T_table] in Hr. repeat (apply elem_of_cons in Hr as [->|Hr]; [done|]). by apply elem_of_nil in Hr. }
  destruct (C33_update X_env X_coll M (Some i) s X_regular Hs Hu X_filterable longest true T_ix (Some old) T_names) as (ix & file & E & H1 & H2 & H3).
  - reflexivity.
  - done.
  - intros n Hn. exact Hn.
  - apply (bool_decide_unpack _). by vm_compute.
  - intros t [= <-]. by split.
  - by apply T_longest.
  - pose proof HM as (p1 & p2 & Hp1 & Hp2 & HM3 & _).
    assert (R2 : rows_about file [(lit "pass", 2%Z)] = [T_row 3 6 1 2]).
    { destruct (H1 _ _ Hp2) as (ds & a & Hsee & Ha & _ & Hem). destruct (Hcall _ _ _ HM Hp2 Hsee) as [[? _]|[_ Ec]]; [done|]. rewrite Ec in Ha. injection Ha as <-.
      specialize (Hem eq_refl). cbn [X_coll c_part X_part p_keys zip_with] in Hem. rewrite Hem. vm_compute. reflexivity. }
    assert (R7 : rows_about file [(lit "pass", 7%Z)] = [T_row 0 4 1 7]).
    { rewrite (H2 [(lit "pass", 7%Z)]); [vm_compute; reflexivity|reflexivity|]. intros v Hv Ez. destruct (decide (v = [7%Z])) as [->|Hn].
      - rewrite HM3 in Hv by done. by destruct Hv.
      - destruct v as [|x [|y v]]; [done| |]; cbn [X_coll c_part X_part p_keys zip_with] in Ez; injection Ez as <-; [done|].
        destruct Hv as [d Hv]. destruct (rp_part _ _ _ _ Hs _ _ Hv) as (Hl & _). done. }
    assert (R1 : Forall2 (describes [(lit "pass", 1%Z)] [lit "start"; lit "stop"; lit "label"]) [[0; 2; 2]%Z] (rows_about file [(lit "pass", 1%Z)])).
    { destruct (H1 _ _ Hp1) as (ds & a & Hsee & Ha & Hne & _). destruct (Hcall _ _ _ HM Hp1 Hsee) as [[_ Ec]|[? _]]; [|done]. rewrite Ec in Ha. injection Ha as <-. by apply Hne. }
    destruct file as [t|]; [|discriminate R2].
    assert (Ht : t_names t = T_names /\ complete t /\ ix_keys ix = [lit "pass"] /\ ix_types ix = T_names /\ ix_read ix (Some t) = Ok t).
    { destruct H3 as [[-> Ef]|(t' & [= <-] & ? & ? & ? & ? & ?)]; [|done]. injection Ef as ->. split_and!; try done; apply Hcomp. }
    destruct Ht as (Hn & Hc & Hk & Hty & Hrd).
    assert (Hpk : forall p x, x ∈ t_rows t -> dget x (lit "pass") = Some p -> p = 2%Z \/ p = 7%Z \/ p = 1%Z).
    { intros p x Hx Hp. destruct (decide (p = 1%Z)); [tauto|]. destruct (decide (p = 2%Z)); [tauto|].
      assert (Hxx : x ∈ rows_about (Some t) [(lit "pass", p)]) by (apply elem_of_list_filter; split; [by repeat constructor|done]).
      rewrite (H2 [(lit "pass", p)]) in Hxx.
      - apply elem_of_list_filter in Hxx as [_ Hxx]. unfold old in Hxx. cbn [t_rows T_table] in Hxx.
        repeat (apply elem_of_cons in Hxx as [->|Hxx]); [..|by apply elem_of_nil in Hxx]; vm_compute in Hp; injection Hp as <-; tauto.
      - reflexivity.
      - intros v [d Hd] Ez. destruct (rp_part _ _ _ _ Hs _ _ Hd) as (Hl & _). destruct v as [|y [|? ?]]; [done| |done]. cbn [X_coll c_part X_part p_keys zip_with] in Ez. injection Ez as ->.
        rewrite HM3 in Hd; [done|congruence|congruence]. }
    assert (Hix : indexed ix t).
    { split; [exact Hc|rewrite Hn; apply (bool_decide_unpack _); by vm_compute|rewrite Hn; apply (bool_decide_unpack _); by vm_compute| |by rewrite Hn, Hty].
      rewrite Hk. split; [done|]. split; [apply (bool_decide_unpack _); by vm_compute|]. intros n ->%elem_of_list_singleton. rewrite Hn. split_and!; apply (bool_decide_unpack _); by vm_compute. }
    destruct (C32_query ix (Some t) t [] None None true [lit "pass"] Hix Hrd) as (out & Eq & Hcov & _); [by intros ? ?%elem_of_nil|left|done|by cbn; rewrite Hk| |].
    { intros r r' k a b a' b' Hkk (j & Hj & _) (j' & Hj' & _) Hab Hab' [R R'] [Q Q'] Hlt. apply elem_of_list_lookup_2 in Hj, Hj'.
      destruct k as [|[n p] [|? ?]]; [done| |done]. injection Hkk as ->.
      assert (Hin : r ∈ rows_about (Some t) [(lit "pass", p)]) by (by apply elem_of_list_filter). assert (Hin' : r' ∈ rows_about (Some t) [(lit "pass", p)]) by (by apply elem_of_list_filter).
      assert (Hone : exists x, rows_about (Some t) [(lit "pass", p)] = [x]).
      { assert (dget r (lit "pass") = Some p) as Hp by (by inversion Hab; subst). destruct (Hpk p r Hj Hp) as [->|[->| ->]]; [by eexists|by eexists|].
        inversion R1 as [|? ? ? ? _ Hnil]; subst. inversion Hnil; subst. by eexists. }
      destruct Hone as [x Hx]. rewrite Hx in Hin, Hin'. apply elem_of_list_singleton in Hin as ->, Hin' as ->. rewrite R in Q. injection Q as ->. lia. }
    exists M, i, s, old, ix, (Some t), out. split; [exact Hs|]. split; [by apply HM3|]. split.
    { exists p2. split; [exact Hp2|]. intros ds Hsee. destruct (Hcall _ _ _ HM Hp2 Hsee) as [[? _]|[_ Ec]]; [done|exact Ec]. }
    split; [exact E|]. split; [exact Eq|]. split.
    + apply Hcov; [reflexivity|]. assert (Hin : T_row 3 6 1 2 ∈ rows_about (Some t) [(lit "pass", 2%Z)]) by (rewrite R2; left). apply elem_of_list_filter in Hin as [Hab Hin].
      exists (T_row 3 6 1 2), 3%Z, 6%Z. split; [apply elem_of_list_lookup in Hin as [j Hj]; exists j; split; [done|split; [done|by left]]|]. split; [exact Hab|]. split; [split; reflexivity|lia].
    + apply Hcov; [reflexivity|]. assert (Hin : T_row 0 4 1 7 ∈ rows_about (Some t) [(lit "pass", 7%Z)]) by (rewrite R7; left). apply elem_of_list_filter in Hin as [Hab Hin].
      exists (T_row 0 4 1 7), 0%Z, 4%Z. split; [apply elem_of_list_lookup in Hin as [j Hj]; exists j; split; [done|split; [done|by left]]|]. split; [exact Hab|]. split; [split; reflexivity|lia].
Qed.
Print Assumptions C59_stale_refuted.
(** An index that has been read already does not see the updates made by another
    one. *)
Theorem C59_cached_refuted : exists ix t t', indexed ix t /\ indexed ix t' /\ forall columns op mask only,
  query (Ix (ix_keys ix) (ix_types ix) (Some t)) (Some t') columns op mask only = query (Ix (ix_keys ix) (ix_types ix) (Some t)) (Some t) columns op mask only /\
  query ix (Some t') [] None None true <> query (Ix (ix_keys ix) (ix_types ix) (Some t)) (Some t') [] None None true.
Proof.
  exists T_ix, (T_table [T_row 0 2 1 1]), (T_table [T_row 0 3 1 1]). split_and!.
  - apply T_indexed. intros r Hr. repeat (apply elem_of_cons in Hr as [->|Hr]; [by eexists _, _, _, _|]). by apply elem_of_nil in Hr.
  - apply T_indexed. intros r Hr. repeat (apply elem_of_cons in Hr as [->|Hr]; [by eexists _, _, _, _|]). by apply elem_of_nil in Hr.
  - intros. split; [reflexivity|]. vm_compute. discriminate.
Qed.
Print Assumptions C59_cached_refuted.

(** Two slices of a partition, one of the other. *)
Example C34_case : exists M s r, represents Y_coll M None s /\
  exec (load_indexer X_env Y_coll true NoFilter [([(lit "pass", 2%Z)], (0, 5)%Z); ([(lit "pass", 1%Z)], (1, 2)%Z); ([(lit "pass", 1%Z)], (0, 1)%Z)] None) s = (Ok (Some r), s).
Proof.
  destruct Y_filled as (M & s & Hs & Hu & HM). pose proof HM as (p1 & p2 & H1 & H2 & H3 & _ & Ht1 & _ & _ & _ & Ht2 & _). exists M, s.
  destruct (C34_load X_env Y_coll M None s Y_regular Hs Hu Y_filterable true None NoFilter (fun _ => True)
    [([(lit "pass", 2%Z)], (0, 5)%Z); ([(lit "pass", 1%Z)], (1, 2)%Z); ([(lit "pass", 1%Z)], (0, 1)%Z)]) as (vs & r & _ & Hin & E & Hr).
  - intros k sl Hk. repeat (apply elem_of_cons in Hk as [[= -> ->]|Hk]); [..|by apply elem_of_nil in Hk];
      (split; [cbn; lia|]); [exists [2%Z]|exists [1%Z]|exists [1%Z]]; (split; [reflexivity|by eexists]).
  - done.
  - intros v old Hv _. destruct (decide (v = [1%Z])) as [->|N1].
    + assert (old = p1) as -> by congruence. exists (lit "time"), (X_time [10; 20]%Z). split; [done|]. split; [done|]. left.
    + destruct (decide (v = [2%Z])) as [->|N2]; [|by rewrite H3 in Hv]. assert (old = p2) as -> by congruence. exists (lit "time"), (X_time [30]%Z). split; [done|]. split; [done|]. left.
  - destruct r as [out|]; [by exists out|]. exfalso. subst vs. apply (not_elem_of_nil [1%Z]), Hin. split; [by eexists|]. split; [done|]. exists (1, 2)%Z. right. left.
Qed.
