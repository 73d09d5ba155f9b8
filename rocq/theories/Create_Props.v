(** * Properties of creations that are interrupted or made at the same time *)
From Verif Require Import Py Dict NdArray_Model Dataset_Model Dataset_Spec Meta_Model PartPath_Model PartPath_Proofs
  FS_Model FS_Proofs Pool_Model Pool_Proofs Storage_Model Storage_Spec Storage_Proofs
  Listing_Model Listing_Spec Collection_Model Collection_Spec Collection_Proofs Collection_State Collection_Select Collection_Create
  Collection_Example Collection_Props Crash_Spec Collection_Crash Crash_Props Update_Spec Update_Proofs Variable_Crash Validate_Props Reopen_Props Together_Props.

(** What is asked for: the axis, the dataset and the partitioning. *)
Definition request : Type := str * dataset * partitioning.
Definition create (d : path) (r : request) : program collection := create_collection r.1.1 r.1.2 r.2 d.
(** The call would create a collection in [s] if it were alone. *)
Definition creates (d : path) (s : store) (r : request) (c : collection) : Prop := (exec (create d r) s).1 = Ok c.

Section creation.
Local Opaque CONFIG.
Context (d : path).
Local Notation config := (d ++ [CONFIG]).

(** The program of a call, at its three operations. *)
Lemma creates_shape s r c : creates d s r c -> nothing_at d s /\ c_dir c = d /\
  create d r = let! x <- exists_path d; if x then praise ValueError else let! _ <- write_config c true; pret c.
Proof.
  unfold creates, create, create_collection. rewrite exec_bind, exec_exists. destruct (empty_at d s) eqn:Ee; [|done]. cbn [negb].
  apply nothing_empty in Ee. destruct (new_collection r.1.1 (ds_metadata r.1.2) r.2 d (Some (lit "w"))) as [c0|] eqn:En.
  2: { unfold make_collection. rewrite exec_bind, En. done. }
  pose proof (new_collection_ok _ _ _ _ _ _ En) as (_ & _ & _ & Ed & _ & _ & _ & Hro).
  assert (Hw : c_readonly c0 = false). { destruct (c_readonly c0) eqn:Er; [|done]. exfalso. by apply proj1 in Hro; specialize (Hro eq_refl). }
  assert (make_collection r.1.1 (ds_metadata r.1.2) r.2 d (Some (lit "w")) = let! _ <- write_config c0 true; pret c0) as ->.
  { unfold make_collection. rewrite En. cbn [pbind]. by rewrite Hw. }
  rewrite exec_bind. unfold write_config. rewrite exec_bind, exec_exists, Ed.
  rewrite (proj1 (nothing_empty config s)) by (intros q (t & ->); apply Ee; rewrite <-app_assoc; apply under_app).
  cbn [negb andb]. rewrite exec_write. cbn [exec pret]. intros [= <-]. split; [done|]. split; [done|]. by rewrite Ed.
Qed.

(** ** C98: a creation that is interrupted is not taken for a collection *)

(** Wherever the creation is stopped, nothing was done, or it is complete, or the
    only change is an incomplete configuration, and the directory cannot be
    opened. *)
Theorem C98_stopped s r c u : creates d s r c -> stopped_at (create d r) s u ->
  u = s \/ u = (exec (create d r) s).2 \/
  (forall q, q <> config -> u !! q = s !! q) /\ forall reg mode, exec (open_collection reg d mode) u = (Raise ValueError, u).
Proof.
  intros Hc [p' H]. destruct (creates_shape s r c Hc) as (Hno & Ed & E).
  assert (Ee : empty_at d s = true) by (by apply nothing_empty).
  assert (Ec : empty_at config s = true) by (apply nothing_empty; intros q (t & ->); apply Hno; rewrite <-app_assoc; apply under_app).
  assert (Ex : (exec (create d r) s).2 = <[config := CConf (config_of c)]> s).
  { rewrite E, exec_bind, exec_exists, Ee. cbn [negb]. rewrite exec_bind. unfold write_config. rewrite exec_bind, exec_exists, Ed, Ec. done. }
  rewrite Ex.
  assert (Ha : always CTorn (fun u => u = s \/ u = <[config := CTorn]> s \/ u = <[config := CConf (config_of c)]> s) (create d r) s).
  { rewrite E. unfold empty_at in Ee, Ec. cbn. split; [by left|]. split; [done|]. rewrite Ee. cbn. unfold write_config. rewrite Ed. cbn. split; [by left|]. split; [done|]. rewrite Ec. cbn.
    split; [by left|]. split; [by right; left|]. split; [|done]. right. by right. }
  pose proof (always_sound CTorn _ _ p' s u Ha H) as Hu. cbn beta in Hu. destruct Hu as [->|[->| ->]]; [by left| |by right; left].
  right. right. split.
  - intros q Nq. by apply lookup_insert_ne.
  - intros reg mode. apply C64_absent. right. apply lookup_insert.
Qed.

(** ** C99: a creation that was interrupted can be made again *)

(** The claim is false of the code: every creation may be stopped while it writes
    the configuration; nothing but this file is there, the directory cannot be
    opened, and no collection can be created there. *)
Theorem C99_again_refuted s r c : creates d s r c -> exists u, stopped_at (create d r) s u /\
  (forall q, q <> config -> u !! q = s !! q) /\
  (forall reg mode, exec (open_collection reg d mode) u = (Raise ValueError, u)) /\ forall r', exec (create d r') u = (Raise ValueError, u).
Proof.
  intros Hc. destruct (creates_shape s r c Hc) as (Hno & Ed & E).
  assert (Ee : empty_at d s = true) by (by apply nothing_empty).
  assert (Ec : empty_at config s = true) by (apply nothing_empty; intros q (t & ->); apply Hno; rewrite <-app_assoc; apply under_app).
  exists (<[config := CTorn]> s). split; [|split; [|split]].
  - rewrite E. eapply stopped_then; [apply exec_exists|]. rewrite Ee. cbn [negb]. eapply stopped_first. unfold write_config. eapply stopped_then; [apply exec_exists|].
    rewrite Ed, Ec. cbn [negb andb]. eexists. eapply rtc_l; [|apply rtc_refl]. unfold write_file. apply step_tear.
  - intros q Nq. by apply lookup_insert_ne.
  - intros reg mode. apply C64_absent. right. apply lookup_insert.
  - intros r'. unfold create, create_collection. rewrite exec_bind, exec_exists. destruct (empty_at d (<[config := CTorn]> s)) eqn:X; [|done].
    apply nothing_empty in X. specialize (X config (under_app _ _)). by rewrite lookup_insert in X.
Qed.

(** ** C100: creations made at the same time *)

(** Where a call that creates [c] is. *)
Definition at_begin c : program collection := let! x <- exists_path d; if x then praise ValueError else let! _ <- write_config c true; pret c.
Definition at_check c : program collection := let! _ <- write_config c true; pret c.
Definition at_write c : program collection := let! _ <- write_file config (CConf (config_of c)); pret c.
Inductive stage c : program collection -> Prop :=
  | stage_begin : stage c (at_begin c)
  | stage_check : stage c (at_check c)
  | stage_write : stage c (at_write c)
  | stage_ok : stage c (Ret (Ok c))
  | stage_no : stage c (Ret (Raise ValueError)).
Definition reached (s : store) (cs : list collection) (ps : list (program collection)) (u : store) : Prop :=
  Forall2 stage cs ps /\
  (u = s /\ (forall i r, ps !! i <> Some (Ret r)) \/
   u = <[config := CTorn]> s /\ (exists i c, ps !! i = Some (at_write c)) \/
   exists i c, u = <[config := CConf (config_of c)]> s /\ ps !! i = Some (Ret (Ok c))).

Lemma step_begin c u p' u' : step CTorn (at_begin c, u) (p', u') -> u' = u /\ p' = if empty_at d u then at_check c else Ret (Raise ValueError).
Proof.
  unfold at_begin. cbn. intros H. inversion H; subst. cbn. split; [done|]. unfold empty_at. destruct (bool_decide _); done.
Qed.
Lemma step_check c u p' u' : c_dir c = d -> step CTorn (at_check c, u) (p', u') -> u' = u /\ p' = if empty_at config u then at_write c else Ret (Ok c).
Proof.
  unfold at_check, write_config. intros ->. cbn. intros H. inversion H; subst. cbn. split; [done|]. unfold empty_at. destruct (bool_decide _); done.
Qed.
Lemma step_write c u p' u' : step CTorn (at_write c, u) (p', u') ->
  (u' = <[config := CConf (config_of c)]> u /\ p' = Ret (Ok c)) \/ (u' = <[config := CTorn]> u /\ p' = at_write c).
Proof. unfold at_write. cbn. intros H. inversion H; subst; cbn; auto. Qed.

Lemma reached_step s cs ps u ps' u' : nothing_at d s -> Forall (fun c => c_dir c = d) cs ->
  reached s cs ps u -> pool_step CTorn (ps, u) (ps', u') -> reached s cs ps' u'.
Proof.
  intros Hno Hd [H2 Hu] Hstep. inversion Hstep as [ps0 i p p' s0 s' Hi Hs]; subst. clear Hstep.
  destruct (Forall2_lookup_r _ _ _ _ _ H2 Hi) as (c & Hci & Hst).
  assert (Ed : c_dir c = d) by (rewrite Forall_lookup in Hd; exact (Hd _ _ Hci)).
  assert (Hup : forall q, stage c q -> Forall2 stage cs (<[i := q]> ps)).
  { intros q Hq. rewrite <-(list_insert_id cs i c Hci). by apply Forall2_insert. }
  assert (Hlt : i < length ps) by (by eapply lookup_lt_Some).
  assert (Hpath : forall x, empty_at d (<[config := x]> s) = false).
  { intros x. destruct (empty_at d _) eqn:X; [|done]. apply nothing_empty in X. specialize (X config (under_app _ _)). by rewrite lookup_insert in X. }
  assert (Hpathc : forall x, empty_at config (<[config := x]> s) = false).
  { intros x. destruct (empty_at config _) eqn:X; [|done]. apply nothing_empty in X. specialize (X config (under_refl _)). by rewrite lookup_insert in X. }
  destruct Hst.
  - apply step_begin in Hs as [-> ->]. destruct (empty_at d u) eqn:Ee.
    + split; [apply Hup; constructor|].
      destruct Hu as [[-> Hn]|[[-> _]|(j & c' & -> & _)]]; [|by rewrite Hpath in Ee..].
      left. split; [done|]. intros j r. destruct (decide (i = j)) as [<-|N]; [rewrite list_lookup_insert by done; discriminate|rewrite list_lookup_insert_ne by done; apply Hn].
    + split; [apply Hup; constructor|]. right. destruct Hu as [[-> _]|[(-> & j & c' & Hj)|(j & c' & -> & Hj)]].
      * apply nothing_empty in Hno. congruence.
      * left. split; [done|]. exists j, c'. rewrite list_lookup_insert_ne; [done|]. intros <-. rewrite Hi in Hj. discriminate Hj.
      * right. exists j, c'. split; [done|]. rewrite list_lookup_insert_ne; [done|]. intros <-. rewrite Hi in Hj. discriminate Hj.
  - apply step_check in Hs as [-> ->]; [|done]. destruct (empty_at config u) eqn:Ee.
    + split; [apply Hup; constructor|].
      destruct Hu as [[-> Hn]|[[-> _]|(j & c' & -> & _)]]; [|by rewrite Hpathc in Ee..].
      left. split; [done|]. intros j r. destruct (decide (i = j)) as [<-|N]; [rewrite list_lookup_insert by done; discriminate|rewrite list_lookup_insert_ne by done; apply Hn].
    + split; [apply Hup; constructor|]. right. destruct Hu as [[-> _]|[(-> & j & c' & Hj)|(j & c' & -> & Hj)]].
      * assert (empty_at config s = true); [|congruence]. apply nothing_empty. intros q (t & ->). apply Hno. rewrite <-app_assoc. apply under_app.
      * left. split; [done|]. exists j, c'. rewrite list_lookup_insert_ne; [done|]. intros <-. rewrite Hi in Hj. unfold at_check, write_config in Hj. rewrite Ed in Hj. discriminate Hj.
      * right. exists j, c'. split; [done|]. rewrite list_lookup_insert_ne; [done|]. intros <-. rewrite Hi in Hj. discriminate Hj.
  - assert (Hb : exists x, u = <[config := x]> s \/ u = s) by (destruct Hu as [[-> _]|[(-> & _)|(j & c' & -> & _)]]; [by exists CTorn; right|eexists; by left..]).
    assert (Hins : forall y, <[config := y]> u = <[config := y]> s) by (intros y; destruct Hb as (x & [->| ->]); [apply insert_insert|done]).
    apply step_write in Hs as [[-> ->]|[-> ->]]; (split; [apply Hup; constructor|]); right.
    + right. exists i, c. split; [apply Hins|]. by apply list_lookup_insert.
    + left. split; [apply Hins|]. exists i, c. by apply list_lookup_insert.
  - inversion Hs.
  - inversion Hs.
Qed.

(** However many processes create a collection in the same place, whatever each
    asks for and whatever the order of their operations: each call returns the
    collection it asked for or raises ValueError, at least one returns, and the
    files are those of one of the calls that returned, made alone. *)
Theorem C100_together s rqs cs rs s' : rqs <> [] -> Forall2 (creates d s) rqs cs ->
  rtc (pool_step CTorn) (map (create d) rqs, s) (map Ret rs, s') ->
  Forall2 (fun c r => r = Ok c \/ r = Raise ValueError) cs rs /\
  exists i rq, rqs !! i = Some rq /\ rs !! i = Some (exec (create d rq) s).1 /\ s' = (exec (create d rq) s).2.
Proof.
  intros Hne Hc H.
  assert (Hno : nothing_at d s). { destruct Hc as [|r c rqs cs Hc _]; [done|]. by apply creates_shape in Hc as (? & _). }
  assert (Hd : Forall (fun c => c_dir c = d) cs). { clear -Hc. induction Hc as [|r c rqs cs Hc _ IH]; constructor; [|done]. by apply creates_shape in Hc as (_ & ? & _). }
  assert (H0 : reached s cs (map (create d) rqs) s).
  { split.
    - clear -Hc. induction Hc as [|r c rqs cs Hc _ IH]; cbn [map]; constructor; [|done]. apply creates_shape in Hc as (_ & _ & ->). constructor.
    - left. split; [done|]. intros i r Hi. change (map (create d) rqs) with (create d <$> rqs) in Hi. rewrite list_lookup_fmap in Hi. destruct (rqs !! i); [|done]. discriminate Hi. }
  assert (H1 : reached s cs (map Ret rs) s').
  { revert H H0. generalize (map (create d) rqs) as ps, (map (@Ret content collection) rs) as qs. intros ps qs H H0.
    remember (ps, s) as a eqn:Ea. remember (qs, s') as b eqn:Eb. assert (Hinv : forall u0, a = (ps, u0) -> reached s cs a.1 a.2) by (intros u0 _; subst a; exact H0).
    assert (Hi : reached s cs a.1 a.2) by (subst a; exact H0). clear Hinv Ea H0. subst b. remember (qs, s') as b eqn:Eb.
    induction H as [x|x y z Hxy Hyz IH]; [by subst x|]. apply IH; [done|]. destruct x as [ps1 u1], y as [ps2 u2]. by eapply reached_step. }
  clear H0 H. destruct H1 as [H2 Hu]. split.
  - clear -H2. revert cs H2. induction rs as [|r rs IH]; intros cs H2; inversion H2; subst; constructor; [|by apply IH].
    match goal with H : stage _ (Ret _) |- _ => inversion H; subst end; auto; discriminate.
  - assert (Hlen : length cs = length rs) by (rewrite (Forall2_length _ _ _ H2); apply map_length).
    assert (Hlk : forall i (x : program collection), map Ret rs !! i = Some x -> exists r : res collection, rs !! i = Some r /\ x = Ret r).
    { intros i x. change (map (@Ret content collection) rs) with (@Ret content collection <$> rs). rewrite list_lookup_fmap. destruct (rs !! i) as [r|] eqn:E; [|done]. intros [= <-]. by exists r. }
    destruct Hu as [[-> Hn]|[(-> & j & c' & Hj)|(j & c' & -> & Hj)]].
    + exfalso. destruct Hc as [|r c rqs cs Hc Hcs]; [done|]. destruct rs as [|r0 rs]; [done|]. exact (Hn 0 r0 eq_refl).
    + apply Hlk in Hj as (r & _ & X). discriminate X.
    + pose proof Hj as Hj'. apply Hlk in Hj as (r & Hr & [= <-]). destruct (Forall2_lookup_r _ _ _ _ _ H2 Hj') as (c & Hcj & Hst).
      assert (c = c') as -> by (inversion Hst; done). destruct (Forall2_lookup_r _ _ _ _ _ Hc Hcj) as (rq & Hrq & Hcr). exists j, rq. split; [done|].
      pose proof Hcr as Hcr'. unfold creates in Hcr. rewrite Hcr. split; [done|]. apply creates_shape in Hcr' as (_ & Ed & ->).
      rewrite exec_bind, exec_exists, (proj1 (nothing_empty d s) Hno). cbn [negb]. rewrite exec_bind. unfold write_config. rewrite exec_bind, exec_exists, Ed.
      rewrite (proj1 (nothing_empty config s)) by (intros q (t & ->); apply Hno; rewrite <-app_assoc; apply under_app). done.
Qed.

(** ** C101: a collection is created once *)

(** The claim is false of the code: of any two processes that create a collection
    in the same place, both may return, and the configuration is that of the
    second: the first has a collection that is not the one stored. *)
Theorem C101_once_refuted s r1 r2 c1 c2 : creates d s r1 c1 -> creates d s r2 c2 ->
  exists s', rtc (pool_step CTorn) ([create d r1; create d r2], s) (map Ret [Ok c1; Ok c2], s') /\ s' !! config = Some (CConf (config_of c2)).
Proof.
  intros H1 H2. destruct (creates_shape _ _ _ H1) as (Hno & Ed1 & E1), (creates_shape _ _ _ H2) as (_ & Ed2 & E2).
  assert (Ee : empty_at d s = true) by (by apply nothing_empty).
  assert (Ec : empty_at config s = true) by (apply nothing_empty; intros q (t & ->); apply Hno; rewrite <-app_assoc; apply under_app).
  assert (Hb : forall c, c_dir c = d -> rtc (step CTorn) (at_begin c, s) (at_write c, s)).
  { intros c Ed. eapply rtc_l; [apply step_do|]. cbn. unfold empty_at in Ee, Ec. rewrite Ee. cbn. unfold write_config. rewrite Ed. cbn.
    eapply rtc_l; [apply step_do|]. cbn. rewrite Ec. cbn. apply rtc_refl. }
  rewrite E2. fold (at_begin c2).
  assert (Ex : exec (create d r1) s = (Ok c1, (exec (create d r1) s).2)) by (unfold creates in H1; rewrite <-H1; apply surjective_pairing).
  eexists. split; [exact (pool_between _ _ _ _ _ _ _ (Hb c2 Ed2) Ex)|]. cbn. apply lookup_insert.
Qed.
End creation.
Print Assumptions C98_stopped.
Print Assumptions C99_again_refuted.
Print Assumptions C100_together.
Print Assumptions C101_once_refuted.

(** Two processes ask for collections with different axes in the same place. *)
Definition Z_requests : list request := [(lit "time", X_ds, X_part); (lit "pass", X_ds, X_part)].
Definition Z_coll : collection := Coll (lit "pass") (ds_metadata X_ds) X_part X_dir (lit "time") true false.
Example C98_case : Forall2 (creates X_dir ∅) Z_requests [X_coll; Z_coll].
Proof.
  constructor; [|constructor; [|constructor]].
  - unfold creates, create. cbn [fst snd]. rewrite X_create. reflexivity.
  - unfold creates. vm_compute. reflexivity.
Qed.
Example C101_case : exists s', rtc (pool_step CTorn) (map (create X_dir) Z_requests, ∅) (map Ret [Ok X_coll; Ok Z_coll], s') /\
  s' !! (X_dir ++ [CONFIG]) = Some (CConf (config_of Z_coll)) /\ config_of X_coll <> config_of Z_coll.
Proof.
  pose proof C98_case as H. inversion H as [|? ? ? ? H1 Hr]; subst. inversion Hr as [|? ? ? ? H2 _]; subst.
  destruct (C101_once_refuted X_dir ∅ _ _ _ _ H1 H2) as (s' & Hs & Hc). exists s'. split; [exact Hs|]. split; [exact Hc|]. intros [= X]; discriminate X.
Qed.
