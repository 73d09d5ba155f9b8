(** * Encoding and decoding of dates *)
From Verif Require Import Py Calendar_Model Calendar_Spec Calendar_Proofs Calendar_Fields.
From Verif Require Import PartPath_Model PartPath_Numbers PartPath_Proofs.
Local Open Scope Z_scope.

Lemma dfc_day y m d : days_from_civil y m d = days_from_civil y m 1 + (d - 1).
Proof. unfold days_from_civil, day_of_year. cbv zeta. destruct (m <=? 2), (2 <? m); lia. Qed.

Lemma days_of_month_spec y m : 1 <= m <= 12 -> days_of_month y m = days_in_month y m.
Proof.
  intros Hm. unfold days_of_month.
  pose proof (dim_pos y m) as Hp.
  assert (Hv : valid_date y m (days_in_month y m)) by (unfold valid_date; lia).
  pose proof (civil_of_days_from_civil _ _ _ Hv) as E.
  pose proof (civil_from_days_good _ _ _ _ E) as (_ & _ & Hn).
  unfold next_day in Hn. rewrite (proj2 (Z.ltb_ge (days_in_month y m) _)) in Hn by lia.
  destruct (Z.eqb_spec m 12) as [->|Hm12].
  - rewrite (proj2 (Z.ltb_ge 12 12)) in Hn by lia.
    apply civil_from_days_good in Hn as (_ & -> & _). rewrite dfc_day. lia.
  - rewrite (proj2 (Z.ltb_lt m 12)) in Hn by lia.
    apply civil_from_days_good in Hn as (_ & -> & _). rewrite dfc_day. lia.
Qed.

Lemma fixed_digits_show n z rest :
  length (show_02d z) = n -> 0 <= z -> fixed_digits n (show_02d z ++ rest) = Some (z, rest).
Proof.
  intros Hl Hz. unfold fixed_digits. rewrite app_length.
  rewrite (proj2 (Nat.leb_le _ _)) by lia.
  rewrite <-Hl. rewrite take_app, drop_app. by rewrite show_02d_val.
Qed.

Lemma field2_show lo hi v rest :
  lo <= v <= hi -> 0 <= v < 100 -> field2 lo hi (show_02d v ++ rest) = Ok (v, rest).
Proof.
  intros H1 H2. unfold field2. rewrite fixed_digits_show by (try apply show_02d_len2; lia).
  rewrite (proj2 (Z.leb_le lo v)), (proj2 (Z.leb_le v hi)) by lia. done.
Qed.

Lemma after_same c s : after c (c :: s) = Some s.
Proof. unfold after. by rewrite decide_True. Qed.

Lemma removelast_snoc {A} (l : list A) x : removelast (l ++ [x]) = l.
Proof. by rewrite removelast_app, app_nil_r. Qed.

Lemma last_show v : exists c, last (show_02d v) = Some c /\ num_char c.
Proof.
  pose proof (show_02d_chars v) as Hc.
  destruct (last (show_02d v)) as [c|] eqn:E.
  - exists c. split; [done|]. rewrite Forall_forall in Hc. apply Hc. by apply last_Some_elem_of.
  - apply last_None in E. exfalso.
    unfold show_02d in E. destruct (_ && _); [done|]. unfold show_Z in E.
    destruct (Z.ltb_spec v 0); [done|].
    destruct (show_nonneg_nonempty v ltac:(lia)) as (? & ? & E' & _). by rewrite E' in E.
Qed.

(** The string of a partition: values separated by the separators. *)
Fixpoint date_text (l : list (Z * ascii)) : str :=
  match l with
  | [] => []
  | [(v, _)] => show_02d v
  | (v, c) :: l => show_02d v ++ c :: date_text l
  end.

Lemma concat_date_text l v c :
  concat (map (fun vc => show_02d vc.1 ++ [vc.2]) (l ++ [(v, c)])) = date_text (l ++ [(v, c)]) ++ [c].
Proof.
  induction l as [|[v' c'] l IH].
  - cbn. by rewrite app_nil_r.
  - cbn [app map concat fst snd]. rewrite IH.
    assert (Hd : date_text ((v', c') :: l ++ [(v, c)]) = show_02d v' ++ c' :: date_text (l ++ [(v, c)])).
    { destruct l as [|[??] ?]; done. }
    rewrite Hd. rewrite <-!app_assoc. done.
Qed.

Lemma stringify_text l vs :
  Forall2 (fun (kv : str * Z) (vc : Z * ascii) => dget SEPARATORS kv.1 = Some vc.2 /\ kv.2 = vc.1) l vs ->
  l <> [] -> stringify l = Ok (date_text vs).
Proof.
  intros HF Hne. unfold stringify.
  assert (Ht : traverse (fun kv : str * Z => match dget SEPARATORS kv.1 with
                        | Some c => Ok (show_02d kv.2 ++ [c])
                        | None => Raise KeyError end) l = Ok (map (fun vc => show_02d vc.1 ++ [vc.2]) vs)).
  { apply traverse_ok. clear Hne. induction HF as [|[k v] [v' c] l vs [H1 H2] HF IH]; [constructor|].
    constructor; [|exact IH]. cbn in *. by rewrite H1, H2. }
  rewrite Ht. cbn [rbind].
  assert (Hvs : exists vs' v c, vs = vs' ++ [(v, c)] /\ exists k, dget SEPARATORS k = Some c).
  { destruct (exists_last (l := vs)) as (vs' & [v c] & Hvs).
    - intros ->. by inversion HF; subst.
    - exists vs', v, c. split; [done|]. subst vs.
      apply Forall2_app_inv_r in HF as (l1 & l2 & _ & HF & ->).
      inversion HF as [|[k ?] ??? [Hk _]]; subst. eauto. }
  destruct Hvs as (vs' & v & c & -> & k & Hk).
  rewrite concat_date_text, last_snoc.
  assert (Hm : memb c (map snd SEPARATORS) = true).
  { unfold memb. apply bool_decide_eq_true_2.
    cbn [dget SEPARATORS] in Hk.
    repeat match type of Hk with context [decide ?x] => destruct (decide x) end;
      try done; injection Hk as <-; cbn; set_solver. }
  rewrite Hm. by rewrite removelast_snoc.
Qed.

Lemma date_encode_spec r secs y m d h mi s :
  has_fields secs [y; m; d; h; mi; s] -> 1000 <= y <= 9999 ->
  date_encode (take (dres_index r + 1) (zip UNITS [y; m; d; h; mi; s])) = Ok (r, trunc_seconds r secs).
Proof.
  intros (y' & m' & d' & h' & mi' & s' & Ef & E & Hh & Hmi & Hs & Hsecs) Hy.
  symmetry in Ef. injection Ef as -> -> -> -> -> ->.
  pose proof (civil_from_days_good _ _ _ _ E) as ([Hm Hd] & Hz & _).
  pose proof (days_in_month_le y m).
  assert (Hh3 : secs / 3600 = secs / 86400 * 24 + h)
    by (symmetry; apply (Z.div_unique _ _ _ (mi * 60 + s)); lia).
  assert (Hm6 : secs / 60 = (secs / 86400 * 24 + h) * 60 + mi)
    by (symmetry; apply (Z.div_unique _ _ _ s); lia).
  assert (HU : UNITS = [lit "year"; lit "month"; lit "day"; lit "hour"; lit "minute"; lit "second"]) by done.
  unfold date_encode. rewrite HU.
  assert (Hst : forall i, (i <= 5)%nat ->
    stringify (take (i + 1) (zip [lit "year"; lit "month"; lit "day"; lit "hour"; lit "minute"; lit "second"]
        [y; m; d; h; mi; s])) =
    Ok (date_text (take (i + 1) [(y, "-"%char); (m, "-"%char); (d, "T"%char); (h, ":"%char); (mi, ":"%char); (s, "."%char)]))).
  { intros i Hi. apply stringify_text; [|by destruct i].
    apply Forall2_take. repeat (constructor; [split; [vm_compute; reflexivity|reflexivity]|]). constructor. }
  rewrite Hst by (destruct r; cbn; lia). cbn [rbind].
  assert (F4 : forall rest, fixed_digits 4 (show_02d y ++ rest) = Some (y, rest)).
  { intros. apply fixed_digits_show; [apply show_02d_len4; lia|lia]. }
  assert (F4' : fixed_digits 4 (show_02d y) = Some (y, [])).
  { rewrite <-(app_nil_r (show_02d y)). apply F4. }
  assert (Fl : forall lo hi v, lo <= v <= hi -> 0 <= v < 100 -> field2 lo hi (show_02d v) = Ok (v, [])).
  { intros lo hi v ??. rewrite <-(app_nil_r (show_02d v)). by apply field2_show. }
  pose proof (days_of_month_spec y m Hm) as Hdim.
  destruct r; cbn [dres_index Nat.add take date_text]; unfold np_datetime64, trunc_seconds; cbv zeta.
  - rewrite F4'. rewrite E. done.
  - rewrite F4. rewrite after_same. rewrite Fl by lia. cbn [rbind]. rewrite E. done.
  - rewrite F4. rewrite after_same. rewrite field2_show by lia. cbn [rbind].
    rewrite after_same. rewrite Fl by lia. cbn [rbind]. by rewrite Hz.
  - rewrite F4. rewrite after_same. rewrite field2_show by lia. cbn [rbind].
    rewrite after_same. rewrite field2_show by lia. cbn [rbind].
    rewrite after_same. rewrite Fl by lia. cbn [rbind]. rewrite Hz, Hh3. done.
  - rewrite F4. rewrite after_same. rewrite field2_show by lia. cbn [rbind].
    rewrite after_same. rewrite field2_show by lia. cbn [rbind].
    rewrite after_same. rewrite field2_show by lia. cbn [rbind].
    rewrite after_same. rewrite Fl by lia. cbn [rbind]. rewrite Hz, Hm6. done.
  - rewrite F4. rewrite after_same. rewrite field2_show by lia. cbn [rbind].
    rewrite after_same. rewrite field2_show by lia. cbn [rbind].
    rewrite after_same. rewrite field2_show by lia. cbn [rbind].
    rewrite after_same. rewrite field2_show by lia. cbn [rbind].
    rewrite after_same. rewrite Fl by lia. cbn [rbind]. rewrite Hz. f_equal. f_equal. lia.
Qed.

(** The fields of the first second of the unit containing an instant are, down
    to the resolution, those of the instant. *)
Lemma unit_start_fields r secs f g :
  has_fields secs f -> has_fields (unit_start r (trunc_seconds r secs)) g ->
  take (dres_index r + 1) g = take (dres_index r + 1) f.
Proof.
  intros Hf Hg. apply (trunc_seconds_fields r _ _ _ _ Hg Hf). by rewrite trunc_unit_start.
Qed.

Lemma take_zip {A B} n (l : list A) (k : list B) : take n (zip l k) = zip l (take n k).
Proof.
  revert l k; induction n as [|n IH]; intros l k; cbn [take].
  - by destruct l.
  - destruct l as [|a l], k as [|b k]; try done. cbn [zip zip_with take]. f_equal. apply IH.
Qed.
Lemma take_zip_with {A B C} (h : A -> B -> C) n (l : list A) (k : list B) :
  take n (zip_with h l k) = zip_with h l (take n k).
Proof.
  revert l k; induction n as [|n IH]; intros l k; cbn [take].
  - by destruct l.
  - destruct l as [|a l], k as [|b k]; try done. cbn [zip_with take]. f_equal. apply IH.
Qed.

Lemma unit_start_year_field r secs y f g :
  has_fields secs (y :: f) -> has_fields (unit_start r (trunc_seconds r secs)) g ->
  exists g', g = y :: g'.
Proof.
  intros Hf Hg. pose proof (unit_start_fields _ _ _ _ Hf Hg) as H.
  rewrite Nat.add_1_r in H. destruct g as [|y' g]; [done|]. cbn [take] in H.
  injection H as -> _. eauto.
Qed.

Lemma datetime_fields_unit r secs y f :
  has_fields secs (y :: f) -> 1 <= y <= 9999 ->
  exists g, datetime_fields (unit_start r (trunc_seconds r secs)) = Ok g /\
    take (dres_index r + 1) g = take (dres_index r + 1) (y :: f).
Proof.
  intros Hf Hy. destruct (has_fields_total (unit_start r (trunc_seconds r secs))) as [g Hg].
  exists g. split; [|by apply (unit_start_fields _ _ _ _ Hf)].
  apply datetime_fields_spec. split; [done|].
  destruct (unit_start_year_field _ _ _ _ _ Hf Hg) as [g' ->]. eauto.
Qed.

Lemma date_decode_spec r secs y f :
  has_fields secs (y :: f) -> 1 <= y <= 9999 ->
  date_decode r r (trunc_seconds r secs) = Ok (take (dres_index r + 1) (zip UNITS (y :: f))).
Proof.
  intros Hf Hy. destruct (datetime_fields_unit r _ _ _ Hf Hy) as (g & Hg & Ht).
  unfold date_decode. rewrite Hg. cbn [rbind]. by rewrite !take_zip, Ht.
Qed.

Lemma date_partition_spec r secs y f :
  has_fields secs (y :: f) -> 1 <= y <= 9999 ->
  date_partition r (trunc_seconds r secs) =
  Ok (take (dres_index r + 1) (zip_with (fun u v => u ++ lit "=" ++ show_02d v) UNITS (y :: f))).
Proof.
  intros Hf Hy. destruct (datetime_fields_unit r _ _ _ Hf Hy) as (g & Hg & Ht).
  unfold date_partition. rewrite Hg. cbn [rbind]. by rewrite !take_zip_with, Ht.
Qed.
