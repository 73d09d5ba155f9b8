(** * Truncation of instants and fields of dates *)
From Verif Require Import Py Calendar_Model Calendar_Spec Calendar_Proofs.
Local Open Scope Z_scope.

Lemma civil_epoch : civil_from_days 0 = (1970, 1, 1).
Proof. vm_compute. reflexivity. Qed.

Lemma civil_next z : civil_from_days (z + 1) = next_day (civil_from_days z).
Proof.
  destruct (civil_from_days z) as [[y m] d] eqn:E.
  by apply civil_from_days_good in E as (_ & _ & ?).
Qed.

Lemma civil_valid z y m d : civil_from_days z = (y, m, d) -> valid_date y m d.
Proof. intros E. by apply civil_from_days_good in E as (? & _ & _). Qed.

Lemma dim_pos y m : 28 <= days_in_month y m.
Proof.
  unfold days_in_month. destruct (leap y);
  repeat match goal with |- context [match ?x with _ => _ end] => destruct x end; lia.
Qed.

Lemma first_valid y m : 1 <= m <= 12 -> valid_date y m 1.
Proof. intros. pose proof (dim_pos y m). unfold valid_date. lia. Qed.

(** A day is at or after the date [y0-m0-1] iff its own date is. *)
Lemma days_from_civil_le z y m d y0 m0 :
  civil_from_days z = (y, m, d) -> 1 <= m0 <= 12 ->
  days_from_civil y0 m0 1 <= z <-> (y0 < y \/ (y0 = y /\ m0 <= m)).
Proof.
  intros E Hm0.
  pose proof (civil_of_days_from_civil y0 m0 1 (first_valid _ _ Hm0)) as E0.
  destruct (civil_valid _ _ _ _ E) as [Hm Hd].
  destruct (Z.lt_trichotomy z (days_from_civil y0 m0 1)) as [Hl|[He|Hl]].
  - pose proof (civil_mono _ _ Hl) as H. rewrite E, E0 in H. cbn in H. lia.
  - rewrite <-He, E in E0. injection E0 as -> -> ->. lia.
  - pose proof (civil_mono _ _ Hl) as H. rewrite E, E0 in H. cbn in H. lia.
Qed.

Lemma unit_start_year c : unit_start RM (c * 12) = unit_start RY c.
Proof.
  unfold unit_start. rewrite Z.div_mul by lia. rewrite Z.mod_mul by lia. done.
Qed.

(** An instant lies in the unit it is truncated to. *)
Lemma trunc_seconds_spec r s c :
  trunc_seconds r s = c <-> unit_start r c <= s < unit_start r (c + 1).
Proof.
  assert (HM : forall r' k, 0 < k -> (forall x, unit_start r' x = x * k) ->
    (s / k = c <-> unit_start r' c <= s < unit_start r' (c + 1))).
  { intros r' k Hk Hu. rewrite !Hu. split; intros H.
    - pose proof (Z.div_mod s k ltac:(lia)). pose proof (Z.mod_pos_bound s k Hk). nia.
    - symmetry. apply (Z.div_unique s k c (s - c * k)); nia. }
  assert (Hd : forall x, x * 86400 <= s <-> x <= s / 86400).
  { intros x. pose proof (Z.div_mod s 86400 ltac:(lia)). pose proof (Z.mod_pos_bound s 86400 ltac:(lia)). lia. }
  assert (Hy : forall z y m d c, civil_from_days z = (y, m, d) ->
     (y - 1970) * 12 + (m - 1) = c <->
     days_from_civil (1970 + c / 12) (c mod 12 + 1) 1 <= z /\
     ~ days_from_civil (1970 + (c + 1) / 12) ((c + 1) mod 12 + 1) 1 <= z).
  { intros z y m d c' E.
    pose proof (Z.mod_pos_bound c' 12 ltac:(lia)). pose proof (Z.mod_pos_bound (c' + 1) 12 ltac:(lia)).
    rewrite (days_from_civil_le _ _ _ _ _ _ E) by lia.
    rewrite (days_from_civil_le _ _ _ _ _ _ E) by lia.
    destruct (civil_valid _ _ _ _ E) as [Hm _].
    pose proof (Z.div_mod c' 12 ltac:(lia)). pose proof (Z.div_mod (c' + 1) 12 ltac:(lia)). lia. }
  destruct r; unfold trunc_seconds; cbv zeta.
  - destruct (civil_from_days (s / 86400)) as [[y m] d] eqn:E.
    unfold unit_start.
    assert (Hn : forall P Q : Prop, (P /\ ~ Q) <-> (P /\ ~ Q)) by done.
    pose proof (days_from_civil_le _ _ _ _ (1970 + c) 1 E ltac:(lia)) as H1.
    pose proof (days_from_civil_le _ _ _ _ (1970 + (c + 1)) 1 E ltac:(lia)) as H2.
    pose proof (Hd (days_from_civil (1970 + c) 1 1)) as H3.
    pose proof (Hd (days_from_civil (1970 + (c + 1)) 1 1)) as H4.
    destruct (civil_valid _ _ _ _ E) as [Hm _]. lia.
  - destruct (civil_from_days (s / 86400)) as [[y m] d] eqn:E.
    rewrite (Hy _ _ _ _ c E). unfold unit_start.
    rewrite <-!Hd. lia.
  - by apply HM.
  - by apply HM.
  - by apply HM.
  - unfold unit_start. lia.
Qed.

Lemma trunc_seconds_le r s1 s2 : s1 <= s2 -> trunc_seconds r s1 <= trunc_seconds r s2.
Proof.
  assert (H : forall a b, a <= b -> a / 86400 <= b / 86400) by (intros; apply Z.div_le_mono; lia).
  intros Hs. specialize (H _ _ Hs).
  assert (Hc : civil_from_days (s1 / 86400) = civil_from_days (s2 / 86400) \/
               date_lt (civil_from_days (s1 / 86400)) (civil_from_days (s2 / 86400))).
  { destruct (decide (s1 / 86400 = s2 / 86400)) as [->|]; [by left|]. right. apply civil_mono. lia. }
  destruct r; unfold trunc_seconds; cbv zeta; try lia; try (apply Z.div_le_mono; lia).
  - destruct (civil_from_days (s1 / 86400)) as [[y m] d] eqn:E1, (civil_from_days (s2 / 86400)) as [[y' m'] d'] eqn:E2.
    destruct Hc as [[= -> -> ->]|Hc]; [lia|]. cbn in Hc. lia.
  - destruct (civil_from_days (s1 / 86400)) as [[y m] d] eqn:E1, (civil_from_days (s2 / 86400)) as [[y' m'] d'] eqn:E2.
    destruct (civil_valid _ _ _ _ E1) as [? _], (civil_valid _ _ _ _ E2) as [? _].
    destruct Hc as [[= -> -> ->]|Hc]; [lia|]. cbn in Hc. lia.
Qed.

Lemma trunc_le tps r t1 t2 : 0 < tps -> t1 <= t2 -> trunc tps r t1 <= trunc tps r t2.
Proof. intros. apply trunc_seconds_le. apply Z.div_le_mono; lia. Qed.

Lemma trunc_unit_start r c : trunc_seconds r (unit_start r c) = c.
Proof.
  apply trunc_seconds_spec. split; [lia|].
  destruct r; unfold unit_start; try lia.
  - assert (H : days_from_civil (1970 + c) 1 1 < days_from_civil (1970 + (c + 1)) 1 1); [|lia].
    pose proof (civil_of_days_from_civil (1970 + c) 1 1 (first_valid _ _ (conj (Z.le_refl 1) (Zle_bool_imp_le 1 12 eq_refl)))) as E.
    pose proof (days_from_civil_le _ _ _ _ (1970 + (c + 1)) 1 E ltac:(lia)). lia.
  - set (a := days_from_civil (1970 + c / 12) (c mod 12 + 1) 1).
    assert (H : a < days_from_civil (1970 + (c + 1) / 12) ((c + 1) mod 12 + 1) 1); [|lia].
    pose proof (Z.mod_pos_bound c 12 ltac:(lia)). pose proof (Z.mod_pos_bound (c + 1) 12 ltac:(lia)).
    pose proof (Z.div_mod c 12 ltac:(lia)). pose proof (Z.div_mod (c + 1) 12 ltac:(lia)).
    pose proof (civil_of_days_from_civil (1970 + c / 12) (c mod 12 + 1) 1 (first_valid (1970 + c / 12) (c mod 12 + 1) ltac:(lia))) as E.
    fold a in E.
    pose proof (days_from_civil_le _ _ _ _ (1970 + (c + 1) / 12) ((c + 1) mod 12 + 1) E ltac:(lia)). lia.
Qed.

(** Fields *)
Lemma fields_of secs y m d :
  civil_from_days (secs / 86400) = (y, m, d) ->
  has_fields secs [y; m; d; secs mod 86400 / 3600; secs mod 3600 / 60; secs mod 60].
Proof.
  intros E. exists y, m, d, (secs mod 86400 / 3600), (secs mod 3600 / 60), (secs mod 60).
  split; [done|]. split; [done|]. Z.div_mod_to_equations. lia.
Qed.

Lemma has_fields_unique secs f g : has_fields secs f -> has_fields secs g -> f = g.
Proof.
  intros (y & m & d & h & mi & s & -> & E & ? & ? & ? & ?)
         (y' & m' & d' & h' & mi' & s' & -> & E' & ? & ? & ? & ?).
  rewrite E in E'. injection E' as <- <- <-.
  assert (h = h' /\ mi = mi' /\ s = s') as (-> & -> & ->) by lia. done.
Qed.

Lemma has_fields_total secs : exists f, has_fields secs f.
Proof.
  destruct (civil_from_days (secs / 86400)) as [[y m] d] eqn:E. eexists. by apply fields_of.
Qed.

Lemma has_fields_inj s1 s2 f : has_fields s1 f -> has_fields s2 f -> s1 = s2.
Proof.
  intros (y & m & d & h & mi & s & -> & E & ? & ? & ? & ?)
         (y' & m' & d' & h' & mi' & s' & [= -> -> -> -> -> ->] & E' & ? & ? & ? & ?).
  rewrite <-E in E'. apply civil_inj in E'. lia.
Qed.

Lemma datetime_fields_spec secs f :
  datetime_fields secs = Ok f <-> has_fields secs f /\ exists y r, f = y :: r /\ 1 <= y <= 9999.
Proof.
  unfold datetime_fields.
  destruct (civil_from_days (secs / 86400)) as [[y m] d] eqn:E.
  pose proof (fields_of _ _ _ _ E) as Hf.
  destruct (Z.leb_spec 1 y), (Z.leb_spec y 9999); cbn [andb]; split.
  2,4,6,8: intros [Hg (y1 & r1 & -> & Hy)]; pose proof (has_fields_unique _ _ _ Hf Hg) as [= <- <-]; first [lia|done].
  all: try done.
  intros [= <-]. split; [done|]. eauto with lia.
Qed.

(** Two instants are in the same unit iff their leading fields agree. *)
Lemma trunc_seconds_fields r s1 s2 f1 f2 :
  has_fields s1 f1 -> has_fields s2 f2 ->
  trunc_seconds r s1 = trunc_seconds r s2 <->
  take (dres_index r + 1) f1 = take (dres_index r + 1) f2.
Proof.
  intros (y & m & d & h & mi & s & -> & E & ? & ? & ? & Hs1)
         (y' & m' & d' & h' & mi' & s' & -> & E' & ? & ? & ? & Hs2).
  pose proof (civil_valid _ _ _ _ E) as [? _]. pose proof (civil_valid _ _ _ _ E') as [? _].
  assert (HD : s1 / 86400 = s2 / 86400 <-> y = y' /\ m = m' /\ d = d').
  { split.
    - intros He. rewrite He, E' in E. by injection E as -> -> ->.
    - intros (-> & -> & ->). apply civil_inj. congruence. }
  assert (Hh : s1 / 3600 = s1 / 86400 * 24 + h)
    by (symmetry; apply (Z.div_unique _ _ _ (mi * 60 + s)); lia).
  assert (Hh' : s2 / 3600 = s2 / 86400 * 24 + h')
    by (symmetry; apply (Z.div_unique _ _ _ (mi' * 60 + s')); lia).
  assert (Hm : s1 / 60 = s1 / 86400 * 1440 + h * 60 + mi)
    by (symmetry; apply (Z.div_unique _ _ _ s); lia).
  assert (Hm' : s2 / 60 = s2 / 86400 * 1440 + h' * 60 + mi')
    by (symmetry; apply (Z.div_unique _ _ _ s'); lia).
  assert (Hl1 : forall a a' : Z, [a] = [a'] <-> a = a') by (intros; split; [by intros [= ->]|by intros ->]).
  destruct r; unfold trunc_seconds; cbv zeta; cbn [dres_index Nat.add take].
  - rewrite E, E'. rewrite Hl1. lia.
  - rewrite E, E'. split; [intros; f_equal; [lia|f_equal; lia]|intros [= -> ->]; done].
  - rewrite HD. split; [by intros (-> & -> & ->)|by intros [= -> -> ->]].
  - rewrite Hh, Hh'. split.
    + intros He. assert (s1 / 86400 = s2 / 86400 /\ h = h') as [Hd ->] by lia.
      apply HD in Hd as (-> & -> & ->). done.
    + intros [= ? ? ? ->]. assert (s1 / 86400 = s2 / 86400) by (by apply HD). lia.
  - rewrite Hm, Hm'. split.
    + intros He. assert (s1 / 86400 = s2 / 86400 /\ h = h' /\ mi = mi') as (Hd & -> & ->) by lia.
      apply HD in Hd as (-> & -> & ->). done.
    + intros [= ? ? ? -> ->]. assert (s1 / 86400 = s2 / 86400) by (by apply HD). lia.
  - split.
    + intros ->. assert (s2 / 86400 = s2 / 86400) as Hd%HD by done.
      destruct Hd as (-> & -> & ->).
      assert (h = h' /\ mi = mi' /\ s = s') as (-> & -> & ->) by lia. done.
    + intros [= ? ? ? -> -> ->]. assert (s1 / 86400 = s2 / 86400) by (by apply HD). lia.
Qed.
