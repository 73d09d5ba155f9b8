From Verif Require Import Py Calendar_Model Calendar_Spec.
Local Open Scope Z_scope.

(** ** A bounded check over the integers [lo, lo+n), by a loop the kernel
    evaluates (used on the 366 days of a year). *)
Fixpoint check (p : Z -> bool) (lo : Z) (n : nat) : bool :=
  match n with
  | O => true
  | S n => p lo && check p (lo + 1) n
  end.
Lemma check_spec p n : forall lo, check p lo n = true -> forall z, lo <= z < lo + Z.of_nat n -> p z = true.
Proof.
  induction n as [|n IH]; intros lo H z Hz; cbn [check] in H; [lia|].
  apply andb_true_iff in H as [H1 H2].
  destruct (decide (z = lo)) as [->|]; [done|]. apply (IH _ H2). lia.
Qed.

(** Days before the first of March of year [y], counted from year 0. *)
Definition before (y : Z) : Z := 365 * y + y / 4 - y / 100 + y / 400.
Definition len (y : Z) : Z := if leap (y + 1) then 366 else 365.

Lemma before_next y : before (y + 1) = before y + len y.
Proof.
  unfold before, len, leap.
  destruct (Z.eqb_spec ((y + 1) mod 4) 0), (Z.eqb_spec ((y + 1) mod 100) 0), (Z.eqb_spec ((y + 1) mod 400) 0);
    cbn [andb orb negb]; Z.div_mod_to_equations; lia.
Qed.
Lemma len_bound y : 365 <= len y <= 366.
Proof. unfold len. destruct (leap _); lia. Qed.

Lemma before_mono y k : 0 <= k -> before y + 365 * k <= before (y + k).
Proof.
  intros Hk. revert y. apply (natlike_ind (fun k => forall y, before y + 365 * k <= before (y + k))); [| |done].
  - intros y. replace (y + 0) with y by lia. lia.
  - intros x Hx IH y. replace (y + Z.succ x) with ((y + x) + 1) by lia.
    rewrite before_next. specialize (IH y). pose proof (len_bound (y + x)). lia.
Qed.

(** A day is in exactly one year. *)
Lemma year_unique y1 d1 y2 d2 :
  before y1 + d1 = before y2 + d2 -> 0 <= d1 < len y1 -> 0 <= d2 < len y2 -> y1 = y2 /\ d1 = d2.
Proof.
  assert (Hgen : forall y1 y2 d1 d2, y1 < y2 -> 0 <= d1 < len y1 -> 0 <= d2 -> before y1 + d1 < before y2 + d2).
  { intros a b c d Hab Hc Hd.
    pose proof (before_mono (a + 1) (b - (a + 1)) ltac:(lia)) as H.
    replace (a + 1 + (b - (a + 1))) with b in H by lia. rewrite before_next in H. lia. }
  intros He H1 H2. destruct (Z.lt_trichotomy y1 y2) as [Hl|[->|Hl]].
  - specialize (Hgen y1 y2 d1 d2 Hl H1 ltac:(lia)). lia.
  - split; [done|lia].
  - specialize (Hgen y2 y1 d2 d1 Hl H2 ltac:(lia)). lia.
Qed.

(** Months and days of a year. *)
Definition month_len (m : Z) : Z := match m with 2 => 29 | 4 | 6 | 9 | 11 => 30 | _ => 31 end.
Definition good_doy (doy : Z) : bool :=
  let '(m, d) := month_day doy in
  let '(m', d') := month_day (doy + 1) in
  (1 <=? m) && (m <=? 12) && (1 <=? d) && (d <=? month_len m) &&
  (day_of_year m d =? doy) &&
  (Bool.eqb (doy =? 365) ((m =? 2) && (d =? 29))) &&
  (Bool.eqb (doy <=? 305) (2 <? m)) &&
  ((365 <=? doy) ||
   (if d <? month_len m then (m' =? m) && (d' =? d + 1)
    else (m' =? (if m =? 12 then 1 else m + 1)) && (d' =? 1))).
Lemma doy_good_all : check good_doy 0 366 = true.
Proof. vm_compute. reflexivity. Qed.

Lemma month_day_spec doy m d : 0 <= doy <= 365 -> month_day doy = (m, d) ->
  1 <= m <= 12 /\ 1 <= d <= month_len m /\ day_of_year m d = doy /\
  (doy = 365 <-> m = 2 /\ d = 29) /\ (doy <= 305 <-> 2 < m) /\
  (doy < 365 -> month_day (doy + 1) =
     if d <? month_len m then (m, d + 1) else (if m =? 12 then 1 else m + 1, 1)).
Proof.
  intros Hd E.
  assert (Hg : good_doy doy = true) by (apply (check_spec good_doy 366 0 doy_good_all); lia).
  unfold good_doy in Hg. rewrite E in Hg. destruct (month_day (doy + 1)) as [m' d'].
  rewrite !andb_true_iff in Hg. destruct Hg as [[[[[[[H1 H2] H3] H4] H5] H6] H7] H8].
  apply Z.leb_le in H1, H2, H3, H4. apply Z.eqb_eq in H5. apply eqb_prop in H6, H7.
  split; [lia|]. split; [lia|]. split; [done|]. split; [|split].
  - destruct (Z.eqb_spec doy 365), (Z.eqb_spec m 2), (Z.eqb_spec d 29); cbn [andb] in H6; try discriminate H6; lia.
  - destruct (Z.leb_spec doy 305), (Z.ltb_spec 2 m); try discriminate H7; lia.
  - intros Hl. apply orb_true_iff in H8 as [H8|H8]; [apply Z.leb_le in H8; lia|].
    destruct (d <? month_len m); apply andb_true_iff in H8 as [H8 H9]; apply Z.eqb_eq in H8, H9; by subst.
Qed.

Definition good_month (m : Z) : bool :=
  check (fun d => if d <=? month_len m
     then let doy := day_of_year m d in
          let '(m', d') := month_day doy in (0 <=? doy) && (doy <=? 365) && (m' =? m) && (d' =? d)
     else true) 1 31.
Lemma months_good : check good_month 1 12 = true.
Proof. vm_compute. reflexivity. Qed.
Lemma month_len_le m : month_len m <= 31.
Proof. unfold month_len. repeat match goal with |- context [match ?x with _ => _ end] => destruct x end; lia. Qed.
Lemma day_of_year_spec m d : 1 <= m <= 12 -> 1 <= d <= month_len m ->
  0 <= day_of_year m d <= 365 /\ month_day (day_of_year m d) = (m, d).
Proof.
  intros Hm Hd.
  assert (Hg : good_month m = true) by (apply (check_spec good_month 12 1 months_good); lia).
  unfold good_month in Hg. pose proof (month_len_le m).
  assert (Hr : 1 <= d < 1 + Z.of_nat 31) by lia.
  pose proof (check_spec _ _ _ Hg d Hr) as Hc. cbv beta in Hc.
  rewrite (proj2 (Z.leb_le _ _)) in Hc by lia. cbv zeta in Hc.
  destruct (month_day (day_of_year m d)) as [m' d'].
  rewrite !andb_true_iff, !Z.leb_le, !Z.eqb_eq in Hc.
  destruct Hc as [[[? ?] ->] ->]. done.
Qed.

Lemma days_in_month_len y m : 1 <= m <= 12 ->
  days_in_month y m = if m =? 2 then (if leap y then 29 else 28) else month_len m.
Proof.
  intros Hm. unfold days_in_month, month_len.
  assert (m = 1 \/ m = 2 \/ m = 3 \/ m = 4 \/ m = 5 \/ m = 6 \/ m = 7 \/ m = 8 \/ m = 9 \/ m = 10 \/ m = 11 \/ m = 12) as H by lia.
  repeat destruct H as [->|H]; try reflexivity. subst m. reflexivity.
Qed.

(** The civil date in terms of the year and of the day of the year. *)
Definition date_of (y doy : Z) : Z * Z * Z :=
  let '(m, d) := month_day doy in (if m <=? 2 then y + 1 else y, m, d).

Lemma civil_year z : exists y doy, 0 <= doy < len y /\ z + 719468 = before y + doy /\
  civil_from_days z = date_of y doy.
Proof.
  unfold civil_from_days. cbv zeta. set (w := z + 719468).
  set (era := w / 146097). set (n := w mod 146097).
  set (c := Z.min (n / 36524) 3). set (n1 := n - c * 36524).
  set (q := n1 / 1461). set (n2 := n1 mod 1461).
  set (a := Z.min (n2 / 365) 3). set (doy := n2 - a * 365).
  exists (400 * era + 100 * c + 4 * q + a), doy.
  assert (Hn : 0 <= n < 146097) by (apply Z.mod_pos_bound; lia).
  assert (Hw : w = 146097 * era + n) by (apply Z.div_mod; lia).
  assert (Hc : 0 <= c <= 3 /\ 0 <= n1 /\ (n1 < 36524 \/ (c = 3 /\ n1 <= 36524))).
  { subst c n1. assert (0 <= n / 36524) by (apply Z.div_pos; lia).
    pose proof (Z.div_mod n 36524 ltac:(lia)). pose proof (Z.mod_pos_bound n 36524 ltac:(lia)). lia. }
  assert (Hn1 : n = n1 + c * 36524) by (subst n1; lia).
  assert (Hq : n1 = 1461 * q + n2) by (apply Z.div_mod; lia).
  assert (Hn2 : 0 <= n2 < 1461) by (apply Z.mod_pos_bound; lia).
  assert (Hq2 : 0 <= q <= 24) by (split; [apply Z.div_pos; lia|lia]).
  assert (Ha : 0 <= a <= 3 /\ 0 <= doy /\ (doy < 365 \/ (a = 3 /\ doy <= 365))).
  { subst a doy. assert (0 <= n2 / 365) by (apply Z.div_pos; lia).
    pose proof (Z.div_mod n2 365 ltac:(lia)). pose proof (Z.mod_pos_bound n2 365 ltac:(lia)). lia. }
  assert (Hdoy : n2 = 365 * a + doy) by (subst doy; lia).
  clearbody era n c n1 q n2 a doy. clearbody w.
  set (y := 400 * era + 100 * c + 4 * q + a).
  assert (D4 : y / 4 = 100 * era + 25 * c + q) by (symmetry; apply (Z.div_unique _ _ _ a); lia).
  assert (D100 : y / 100 = 4 * era + c) by (symmetry; apply (Z.div_unique _ _ _ (4 * q + a)); lia).
  assert (D400 : y / 400 = era) by (symmetry; apply (Z.div_unique _ _ _ (100 * c + 4 * q + a)); lia).
  split_and!.
  - lia.
  - unfold len.
    assert (Hl : doy = 365 -> leap (y + 1) = true).
    { intros Hd. assert (a = 3) by lia. subst a.
      unfold leap. apply andb_true_iff. split.
      - apply Z.eqb_eq. symmetry. apply (Z.mod_unique _ _ (100 * era + 25 * c + q + 1)); lia.
      - apply orb_true_iff. destruct (decide (q = 24)) as [->|Hq24].
        + right. assert (c = 3) by lia. subst c. apply Z.eqb_eq.
          symmetry. apply (Z.mod_unique _ _ (era + 1)); lia.
        + left. apply negb_true_iff, Z.eqb_neq.
          rewrite <-(Z.mod_unique (y + 1) 100 (4 * era + c) (4 * q + 4)); lia. }
    destruct (leap (y + 1)) eqn:E; [lia|]. assert (doy <> 365) by (intros H; by apply Hl in H). lia.
  - unfold before. rewrite D4, D100, D400. lia.
  - reflexivity.
Qed.

Lemma civil_date_of y doy : 0 <= doy < len y -> civil_from_days (before y + doy - 719468) = date_of y doy.
Proof.
  intros H. destruct (civil_year (before y + doy - 719468)) as (y' & doy' & H' & E & ->).
  destruct (year_unique y' doy' y doy) as [-> ->]; [lia|done|done|done].
Qed.

Lemma dfc_date_of y doy y' m d : 0 <= doy < len y -> date_of y doy = (y', m, d) ->
  days_from_civil y' m d = before y + doy - 719468.
Proof.
  intros Hd E. unfold date_of in E. destruct (month_day doy) as [m0 d0] eqn:Em.
  pose proof (len_bound y).
  apply month_day_spec in Em as (H1 & H2 & H3 & _); [|lia].
  injection E as <- <- <-. unfold days_from_civil, before. cbv zeta.
  destruct (m0 <=? 2); rewrite H3; [replace (y + 1 - 1) with y by lia|]; lia.
Qed.

Lemma date_of_valid y doy y' m d : 0 <= doy < len y -> date_of y doy = (y', m, d) -> valid_date y' m d.
Proof.
  intros Hd E. unfold date_of in E. destruct (month_day doy) as [m0 d0] eqn:Em.
  pose proof (len_bound y).
  apply month_day_spec in Em as (H1 & H2 & H3 & H4 & _); [|lia].
  injection E as <- <- <-. unfold valid_date. split; [lia|].
  rewrite days_in_month_len by lia.
  destruct (Z.eqb_spec m0 2) as [->|]; [|lia]. cbn [Z.leb] in *.
  change (2 <=? 2) with true. cbv iota. unfold len in Hd.
  change (month_len 2) with 29 in H2.
  destruct (leap (y + 1)); [lia|]. split; [lia|].
  assert (d0 <> 29) by (intros ->; assert (doy = 365) by (by apply H4); lia). lia.
Qed.

Lemma date_of_next y doy y' m d : 0 <= doy < len y -> date_of y doy = (y', m, d) ->
  (if doy + 1 <? len y then date_of y (doy + 1) else date_of (y + 1) 0) = next_day (y', m, d).
Proof.
  intros Hd E. pose proof (len_bound y) as Hlen.
  pose proof (date_of_valid _ _ _ _ _ Hd E) as [Hvm Hvd].
  unfold date_of in E. destruct (month_day doy) as [m0 d0] eqn:Em.
  apply month_day_spec in Em as (H1 & H2 & H3 & H4 & H5 & H6); [|lia].
  injection E as <- <- <-. unfold next_day. rewrite days_in_month_len in * by lia.
  destruct (Z.ltb_spec (doy + 1) (len y)) as [Hlt|Hge].
  - unfold date_of. rewrite H6 by lia.
    destruct (Z.eqb_spec m0 2) as [->|Hm2].
    + change (2 <=? 2) with true in *. cbv iota in *.
      change (month_len 2) with 29 in *. change (2 =? 12) with false. cbv iota.
      unfold len in Hlt, Hlen, Hd.
      assert (Hd29 : d0 <> 29) by (intros ->; assert (doy = 365) by (by apply H4); destruct (leap (y+1)); lia).
      rewrite (proj2 (Z.ltb_lt d0 29)) by lia. change (2 <=? 2) with true. cbv iota.
      assert (Hmd : month_day (doy + 1) = (2, d0 + 1)).
      { rewrite H6 by (destruct (leap (y+1)); lia). by rewrite (proj2 (Z.ltb_lt d0 29)) by lia. }
      destruct (leap (y + 1)) eqn:El.
      * rewrite (proj2 (Z.ltb_lt d0 29)) by lia. done.
      * assert (d0 <> 28).
        { intros ->. apply month_day_spec in Hmd as (_ & _ & _ & H7 & _); [|lia].
          assert (doy + 1 = 365) by (by apply H7). lia. }
        rewrite (proj2 (Z.ltb_lt d0 28)) by lia. done.
    + destruct (Z.ltb_spec d0 (month_len m0)); [done|].
      destruct (Z.eqb_spec m0 12) as [->|Hm12].
      * change (12 <? 12) with false. change (1 <=? 2) with true. change (12 <=? 2) with false. done.
      * rewrite (proj2 (Z.ltb_lt m0 12)) by lia.
        destruct (Z.leb_spec (m0 + 1) 2), (Z.leb_spec m0 2); try done; lia.
  - assert (Hl2 : m0 = 2 /\ d0 = if leap (y + 1) then 29 else 28).
    { unfold len in *. destruct (leap (y + 1)) eqn:El.
      - apply H4. lia.
      - (* the next day of the table is February 29th *)
        assert (E29 : month_day (doy + 1) = (2, 29)) by (replace (doy + 1) with 365 by lia; reflexivity).
        rewrite H6 in E29 by lia.
        destruct (Z.ltb_spec d0 (month_len m0)); injection E29 as E1 E2.
        + split; [done|lia].
        + lia. }
    destruct Hl2 as [-> Hd0]. change (2 =? 2) with true. cbv iota.
    change (2 <=? 2) with true. cbv iota.
    destruct (leap (y + 1)); subst d0; reflexivity.
Qed.

Lemma civil_from_days_good z y m d :
  civil_from_days z = (y, m, d) ->
  valid_date y m d /\ days_from_civil y m d = z /\
  civil_from_days (z + 1) = next_day (y, m, d).
Proof.
  destruct (civil_year z) as (y0 & doy & Hd & Hz & ->). intros E.
  split_and!.
  - by apply (date_of_valid _ _ _ _ _ Hd E).
  - rewrite (dfc_date_of _ _ _ _ _ Hd E). lia.
  - rewrite <-(date_of_next _ _ _ _ _ Hd E). pose proof (len_bound y0).
    destruct (Z.ltb_spec (doy + 1) (len y0)).
    + rewrite <-civil_date_of by lia. f_equal. lia.
    + pose proof (len_bound (y0 + 1)). rewrite <-civil_date_of by lia.
      rewrite before_next. f_equal. lia.
Qed.

Lemma date_lt_trans a b c : date_lt a b -> date_lt b c -> date_lt a c.
Proof. destruct a as [[??]?], b as [[??]?], c as [[??]?]. cbn. lia. Qed.
Lemma date_lt_irrefl a : ~ date_lt a a.
Proof. destruct a as [[??]?]. cbn. lia. Qed.

Lemma next_day_lt y m d : date_lt (y, m, d) (next_day (y, m, d)).
Proof. unfold next_day. destruct (Z.ltb_spec d (days_in_month y m)); [cbn; lia|]. destruct (Z.ltb_spec m 12); cbn; lia. Qed.

Lemma civil_mono z1 z2 : z1 < z2 -> date_lt (civil_from_days z1) (civil_from_days z2).
Proof.
  intros H. replace z2 with (z1 + 1 + Z.of_nat (Z.to_nat (z2 - z1 - 1))) by lia.
  generalize (Z.to_nat (z2 - z1 - 1)) as n. intros n. clear H z2.
  assert (Hstep : forall z, date_lt (civil_from_days z) (civil_from_days (z + 1))).
  { intros z. destruct (civil_from_days z) as [[y m] d] eqn:E.
    apply civil_from_days_good in E as (_ & _ & ->). apply next_day_lt. }
  induction n as [|n IH].
  - rewrite Z.add_0_r. apply Hstep.
  - eapply date_lt_trans; [exact IH|].
    replace (z1 + 1 + Z.of_nat (S n)) with (z1 + 1 + Z.of_nat n + 1) by lia. apply Hstep.
Qed.

Lemma civil_inj z1 z2 : civil_from_days z1 = civil_from_days z2 -> z1 = z2.
Proof.
  intros H. destruct (Z.lt_trichotomy z1 z2) as [Hl|[?|Hl]]; [|done|];
    apply civil_mono in Hl; rewrite H in Hl; by apply date_lt_irrefl in Hl.
Qed.

Lemma days_in_month_le y m : days_in_month y m <= 31.
Proof.
  unfold days_in_month. destruct (leap y);
  repeat match goal with |- context [match ?x with _ => _ end] => destruct x end; lia.
Qed.

Lemma civil_of_days_from_civil y m d :
  valid_date y m d -> civil_from_days (days_from_civil y m d) = (y, m, d).
Proof.
  intros [Hm Hd]. rewrite days_in_month_len in Hd by lia.
  assert (Hd' : 1 <= d <= month_len m).
  { destruct (Z.eqb_spec m 2) as [->|]; [|lia]. change (month_len 2) with 29. destruct (leap y); lia. }
  destruct (day_of_year_spec m d Hm Hd') as [Hb Hmd].
  set (y0 := if m <=? 2 then y - 1 else y).
  assert (Hlen : day_of_year m d < len y0).
  { pose proof (len_bound y0). destruct (decide (day_of_year m d = 365)) as [E|]; [|lia].
    apply month_day_spec in Hmd as (_ & _ & _ & H4 & _); [|lia].
    apply H4 in E as [-> ->]. change (2 =? 2) with true in Hd. cbv iota in Hd.
    unfold len, y0. change (2 <=? 2) with true. cbv iota. replace (y - 1 + 1) with y by lia.
    destruct (leap y); [|lia]. change (day_of_year 2 29) with 365. lia. }
  replace (days_from_civil y m d) with (before y0 + day_of_year m d - 719468) by reflexivity.
  rewrite civil_date_of by lia. unfold date_of. rewrite Hmd. unfold y0.
  destruct (m <=? 2); [|done]. f_equal. f_equal. lia.
Qed.
