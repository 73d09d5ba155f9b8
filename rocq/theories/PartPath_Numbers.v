(** * Decimal numbers and their parsing *)
From Verif Require Import Py Calendar_Model PartPath_Model.
Local Open Scope Z_scope.

Lemma digit_val_char d : (d < 10)%nat -> digit_val (digit_char d) = Some (Z.of_nat d).
Proof. intros H. do 10 (destruct d as [|d]; [reflexivity|]). lia. Qed.

Definition is_digit (c : ascii) : Prop := exists d, (d < 10)%nat /\ c = digit_char d.

Lemma digit_neq c : is_digit c ->
  c <> "="%char /\ c <> "-"%char /\ c <> "+"%char /\ c <> "/"%char /\ c <> newline /\ c <> "T"%char
  /\ c <> ":"%char /\ c <> "."%char.
Proof. intros (d & H & ->). do 10 (destruct d as [|d]; [split_and!; discriminate|]). lia. Qed.

Lemma digits_val_app acc a b :
  digits_val acc (a ++ b) = match digits_val acc a with Some x => digits_val x b | None => None end.
Proof. revert acc; induction a as [|c a IH]; intros acc; [done|]. cbn. destruct (digit_val c); auto. Qed.

Lemma pow2_S f : 2 ^ Z.of_nat (S f) = 2 * 2 ^ Z.of_nat f.
Proof. rewrite Nat2Z.inj_succ, Z.pow_succ_r by lia. done. Qed.

Lemma show_fuel_digits f z : 0 <= z -> Forall is_digit (show_fuel f z).
Proof.
  revert z; induction f as [|f IH]; intros z Hz; cbn [show_fuel]; [constructor|].
  destruct (Z.ltb_spec z 10).
  - repeat constructor. exists (Z.to_nat z). split; [lia|done].
  - apply Forall_app. split; [apply IH; apply Z.div_pos; lia|].
    pose proof (Z.mod_pos_bound z 10 ltac:(lia)).
    repeat constructor. exists (Z.to_nat (z mod 10)). split; [lia|done].
Qed.

Lemma show_fuel_val f z : 0 <= z < 2 ^ Z.of_nat f -> digits_val 0 (show_fuel f z) = Some z.
Proof.
  revert z; induction f as [|f IH]; intros z Hz.
  - change (2 ^ Z.of_nat 0) with 1 in Hz. by replace z with 0 by lia.
  - rewrite pow2_S in Hz. cbn [show_fuel]. destruct (Z.ltb_spec z 10).
    + cbn [digits_val]. rewrite digit_val_char by lia. f_equal. lia.
    + rewrite digits_val_app.
      assert (0 <= z / 10 < 2 ^ Z.of_nat f).
      { split; [apply Z.div_pos; lia|]. apply Z.div_lt_upper_bound; lia. }
      rewrite IH by done. cbn [digits_val].
      pose proof (Z.mod_pos_bound z 10 ltac:(lia)). rewrite digit_val_char by lia.
      f_equal. rewrite Z2Nat.id by lia. pose proof (Z.div_mod z 10 ltac:(lia)). lia.
Qed.

Lemma show_fuel_enough f g z : 0 <= z < 2 ^ Z.of_nat (S f) -> 0 <= z < 2 ^ Z.of_nat (S g) ->
  show_fuel (S f) z = show_fuel (S g) z.
Proof.
  revert g z; induction f as [|f IH]; intros g z Hf Hg; cbn [show_fuel];
    destruct (Z.ltb_spec z 10); try done.
  - change (2 ^ Z.of_nat 1) with 2 in Hf. lia.
  - f_equal. destruct g as [|g]; [change (2 ^ Z.of_nat 1) with 2 in Hg; lia|].
    rewrite pow2_S in Hf, Hg.
    apply IH; (split; [apply Z.div_pos; lia|]); apply Z.div_lt_upper_bound; lia.
Qed.

Lemma log2_fuel z : 0 <= z -> z < 2 ^ Z.of_nat (S (Z.to_nat (Z.log2 z))).
Proof.
  intros Hz. destruct (decide (z = 0)) as [->|]; [done|].
  pose proof (Z.log2_spec z ltac:(lia)) as [_ H]. pose proof (Z.log2_nonneg z).
  rewrite Nat2Z.inj_succ, Z2Nat.id by lia. done.
Qed.

Lemma show_nonneg_val z : 0 <= z -> digits_val 0 (show_nonneg z) = Some z.
Proof. intros. apply show_fuel_val. split; [done|]. by apply log2_fuel. Qed.
Lemma show_nonneg_digits z : 0 <= z -> Forall is_digit (show_nonneg z).
Proof. apply show_fuel_digits. Qed.

Lemma show_nonneg_small z : 0 <= z < 10 -> show_nonneg z = [digit_char (Z.to_nat z)].
Proof. intros. unfold show_nonneg. cbn [show_fuel]. by rewrite (proj2 (Z.ltb_lt _ _)) by lia. Qed.
Lemma show_nonneg_step z : 10 <= z ->
  show_nonneg z = show_nonneg (z / 10) ++ [digit_char (Z.to_nat (z mod 10))].
Proof.
  intros Hz. unfold show_nonneg at 1. cbn [show_fuel].
  rewrite (proj2 (Z.ltb_ge _ _)) by lia. f_equal.
  assert (0 <= z / 10) by (apply Z.div_pos; lia).
  pose proof (log2_fuel z ltac:(lia)) as H1.
  destruct (Z.to_nat (Z.log2 z)) as [|f]; [change (2 ^ Z.of_nat 1) with 2 in H1; lia|].
  apply show_fuel_enough; (split; [done|]); [|by apply log2_fuel].
  rewrite pow2_S in H1. apply Z.div_lt_upper_bound; lia.
Qed.

Lemma show_nonneg_nonempty z : 0 <= z -> exists c s, show_nonneg z = c :: s /\ is_digit c.
Proof.
  intros Hz. pose proof (show_nonneg_digits z Hz) as Hd.
  destruct (show_nonneg z) as [|c s] eqn:E.
  - unfold show_nonneg in E. cbn [show_fuel] in E. destruct (z <? 10); [done|].
    by apply app_nil in E as [_ ?].
  - inversion Hd; subst. eauto.
Qed.

Lemma show_nonneg_len2 z : 10 <= z < 100 -> length (show_nonneg z) = 2%nat.
Proof.
  intros. rewrite show_nonneg_step by lia. rewrite show_nonneg_small.
  - done.
  - split; [apply Z.div_pos; lia|apply Z.div_lt_upper_bound; lia].
Qed.
Lemma show_nonneg_len4 z : 1000 <= z < 10000 -> length (show_nonneg z) = 4%nat.
Proof.
  intros.
  assert (100 <= z / 10 < 1000) by (split; [apply Z.div_le_lower_bound; lia|apply Z.div_lt_upper_bound; lia]).
  assert (10 <= z / 10 / 10 < 100) by (split; [apply Z.div_le_lower_bound; lia|apply Z.div_lt_upper_bound; lia]).
  rewrite show_nonneg_step, app_length by lia.
  rewrite show_nonneg_step, app_length by lia.
  rewrite show_nonneg_len2 by lia. done.
Qed.

(** [int] undoes [str] and [format]. *)
Lemma int_of_digits s z : Forall is_digit s -> s <> [] -> digits_val 0 s = Some z -> int_of s = Ok z.
Proof.
  intros Hd Hne Hv. destruct s as [|c s]; [done|]. inversion Hd as [|?? Hc Hs]; subst.
  apply digit_neq in Hc as (_ & Hm & Hp & _). unfold int_of.
  rewrite decide_False by done. rewrite decide_False by done. by rewrite Hv.
Qed.

Lemma int_of_show z : int_of (show_Z z) = Ok z.
Proof.
  unfold show_Z. destruct (Z.ltb_spec z 0).
  - unfold int_of. rewrite decide_True by done.
    destruct (show_nonneg_nonempty (- z) ltac:(lia)) as (c & s & E & Hc).
    destruct (show_nonneg (- z)) as [|c' s'] eqn:E'; [done|].
    rewrite <-E'. rewrite show_nonneg_val by lia. cbn. f_equal. lia.
  - apply int_of_digits; [by apply show_nonneg_digits| |by apply show_nonneg_val].
    destruct (show_nonneg_nonempty z ltac:(lia)) as (c & s & -> & _). done.
Qed.

Lemma int_of_show_02d z : int_of (show_02d z) = Ok z.
Proof.
  unfold show_02d. destruct (Z.leb_spec 0 z), (Z.ltb_spec z 10); cbn [andb]; try apply int_of_show.
  apply int_of_digits; [|done|].
  - constructor; [by exists 0%nat; split; [lia|]|]. unfold show_Z.
    rewrite (proj2 (Z.ltb_ge _ _)) by lia. by apply show_nonneg_digits.
  - unfold show_Z. rewrite (proj2 (Z.ltb_ge _ _)) by lia.
    cbn [digits_val]. by apply show_nonneg_val.
Qed.

Definition num_char (c : ascii) : Prop := is_digit c \/ c = "-"%char.
Lemma show_Z_chars z : Forall num_char (show_Z z).
Proof.
  unfold show_Z. destruct (Z.ltb_spec z 0); [constructor; [by right|]|];
    (eapply Forall_impl; [apply show_nonneg_digits; lia|]); intros c Hc; by left.
Qed.
Lemma show_02d_chars z : Forall num_char (show_02d z).
Proof.
  unfold show_02d. destruct (_ && _); [|apply show_Z_chars].
  constructor; [|apply show_Z_chars]. left. exists 0%nat. split; [lia|done].
Qed.
Lemma num_char_neq c : num_char c -> c <> "="%char /\ c <> "/"%char /\ c <> newline.
Proof. intros [Hc| ->]; [apply digit_neq in Hc; tauto|split_and!; discriminate]. Qed.

Lemma show_02d_val z : 0 <= z -> digits_val 0 (show_02d z) = Some z.
Proof.
  intros Hz. unfold show_02d, show_Z. rewrite (proj2 (Z.ltb_ge z 0)) by lia.
  destruct (_ && _); cbn [digits_val]; [|by apply show_nonneg_val].
  replace (digit_val (digit_char 0)) with (Some 0) by reflexivity.
  by apply show_nonneg_val.
Qed.
Lemma show_02d_len2 z : 0 <= z < 100 -> length (show_02d z) = 2%nat.
Proof.
  intros Hz. unfold show_02d, show_Z. rewrite (proj2 (Z.ltb_ge z 0)) by lia.
  destruct (Z.leb_spec 0 z), (Z.ltb_spec z 10); cbn [andb length]; try lia.
  - by rewrite show_nonneg_small by lia.
  - apply show_nonneg_len2. lia.
Qed.
Lemma show_02d_len4 z : 1000 <= z < 10000 -> length (show_02d z) = 4%nat.
Proof.
  intros Hz. unfold show_02d, show_Z. rewrite (proj2 (Z.ltb_ge z 0)) by lia.
  rewrite (proj2 (Z.ltb_ge z 10)) by lia. rewrite andb_false_r. by apply show_nonneg_len4.
Qed.
