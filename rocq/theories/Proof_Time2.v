(** Proofs about reading times: exactly what is a time is read. *)
From Verif Require Export Proof_Time.
From Coq Require Import Lia.
From stdpp Require Import options.
Import Model_GoStr.
#[local] Open Scope Z_scope.

(** ** Digits *)

Lemma digit_val_dig v : 0 ≤ v ≤ 9 → digit_val (Zbyte (48 + v)) = Some v.
Proof.
  intros Hv. unfold digit_val. rewrite byteZ_Zbyte by lia. rewrite (proj2 (Z.leb_le _ _)), (proj2 (Z.leb_le _ _)) by lia. cbn [andb]. f_equal. lia.
Qed.
Lemma digit_val_inv c v : digit_val c = Some v → 0 ≤ v ≤ 9 ∧ c = Zbyte (48 + v).
Proof.
  unfold digit_val. destruct (Z.leb_spec 48 (byteZ c)); [|done]. destruct (Z.leb_spec (byteZ c) 57); [|done]. intros [= <-]. split; [lia|].
  replace (48 + (byteZ c - 48)) with (byteZ c) by lia. by rewrite Zbyte_byteZ.
Qed.
Lemma digit_val_other z : 0 ≤ z < 256 → (z < 48 ∨ 57 < z) → digit_val (Zbyte z) = None.
Proof. intros Hz Ho. unfold digit_val. rewrite byteZ_Zbyte by lia. destruct (Z.leb_spec 48 z), (Z.leb_spec z 57); done || lia. Qed.

Lemma dig_app v r : dig v +:+ r = String (Zbyte (48 + v)) r.
Proof. reflexivity. Qed.
Lemma two_app v r : two v +:+ r = String (Zbyte (48 + v / 10)) (String (Zbyte (48 + v mod 10)) r).
Proof. reflexivity. Qed.
Lemma two_of x y : 0 ≤ x ≤ 9 → 0 ≤ y ≤ 9 → two (10 * x + y) = dig x +:+ dig y.
Proof. intros Hx Hy. unfold two. replace ((10 * x + y) / 10) with x by (Z.to_euclidean_division_equations; lia). by replace ((10 * x + y) mod 10) with y by (Z.to_euclidean_division_equations; lia). Qed.

Lemma getnum_two fixed v r : 0 ≤ v ≤ 99 → getnum fixed (two v +:+ r) = Some (v, r).
Proof.
  intros Hv. rewrite two_app. cbn [getnum]. rewrite digit_val_dig by (Z.to_euclidean_division_equations; lia).
  rewrite digit_val_dig by (Z.to_euclidean_division_equations; lia). do 2 f_equal. Z.to_euclidean_division_equations; lia.
Qed.
Lemma getnum_one v c r : 0 ≤ v ≤ 9 → digit_val c = None → getnum false (dig v +:+ String c r) = Some (v, String c r).
Proof. intros Hv Hc. rewrite dig_app. cbn [getnum]. by rewrite digit_val_dig, Hc by lia. Qed.
Lemma getnum_inv fixed s v r : getnum fixed s = Some (v, r) → (0 ≤ v ≤ 99 ∧ s = two v +:+ r) ∨ (fixed = false ∧ 0 ≤ v ≤ 9 ∧ s = dig v +:+ r).
Proof.
  destruct s as [|a s]; cbn [getnum]; [done|]. destruct (digit_val a) as [x|] eqn:Ea; [|done]. apply digit_val_inv in Ea as [Hx ->].
  destruct s as [|b s].
  - destruct fixed; [done|]. intros [= <- <-]. by right.
  - destruct (digit_val b) as [y|] eqn:Eb.
    + apply digit_val_inv in Eb as [Hy ->]. intros [= <- <-]. left. split; [lia|]. by rewrite two_of.
    + destruct fixed; [done|]. intros [= <- <-]. by right.
Qed.
Lemma getnum_fixed s v r : getnum true s = Some (v, r) → 0 ≤ v ≤ 99 ∧ s = two v +:+ r.
Proof. by intros [?|(? & _)]%getnum_inv. Qed.

Lemma getyear_four v r : 0 ≤ v ≤ 9999 → getyear (four v +:+ r) = Some (v, r).
Proof.
  intros Hv. change (getyear (four v +:+ r)) with (getyear (String (Zbyte (48 + v / 100 / 10)) (String (Zbyte (48 + (v / 100) mod 10)) (String (Zbyte (48 + (v mod 100) / 10)) (String (Zbyte (48 + (v mod 100) mod 10)) r))))).
  cbn [getyear parse_digits]. rewrite !digit_val_dig by (Z.to_euclidean_division_equations; lia). do 2 f_equal. Z.to_euclidean_division_equations; lia.
Qed.
Lemma getyear_inv s v r : getyear s = Some (v, r) → 0 ≤ v ≤ 9999 ∧ s = four v +:+ r.
Proof.
  destruct s as [|a [|b [|c [|d s]]]]; try done. cbn [getyear parse_digits].
  destruct (digit_val a) as [x1|] eqn:E1; [|done]. destruct (digit_val b) as [x2|] eqn:E2; [|done]. destruct (digit_val c) as [x3|] eqn:E3; [|done].
  destruct (digit_val d) as [x4|] eqn:E4; [|done]. apply digit_val_inv in E1 as [? ->], E2 as [? ->], E3 as [? ->], E4 as [? ->].
  set (w := 10 * _ + x4). intros [= <- <-]. subst w. split; [lia|]. unfold four.
  replace ((10 * (10 * (10 * (10 * 0 + x1) + x2) + x3) + x4) / 100) with (10 * x1 + x2) by (Z.to_euclidean_division_equations; lia).
  replace ((10 * (10 * (10 * (10 * 0 + x1) + x2) + x3) + x4) mod 100) with (10 * x3 + x4) by (Z.to_euclidean_division_equations; lia).
  by rewrite !two_of.
Qed.

(** ** Separators *)

Lemma skip_byte_ok z r : 0 ≤ z < 256 → skip_byte z (String (Zbyte z) r) = Some r.
Proof. intros Hz. cbn [skip_byte]. by rewrite byteZ_Zbyte, Z.eqb_refl. Qed.
Lemma skip_byte_inv z s r : skip_byte z s = Some r → s = String (Zbyte z) r.
Proof. destruct s as [|c s]; cbn [skip_byte]; [done|]. destruct (Z.eqb_spec (byteZ c) z) as [<-|]; [|done]. intros [= <-]. by rewrite Zbyte_byteZ. Qed.
Lemma cutspace_blanks k c r : byteZ c ≠ 32 → cutspace (blanks k +:+ String c r) = String c r.
Proof. intros Hc. induction k as [|k IH]; [by cbn; destruct (Z.eqb_spec (byteZ c) 32)|exact IH]. Qed.
Lemma cutspace_inv s : ∃ k, s = blanks k +:+ cutspace s.
Proof.
  induction s as [|c s [k IH]]; [by exists 0%nat|]. cbn [cutspace]. destruct (Z.eqb_spec (byteZ c) 32) as [E|E]; [|by exists 0%nat].
  exists (S k). rewrite <- (Zbyte_byteZ c), E. cbn [blanks]. change (String (Zbyte 32) s = String (Zbyte 32) (blanks k +:+ cutspace s)). by rewrite <- IH.
Qed.
Lemma skip_blank_ok k c r : byteZ c ≠ 32 → skip_blank (blanks (S k) +:+ String c r) = Some (String c r).
Proof. intros Hc. by rewrite <- (cutspace_blanks (S k) c r) at 2. Qed.
Lemma skip_blank_inv s r : skip_blank s = Some r → r = "" ∨ ∃ k, s = blanks (S k) +:+ r.
Proof.
  destruct s as [|c s]; cbn [skip_blank]; [intros [= <-]; by left|]. destruct (Z.eqb_spec (byteZ c) 32) as [E|E]; [|done]. intros [= <-].
  cbn [cutspace]. rewrite E, Z.eqb_refl. right. destruct (cutspace_inv s) as [k Hk]. exists k. rewrite <- (Zbyte_byteZ c), E. cbn [blanks].
  change (String (Zbyte 32) s = String (Zbyte 32) (blanks k +:+ cutspace s)). by rewrite <- Hk.
Qed.

(** ** Fractions *)

Lemma digits_cons d ds : digits_of (d :: ds) = String (Zbyte (48 + d)) (digits_of ds).
Proof. reflexivity. Qed.
Lemma span_ok ds : Forall (λ v, 0 ≤ v ≤ 9) ds → span_digits (digits_of ds) = (digits_of ds, "").
Proof.
  intros H. induction H as [|d ds Hd Hds IH]; [done|]. rewrite digits_cons. cbn [span_digits]. rewrite digit_val_dig by done. by rewrite IH.
Qed.
Lemma span_inv s d r : span_digits s = (d, r) → ∃ ds, Forall (λ v, 0 ≤ v ≤ 9) ds ∧ d = digits_of ds ∧ s = d +:+ r.
Proof.
  revert d r. induction s as [|c s IH]; intros d r; cbn [span_digits]; [intros [= <- <-]; by exists []|].
  destruct (digit_val c) as [v|] eqn:E; [|intros [= <- <-]; by exists []]. apply digit_val_inv in E as [Hv ->].
  destruct (span_digits s) as [d' r'] eqn:Es. intros [= <- <-]. destruct (IH _ _ eq_refl) as (ds & Hds & -> & ->).
  exists (v :: ds). split; [by constructor|]. by rewrite digits_cons.
Qed.
Lemma digits_sub n ds : substring 0 n (digits_of ds) = digits_of (take n ds).
Proof. revert ds. induction n as [|n IH]; intros [|d ds]; try done. rewrite digits_cons. cbn [substring take]. rewrite IH. by rewrite digits_cons. Qed.
Lemma digits_length ds : String.length (digits_of ds) = length ds.
Proof. induction ds as [|d ds IH]; [done|]. rewrite digits_cons. cbn [String.length length]. by rewrite IH. Qed.
Lemma digits_parse acc ds : Forall (λ v, 0 ≤ v ≤ 9) ds → parse_digits acc (digits_of ds) = Some (fold_left (λ a d, 10 * a + d) ds acc).
Proof.
  intros H. revert acc. induction H as [|d ds Hd Hds IH]; intros acc; [done|]. rewrite digits_cons. cbn [parse_digits fold_left]. rewrite digit_val_dig by done. by rewrite IH.
Qed.
Lemma weigh_0 ds : weigh 0 ds = 0.
Proof. induction ds as [|d ds IH]; [done|]. cbn [weigh]. change (0 / 10) with 0. by rewrite IH. Qed.
Lemma pow10_div k : 10 ^ Z.of_nat (S k) / 10 = 10 ^ Z.of_nat k.
Proof. rewrite Nat2Z.inj_succ, Z.pow_succ_r by lia. rewrite Z.mul_comm. by apply Z.div_mul. Qed.
Lemma weigh_take k ds : weigh (10 ^ Z.of_nat k) (take (S k) ds) = weigh (10 ^ Z.of_nat k) ds.
Proof.
  revert ds. induction k as [|k IH]; intros [|d ds]; try done.
  - cbn [take weigh]. change (10 ^ Z.of_nat 0 / 10) with 0. by rewrite !weigh_0.
  - cbn [take weigh]. rewrite pow10_div. f_equal. apply IH.
Qed.
Lemma weigh_value k ds acc : (length ds ≤ S k)%nat → fold_left (λ a d, 10 * a + d) ds acc * 10 ^ (Z.of_nat (S k) - Z.of_nat (length ds)) = acc * 10 ^ Z.of_nat (S k) + weigh (10 ^ Z.of_nat k) ds.
Proof.
  revert acc k. induction ds as [|d ds IH]; intros acc k Hl; [cbn [fold_left length weigh]; rewrite Z.sub_0_r; lia|]. cbn [fold_left length weigh] in *.
  destruct k as [|k].
  - destruct ds; [|cbn in Hl; lia]. cbn [fold_left length weigh]. change (10 ^ (Z.of_nat 1 - Z.of_nat 1)) with 1. change (10 ^ Z.of_nat 1) with 10. change (10 ^ Z.of_nat 0) with 1. lia.
  - rewrite pow10_div. replace (Z.of_nat (S (S k)) - Z.of_nat (S (length ds))) with (Z.of_nat (S k) - Z.of_nat (length ds)) by lia. rewrite IH by lia.
    rewrite (Nat2Z.inj_succ (S k)), (Z.pow_succ_r 10 (Z.of_nat (S k))) by lia. lia.
Qed.
Lemma weigh_bound k ds : Forall (λ v, 0 ≤ v ≤ 9) ds → 0 ≤ weigh (10 ^ Z.of_nat k) ds < 10 ^ Z.of_nat (S k).
Proof.
  intros H. revert k. induction H as [|d ds Hd Hds IH]; intros k; [cbn [weigh]; split; [done|]; apply Z.pow_pos_nonneg; lia|]. cbn [weigh]. destruct k as [|k].
  - change (10 ^ Z.of_nat 0 / 10) with 0. rewrite weigh_0. change (10 ^ Z.of_nat 0) with 1. change (10 ^ Z.of_nat 1) with 10. lia.
  - rewrite pow10_div. specialize (IH k). rewrite (Nat2Z.inj_succ (S k)), (Z.pow_succ_r 10 (Z.of_nat (S k))) by lia. nia.
Qed.
Lemma frac_value ds : Forall (λ v, 0 ≤ v ≤ 9) ds →
  match parse_digits 0 (substring 0 9 (digits_of ds)) with Some n => n * 10 ^ (9 - Z.of_nat (String.length (substring 0 9 (digits_of ds)))) = weigh 100000000 ds | None => False end.
Proof.
  intros H. rewrite digits_sub, digits_length. rewrite digits_parse by by apply Forall_take.
  change 100000000 with (10 ^ Z.of_nat 8). rewrite <- (weigh_take 8). change 9 with (Z.of_nat 9). rewrite weigh_value; [lia|]. rewrite take_length. lia.
Qed.

Lemma getfrac_ok f n : fraction f n → getfrac f = Some (n, "").
Proof.
  intros [[-> ->]|(p & ds & Hp & Hne & Hds & -> & ->)]; [done|].
  pose proof (frac_value ds Hds) as Hv. destruct ds as [|d ds]; [done|].
  assert (∃ c, p = String c "" ∧ commaOrPeriod c = true) as (c & -> & Hc) by (destruct Hp as [-> | ->]; eexists; split; reflexivity).
  change (String c "" +:+ digits_of (d :: ds)) with (String c (digits_of (d :: ds))). cbn [getfrac]. rewrite Hc, span_ok by done.
  destruct (parse_digits 0 _) as [x|]; [|done]. rewrite digits_cons at 1. cbv zeta. rewrite Hv. reflexivity.
Qed.
Lemma getfrac_inv f n : getfrac f = Some (n, "") → fraction f n.
Proof.
  destruct f as [|c f]; cbn [getfrac]; [intros [= <-]; by left|]. destruct (commaOrPeriod c) eqn:Hc; [|done].
  destruct (span_digits f) as [ds r] eqn:Es. apply span_inv in Es as (l & Hl & -> & ->). pose proof (frac_value l Hl) as Hv.
  destruct l as [|d l]; [cbn; intros [= _ E]; discriminate|].
  rewrite digits_cons at 1. cbv zeta. destruct (parse_digits 0 _) as [x|]; [|done]. rewrite Hv. intros [= <- ->]. right.
  exists (String c ""), (d :: l). split.
  - unfold commaOrPeriod in Hc. rewrite <- (Zbyte_byteZ c). apply orb_true_iff in Hc as [->%Z.eqb_eq| ->%Z.eqb_eq]; auto.
  - split; [done|]. split; [done|]. split; [|done].
    assert (∀ s : string, s +:+ "" = s) as Ha by (induction s as [|a s IH]; [done|]; change (String a (s +:+ "") = String a s); by rewrite IH). by rewrite Ha.
Qed.
Lemma fraction_bound f n : fraction f n → 0 ≤ n < 1000000000.
Proof. intros [[_ ->]|(p & ds & _ & _ & Hds & _ & ->)]; [lia|]. change 100000000 with (10 ^ Z.of_nat 8). by apply weigh_bound. Qed.

(** ** Whole times *)

Lemma daysIn_length y m : 1 ≤ m ≤ 12 → daysIn m y = month_length y m.
Proof.
  intros Hm. unfold daysIn, month_length. rewrite isLeap_leap.
  assert (m = 1 ∨ m = 2 ∨ m = 3 ∨ m = 4 ∨ m = 5 ∨ m = 6 ∨ m = 7 ∨ m = 8 ∨ m = 9 ∨ m = 10 ∨ m = 11 ∨ m = 12) as Hc by lia. clear Hm.
  destruct Hc as [->|[->|[->|[->|[->|[->|[->|[->|[->|[->|[->| ->]]]]]]]]]]]; destruct (leap y); reflexivity.
Qed.
Lemma in_range_ok lo hi x : lo ≤ x ≤ hi → in_range lo hi x = Some tt.
Proof. intros H. unfold in_range. by rewrite (proj2 (Z.leb_le _ _)), (proj2 (Z.leb_le _ _)) by lia. Qed.
Lemma in_range_inv lo hi x u : in_range lo hi x = Some u → lo ≤ x ≤ hi.
Proof. unfold in_range. destruct (Z.leb_spec lo x), (Z.leb_spec x hi); done. Qed.

Lemma dash r : "-" +:+ r = String (Zbyte 45) r.
Proof. reflexivity. Qed.
Lemma colon r : ":" +:+ r = String (Zbyte 58) r.
Proof. reflexivity. Qed.
Lemma skip_two z v r : 0 ≤ z < 256 → 0 ≤ v ≤ 99 → (x ← skip_byte z (String (Zbyte z) (two v +:+ r)); getnum true x) = Some (v, r).
Proof. intros Hz Hv. rewrite skip_byte_ok by done. cbn [mbind option_bind]. by apply getnum_two. Qed.

Lemma time_parse_spelled s c : spelled s c → time_parse s = Some c.
Proof.
  intros (Hv & k & h & f & -> & Hh & Hf). destruct Hv as (Hy & Hm & Hd & Hho & Hmi & Hs & Hn). pose proof (month_bounds (cv_year c) (cv_month c)) as Hb.
  unfold time_parse. rewrite getyear_four by done. cbn [mbind option_bind].
  rewrite !dash, !colon.
  rewrite skip_byte_ok by lia. cbn [mbind option_bind]. rewrite getnum_two by lia. cbn [mbind option_bind]. rewrite (in_range_ok 1 12) by lia. cbn [mbind option_bind].
  rewrite skip_byte_ok by lia. cbn [mbind option_bind]. rewrite getnum_two by lia. cbn [mbind option_bind].
  set (tl := String (Zbyte 58) (two (cv_min c) +:+ String (Zbyte 58) (two (cv_sec c) +:+ f))).
  assert (skip_blank (blanks (S k) +:+ (h +:+ tl)) = Some (h +:+ tl) ∧ getnum false (h +:+ tl) = Some (cv_hour c, tl)) as [E1 E2].
  { destruct Hh as [->|[H9 ->]].
    - split; [|apply getnum_two; lia]. rewrite two_app. apply skip_blank_ok. rewrite byteZ_Zbyte; Z.to_euclidean_division_equations; lia.
    - split; [|unfold tl; apply getnum_one; [lia|]; by apply digit_val_other; lia]. rewrite dig_app. apply skip_blank_ok. rewrite byteZ_Zbyte; lia. }
  rewrite E1. cbn [mbind option_bind]. rewrite E2. cbn [mbind option_bind]. rewrite (in_range_ok 0 23) by lia. cbn [mbind option_bind]. unfold tl.
  rewrite skip_byte_ok by lia. cbn [mbind option_bind]. rewrite getnum_two by lia. cbn [mbind option_bind]. rewrite (in_range_ok 0 59 (cv_min c)) by lia. cbn [mbind option_bind].
  rewrite skip_byte_ok by lia. cbn [mbind option_bind]. rewrite getnum_two by lia. cbn [mbind option_bind]. rewrite (in_range_ok 0 59 (cv_sec c)) by lia. cbn [mbind option_bind].
  rewrite (getfrac_ok _ _ Hf). cbn [mbind option_bind]. rewrite daysIn_length by done. rewrite in_range_ok by lia. cbn [mbind option_bind]. by destruct c.
Qed.

Lemma time_parse_inv s c : time_parse s = Some c → spelled s c.
Proof.
  unfold time_parse. intros H.
  apply bind_Some in H as ([y v1] & [Hy ->]%getyear_inv & H). apply bind_Some in H as (v2 & ->%skip_byte_inv & H).
  apply bind_Some in H as ([m v3] & [Hm ->]%getnum_fixed & H). apply bind_Some in H as (u1 & Hm'%in_range_inv & H). apply bind_Some in H as (v4 & ->%skip_byte_inv & H).
  apply bind_Some in H as ([d v5] & [Hd ->]%getnum_fixed & H). apply bind_Some in H as (v6 & Hbl%skip_blank_inv & H).
  apply bind_Some in H as ([h v7] & Hh%getnum_inv & H). apply bind_Some in H as (u2 & Hh'%in_range_inv & H). apply bind_Some in H as (v8 & ->%skip_byte_inv & H).
  apply bind_Some in H as ([mi v9] & [Hmi ->]%getnum_fixed & H). apply bind_Some in H as (u3 & Hmi'%in_range_inv & H). apply bind_Some in H as (v10 & ->%skip_byte_inv & H).
  apply bind_Some in H as ([se v11] & [Hse ->]%getnum_fixed & H). apply bind_Some in H as (u4 & Hse'%in_range_inv & H).
  apply bind_Some in H as ([n v12] & Hf & H). destruct v12; [|done]. apply bind_Some in H as (u5 & Hd'%in_range_inv & [= <-]).
  apply getfrac_inv in Hf. pose proof (fraction_bound _ _ Hf) as Hn. rewrite daysIn_length in Hd' by done.
  assert (∃ hh, v6 = hh +:+ String (Zbyte 58) (two mi +:+ String (Zbyte 58) (two se +:+ v11)) ∧ (hh = two h ∨ h ≤ 9 ∧ hh = dig h)) as (hh & -> & Hhh).
  { destruct Hh as [[_ ->]|(_ & Hr & ->)]; [exists (two h); auto|exists (dig h); split; [done|right; split; [lia|done]]]. }
  destruct Hbl as [E|[k ->]]; [exfalso; destruct Hhh as [->|[_ ->]]; discriminate E|].
  split; [unfold valid_time; cbn [cv_year cv_month cv_day cv_hour cv_min cv_sec cv_nsec]; lia|]. exists k, hh, v11.
  cbn [cv_year cv_month cv_day cv_hour cv_min cv_sec cv_nsec]. split; [reflexivity|]. done.
Qed.

Lemma stamp_spelled c : valid_time c → cv_nsec c = 0 → spelled (stamp c) c.
Proof. intros Hv Hn. split; [done|]. exists 0%nat, (two (cv_hour c)), "". split; [|split; [by left|left; done]]. unfold stamp.
  assert (∀ s : string, s +:+ "" = s) as Ha by (induction s as [|a s IH]; [done|]; change (String a (s +:+ "") = String a s); by rewrite IH). rewrite Ha. reflexivity. Qed.
