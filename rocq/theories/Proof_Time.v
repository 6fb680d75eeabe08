(** Proofs about the calendar and about reading times. *)
From Verif Require Export Spec_Cli Proof_GoStr.
From Verif Require Import Proof_PassGen.
From Coq Require Import Lia.
From stdpp Require Import options.
Import Model_GoStr.
#[local] Open Scope Z_scope.
#[local] Ltac Zify.zify_post_hook ::= Z.to_euclidean_division_equations.

(** ** Numbers of days *)

Lemma isLeap_leap y : isLeap y = leap y.
Proof.
  unfold isLeap, leap.
  destruct (Z.eqb_spec (y mod 4) 0), (Z.eqb_spec (y mod 100) 0), (Z.eqb_spec (y mod 400) 0); try done; exfalso; lia.
Qed.

(** The years one after the other *)
Lemma year_next y : -1000000 ≤ y → daysSinceEpoch (y + 1) = daysSinceEpoch y + (if leap y then 366 else 365).
Proof.
  intros Hy. unfold daysSinceEpoch, leap, absoluteZeroYear.
  destruct (Z.eqb_spec (y mod 4) 0), (Z.eqb_spec (y mod 100) 0), (Z.eqb_spec (y mod 400) 0); cbn [andb orb negb]; lia.
Qed.
Lemma years_between y k : -1000000 ≤ y → daysSinceEpoch y + 365 * Z.of_nat k ≤ daysSinceEpoch (y + Z.of_nat k).
Proof.
  intros Hy. induction k as [|k IH]; [change (Z.of_nat 0) with 0; rewrite !Z.add_0_r; lia|].
  replace (y + Z.of_nat (S k)) with (y + Z.of_nat k + 1) by lia. rewrite year_next by lia. destruct (leap _); lia.
Qed.
Lemma years_after y y' : -1000000 ≤ y → y < y' → daysSinceEpoch y + (if leap y then 366 else 365) ≤ daysSinceEpoch y'.
Proof.
  intros Hy Hl. pose proof (years_between (y + 1) (Z.to_nat (y' - (y + 1)))) as H. rewrite year_next in H by done.
  replace (y + 1 + Z.of_nat (Z.to_nat (y' - (y + 1)))) with y' in H by lia. specialize (H ltac:(lia)). lia.
Qed.

(** The days of the year before a month *)
Definition before (y m : Z) : Z := if leap y && (3 <=? m) then daysBefore (m - 1) + 1 else daysBefore (m - 1).
Lemma before_next y m : 1 ≤ m ≤ 11 → before y (m + 1) = before y m + month_length y m.
Proof.
  intros Hm. assert (m = 1 ∨ m = 2 ∨ m = 3 ∨ m = 4 ∨ m = 5 ∨ m = 6 ∨ m = 7 ∨ m = 8 ∨ m = 9 ∨ m = 10 ∨ m = 11) as Hc by lia. clear Hm. unfold before, month_length.
  destruct Hc as [->|[->|[->|[->|[->|[->|[->|[->|[->|[->| ->]]]]]]]]]]; destruct (leap y); reflexivity.
Qed.
Lemma before_last y : before y 12 + 31 = (if leap y then 366 else 365).
Proof. unfold before. by destruct (leap y). Qed.
Lemma before_first y : before y 1 = 0.
Proof. unfold before. by destruct (leap y). Qed.
Lemma month_bounds y m : 28 ≤ month_length y m ≤ 31.
Proof. unfold month_length. destruct (m =? 2); [destruct (leap y); lia|]. destruct (_ || _); lia. Qed.
Lemma before_mono y m k : 1 ≤ m → m + Z.of_nat (S k) ≤ 12 → before y m + month_length y m ≤ before y (m + Z.of_nat (S k)).
Proof.
  intros H1 H2. induction k as [|k IH].
  - change (Z.of_nat 1) with 1. rewrite before_next by lia. lia.
  - replace (m + Z.of_nat (S (S k))) with (m + Z.of_nat (S k) + 1) by lia. rewrite before_next by lia. pose proof (month_bounds y (m + Z.of_nat (S k))). lia.
Qed.
Lemma before_after y m m' : 1 ≤ m → m < m' → m' ≤ 12 → before y m + month_length y m ≤ before y m'.
Proof. intros H1 H2 H3. pose proof (before_mono y m (Z.to_nat (m' - m - 1)) H1) as H. replace (m + Z.of_nat (S (Z.to_nat (m' - m - 1)))) with m' in H by lia. by apply H. Qed.
Lemma before_le y m : 1 ≤ m ≤ 12 → before y m + month_length y m ≤ (if leap y then 366 else 365) ∧ 0 ≤ before y m.
Proof.
  intros Hm. split.
  - rewrite <- before_last. destruct (decide (m = 12)) as [->|Hn]; [by unfold month_length; cbn|]. pose proof (before_after y m 12 ltac:(lia) ltac:(lia) ltac:(lia)). lia.
  - rewrite <- (before_first y). destruct (decide (m = 1)) as [->|Hn]; [done|]. pose proof (before_after y 1 m ltac:(lia) ltac:(lia) ltac:(lia)). pose proof (month_bounds y 1). lia.
Qed.

Lemma Date_days c : Date_unix c = (daysSinceEpoch (cv_year c) + before (cv_year c) (cv_month c) + (cv_day c - 1)) * 86400 + cv_hour c * 3600 + cv_min c * 60 + cv_sec c
  + (absoluteToInternal - unixToInternal).
Proof. unfold Date_unix, before, secondsPerDay. rewrite isLeap_leap. destruct (leap _ && _); lia. Qed.

Lemma Date_epoch : Date_unix epoch = 0.
Proof. reflexivity. Qed.
Lemma Date_next c : valid_time c → Date_unix (next_day c) = Date_unix c + 86400.
Proof.
  intros (Hy & Hm & Hd & _). rewrite !Date_days. unfold next_day.
  destruct (Z.ltb_spec (cv_day c) (month_length (cv_year c) (cv_month c))); cbn [cv_year cv_month cv_day cv_hour cv_min cv_sec]; [lia|].
  destruct (Z.ltb_spec (cv_month c) 12); cbn [cv_year cv_month cv_day cv_hour cv_min cv_sec].
  - rewrite before_next by lia. lia.
  - assert (cv_month c = 12) as E by lia. rewrite E in *. rewrite year_next, before_first by lia. pose proof (before_last (cv_year c)). change (month_length (cv_year c) 12) with 31 in *. lia.
Qed.
Lemma next_valid c : valid_time c → cv_year c < 9999 → valid_time (next_day c).
Proof.
  intros (Hy & Hm & Hd & Hr) Hl. unfold valid_time, next_day.
  destruct (Z.ltb_spec (cv_day c) (month_length (cv_year c) (cv_month c))); cbn [cv_year cv_month cv_day cv_hour cv_min cv_sec cv_nsec]; [repeat split; try lia; apply Hr|].
  destruct (Z.ltb_spec (cv_month c) 12); cbn [cv_year cv_month cv_day cv_hour cv_min cv_sec cv_nsec].
  - pose proof (month_bounds (cv_year c) (cv_month c + 1)). repeat split; try lia; apply Hr.
  - pose proof (month_bounds (cv_year c + 1) 1). repeat split; try lia; apply Hr.
Qed.
Lemma Date_time c : Date_unix c = Date_unix (midnight c) + 3600 * cv_hour c + 60 * cv_min c + cv_sec c.
Proof. rewrite !Date_days. unfold midnight. cbn [cv_year cv_month cv_day cv_hour cv_min cv_sec]. lia. Qed.

(** Later times have larger numbers. *)
Lemma sooner_instant c c' : valid_time c → valid_time c' → sooner c c' → instant c < instant c'.
Proof.
  intros (Hy & Hm & Hd & Hh & Hi & Hs & Hn) (Hy' & Hm' & Hd' & Hh' & Hi' & Hs' & Hn') H. unfold instant. rewrite !Date_days. unfold sooner in H.
  pose proof (before_le (cv_year c) (cv_month c) Hm) as [Hb _]. pose proof (before_le (cv_year c') (cv_month c') Hm') as [_ Hb'].
  destruct H as [H|[E H]]; [pose proof (years_after (cv_year c) (cv_year c') ltac:(lia) H); lia|]. rewrite E in *.
  destruct H as [H|[E2 H]]; [pose proof (before_after (cv_year c') (cv_month c) (cv_month c') ltac:(lia) H ltac:(lia)); lia|]. rewrite E2 in *. lia.
Qed.
Lemma sooner_total c c' : c = c' ∨ sooner c c' ∨ sooner c' c.
Proof.
  destruct c as [y m d h i s n], c' as [y' m' d' h' i' s' n']. unfold sooner. cbn [cv_year cv_month cv_day cv_hour cv_min cv_sec cv_nsec].
  destruct (Z.lt_trichotomy y y') as [?|[->|?]]; [auto| |auto]. destruct (Z.lt_trichotomy m m') as [?|[->|?]]; [auto 10| |auto 10].
  destruct (Z.lt_trichotomy d d') as [?|[->|?]]; [auto 10| |auto 10]. destruct (Z.lt_trichotomy h h') as [?|[->|?]]; [auto 12| |auto 12].
  destruct (Z.lt_trichotomy i i') as [?|[->|?]]; [auto 14| |auto 14]. destruct (Z.lt_trichotomy s s') as [?|[->|?]]; [auto 16| |auto 16].
  destruct (Z.lt_trichotomy n n') as [?|[->|?]]; [auto 18|auto|auto 18].
Qed.
Lemma instant_inj c c' : valid_time c → valid_time c' → instant c = instant c' → c = c'.
Proof. intros H H' E. destruct (sooner_total c c') as [?|[Hs|Hs]]; [done|apply sooner_instant in Hs; [lia|done..]|apply sooner_instant in Hs; [lia|done..]]. Qed.

(** From 1678 to 2261 the nanoseconds fit. *)
Lemma UnixNano_fits c : valid_time c → representable c → UnixNano c = instant c ∧ in_int64 (instant c).
Proof.
  intros Hv Hr. enough (in_int64 (instant c)) by (split; [by apply wrap64_id|done]).
  set (lo := mk_civil 1677 12 31 23 59 59 0). set (hi := mk_civil 2262 1 1 0 0 0 0). unfold representable in Hr.
  assert (instant lo < instant c).
  { apply sooner_instant; [unfold valid_time; cbn; lia|done|]. left. cbn. lia. }
  assert (instant c < instant hi).
  { apply sooner_instant; [done|unfold valid_time; cbn; lia|]. left. cbn. lia. }
  unfold in_int64. assert (instant lo = -9214560001000000000) as E1 by reflexivity. assert (instant hi = 9214646400000000000) as E2 by reflexivity. lia.
Qed.
Lemma IsZero_year_one c : valid_time c → IsZero c = true ↔ c = mk_civil 1 1 1 0 0 0 0.
Proof.
  intros Hv. unfold IsZero. split.
  - intros [H1%Z.eqb_eq H2%Z.eqb_eq]%andb_true_iff. apply instant_inj; [done|unfold valid_time; cbn; lia|]. unfold instant. rewrite H2.
    replace (Date_unix c) with (- unixToInternal) by lia. reflexivity.
  - intros ->. reflexivity.
Qed.
