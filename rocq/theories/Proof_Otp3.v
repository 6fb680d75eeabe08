(** Proofs about the codes that are shown. *)
From Verif Require Import Spec_Otp Proof_GoStr Proof_Crypt2 Proof_Scp Proof_Url Proof_Otp Proof_Otp2.
From Coq Require Import Lia.
From stdpp Require Import options.
Import Model_GoStr.
#[local] Open Scope Z_scope.

(** ** The counter *)
Lemma be64_number n : 0 ≤ n < 2 ^ 64 → number 256 (byteZ <$> be64 n) = n.
Proof.
  intros H. unfold be64. cbn [seq fmap list_fmap]. unfold number. cbn [fold_left].
  rewrite !byteZ_Zbyte by (apply Z.mod_pos_bound; lia).
  change (256 ^ (7 - Z.of_nat 0)) with 72057594037927936. change (256 ^ (7 - Z.of_nat 1)) with 281474976710656. change (256 ^ (7 - Z.of_nat 2)) with 1099511627776.
  change (256 ^ (7 - Z.of_nat 3)) with 4294967296. change (256 ^ (7 - Z.of_nat 4)) with 16777216. change (256 ^ (7 - Z.of_nat 5)) with 65536.
  change (256 ^ (7 - Z.of_nat 6)) with 256. change (256 ^ (7 - Z.of_nat 7)) with 1. change (2 ^ 64) with 18446744073709551616 in H.
  Z.div_mod_to_equations. lia.
Qed.

(** ** The value *)
Lemma byte_bound c : 0 ≤ byteZ c < 256.
Proof. apply byteZ_range. Qed.
Lemma hotp_ok sum : length sum = 20%nat → ∃ l v, last sum = Some l ∧ hotp_value sum = Ok v ∧ 0 ≤ v ∧
  v = number 256 (byteZ <$> take 4 (drop (Z.to_nat (byteZ l mod 16)) sum)) mod 2 ^ 31.
Proof.
  intros H. destruct (last sum) as [l|] eqn:El; [|apply last_None in El; by subst].
  unfold hotp_value. rewrite El. set (o := Z.to_nat (byteZ l mod 16)).
  assert (o < 16)%nat as Ho by (unfold o; pose proof (Z.mod_pos_bound (byteZ l) 16); lia).
  destruct (lookup_lt_is_Some_2 sum o) as [a Ha]; [lia|]. destruct (lookup_lt_is_Some_2 sum (o + 1)) as [b Hb]; [lia|].
  destruct (lookup_lt_is_Some_2 sum (o + 2)) as [c Hc]; [lia|]. destruct (lookup_lt_is_Some_2 sum (o + 3)) as [d Hd]; [lia|].
  rewrite Ha, Hb, Hc, Hd. exists l. eexists. split; [done|]. split; [reflexivity|]. fold o.
  assert (take 4 (drop o sum) = [a; b; c; d]) as ->.
  { apply list_eq. intros i. destruct (decide (i < 4)%nat) as [Hi|Hi].
    - rewrite lookup_take by done. rewrite lookup_drop. destruct i as [|[|[|[|i]]]]; [rewrite Nat.add_0_r; done|done..|lia].
    - rewrite lookup_take_ge by lia. symmetry. apply lookup_ge_None. cbn. lia. }
  pose proof (byte_bound a). pose proof (byte_bound b). pose proof (byte_bound c). pose proof (byte_bound d).
  unfold number. cbn [fmap list_fmap fold_left]. change (2 ^ 31) with 2147483648. change (2 ^ 24) with 16777216. change (2 ^ 16) with 65536. change (2 ^ 8) with 256.
  split; Z.div_mod_to_equations; lia.
Qed.

(** ** Six digits *)
Lemma parsed_digits s acc v : parse_digits acc s = Some v → each digit s ∧ v = fold_left (λ a d, a * 10 + d) ((λ c, byteZ c - 48) <$> list_ascii_of_string s) acc.
Proof.
  revert acc. induction s as [|c s IH]; intros acc; cbn [parse_digits].
  - by intros [= <-].
  - unfold digit_val. destruct ((48 <=? byteZ c) && (byteZ c <=? 57)) eqn:E; [|done]. intros H. apply IH in H as [H1 H2].
    apply andb_true_iff in E as [E1%Z.leb_le E2%Z.leb_le]. split; [split; [unfold digit; lia|done]|]. cbn [list_ascii_of_string fmap list_fmap fold_left].
    by replace (acc * 10 + (byteZ c - 48)) with (10 * acc + (byteZ c - 48)) by lia.
Qed.
Lemma zeros_parse k s acc : acc = 0 → parse_digits acc (zero_signs k +:+ s) = parse_digits 0 s.
Proof. intros ->. induction k as [|k IH]; [done|]. cbn. exact IH. Qed.
Lemma zero_length k : String.length (zero_signs k) = k.
Proof. induction k as [|k IH]; [done|]. cbn. by rewrite IH. Qed.
Lemma FormatInt_length n : 0 ≤ n < 10 ^ 6 → (String.length (FormatInt n) ≤ 6)%nat.
Proof.
  intros H. unfold FormatInt. destruct n as [|p|p]; [cbn; lia| |lia].
  change (pretty (Z.pos p)) with (pretty (N.pos p)). unfold pretty, pretty_N. 
  destruct (decide (N.pos p = 0%N)); [done|]. pose proof (pretty_go_length 6 (N.pos p) "") as L. cbn [String.length] in L. rewrite Nat.add_0_r in L. apply L.
  change (10 ^ N.of_nat 6)%N with 1000000%N. change (10 ^ 6) with 1000000 in H. lia.
Qed.
Lemma six_ok n : 0 ≤ n < 10 ^ 6 → String.length (six_digits n) = 6%nat ∧ each digit (six_digits n) ∧ number 10 ((λ c, byteZ c - 48) <$> list_ascii_of_string (six_digits n)) = n.
Proof.
  intros H. pose proof (FormatInt_length n H) as L. unfold six_digits. cbv zeta. split.
  - rewrite sapp_length, zero_length. lia.
  - destruct (parse_FormatInt n) as (c & r & _ & _ & E); [lia|].
    assert (parse_digits 0 (zero_signs (6 - String.length (FormatInt n)) +:+ FormatInt n) = Some n) as E' by (rewrite zeros_parse; done).
    apply parsed_digits in E' as [H1 H2]. split; [done|]. unfold number. by rewrite <-H2.
Qed.

(** ** Codes *)
Lemma code_of_key up hmac secret now key : (∀ k x, length (hmac k x) = 20%nat) → 0 ≤ now < 2 ^ 64 →
  b32_decode (ToUpper up (pad8 (TrimSpace secret))) = Some key → ∃ code, GenerateCode up hmac secret now = Ok code ∧ rfc_code hmac key now code.
Proof.
  intros Hh Hn E. unfold GenerateCode. rewrite E. destruct (hotp_ok (hmac key (be64 (now / 30))) (Hh _ _)) as (l & v & Hl & Hv & Hv0 & Ev). rewrite Hv. cbn [mbind outcome_bind].
  exists (six_digits (v mod 10 ^ 6)). split; [done|]. exists (be64 (now / 30)), l.
  destruct (six_ok (v mod 10 ^ 6)) as (H1 & H2 & H3); [apply Z.mod_pos_bound; lia|].
  split; [done|]. split; [apply be64_number; split; [apply Z.div_pos; lia|apply Z.div_lt_upper_bound; lia]|]. split; [done|]. split; [done|]. split; [done|]. rewrite H3. by rewrite Ev.
Qed.
Lemma code_shape up hmac secret now : (∀ k x, length (hmac k x) = 20%nat) → 
  (∃ code, GenerateCode up hmac secret now = Ok code ∧ String.length code = 6%nat ∧ each digit code) ∨ ∃ e, GenerateCode up hmac secret now = Fail e.
Proof.
  intros Hh. unfold GenerateCode. destruct (b32_decode _) as [key|]; [|right; by eexists].
  destruct (hotp_ok (hmac key (be64 (now / 30))) (Hh _ _)) as (l & v & Hl & Hv & Hv0 & Ev). rewrite Hv. cbn [mbind outcome_bind]. left. eexists. split; [reflexivity|].
  destruct (six_ok (v mod 10 ^ 6)) as (H1 & H2 & H3); [apply Z.mod_pos_bound; lia|]. done.
Qed.
Lemma pad8_pad8 s : pad8 (pad8 s) = pad8 s.
Proof.
  unfold pad8 at 1. assert (String.length (pad8 s) mod 8 = 0)%nat as ->; [|done]. rewrite pad8_shape, sapp_length.
  assert (∀ n, String.length (equals_signs n) = n) as -> by (induction n as [|n IH]; [done|]; cbn; by rewrite IH).
  unfold npad. destruct (Nat.eqb_spec (String.length s mod 8) 0) as [E|E]; [by rewrite Nat.add_0_r|].
  pose proof (Nat.mod_upper_bound (String.length s) 8). pose proof (Nat.div_mod (String.length s) 8).
  replace (String.length s + (8 - String.length s mod 8))%nat with ((String.length s / 8 + 1) * 8)%nat by lia. by apply Nat.mod_mul.
Qed.
Lemma padded_code up hmac s now : all_bytes dark s = true → GenerateCode up hmac (pad8 s) now = GenerateCode up hmac s now.
Proof.
  intros H. unfold GenerateCode. rewrite (dark_trim s H). rewrite dark_trim; [by rewrite pad8_pad8|]. rewrite pad8_shape, all_app, H. 
  induction (npad (String.length s)) as [|n IH]; [done|]. cbn [equals_signs all_bytes]. cbn [andb] in IH. by rewrite IH.
Qed.
