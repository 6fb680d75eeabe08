From Verif Require Import Proof_GoStr Proof_Pkcs7.
From Verif Require Export Proof_Crypt.
From Coq Require Import Lia.
From stdpp Require Import options.
#[local] Open Scope nat_scope.

(** ** The magic line *)

Lemma bytes_string_str s : bytes_string (str_bytes s) = s.
Proof. apply String.string_of_list_ascii_of_string. Qed.
Lemma str_bytes_app a b : str_bytes (a +:+ b) = str_bytes a ++ str_bytes b.
Proof. induction a as [|c a IH]; [done|]. simpl. by f_equal. Qed.
Lemma str_bytes_length s : length (str_bytes s) = String.length s.
Proof. induction s as [|c s IH]; [done|]. simpl. by f_equal. Qed.

Lemma pretty_go_length (k : nat) x s : (x < 10 ^ N.of_nat k)%N → String.length (pretty_N_go x s) ≤ k + String.length s.
Proof.
  revert x s. induction k as [|k IH]; intros x s Hx.
  - change (10 ^ N.of_nat 0)%N with 1%N in Hx. replace x with 0%N by lia. by rewrite pretty_N_go_0.
  - destruct (decide (x = 0)%N) as [->|Hne]; [rewrite pretty_N_go_0; lia|].
    rewrite pretty_N_go_step by lia. etransitivity; [apply IH|cbn [String.length]; lia].
    rewrite Nat2N.inj_succ, N.pow_succ_r' in Hx. apply N.div_lt_upper_bound; lia.
Qed.
Lemma zeros_length k : String.length (zeros k) = k.
Proof. induction k as [|k IH]; [done|]. cbn [zeros String.length]. by rewrite IH. Qed.
Lemma parse_zeros k s : parse_digits 0 (zeros k +:+ s) = parse_digits 0 s.
Proof.
  induction k as [|k IH]; [done|]. change (zeros (S k) +:+ s) with (String (Zbyte 48) (zeros k +:+ s)).
  cbn [parse_digits]. change (digit_val (Zbyte 48)) with (Some 0%Z). cbv iota. exact IH.
Qed.
Lemma ParseInt_plain s n : parse_digits 0 s = Some n → in_int64 n → s ≠ "" → ParseInt s = Ok n.
Proof.
  intros Hp Hn Hs. destruct s as [|c s]; [done|]. unfold ParseInt.
  assert ((byteZ c =? 45)%Z = false ∧ (byteZ c =? 43)%Z = false) as [-> ->].
  { cbn [parse_digits] in Hp. unfold digit_val in Hp. destruct ((48 <=? byteZ c)%Z && (byteZ c <=? 57)%Z) eqn:E; [|done].
    apply andb_true_iff in E as [E1 E2]. apply Z.leb_le in E1, E2. split; apply Z.eqb_neq; lia. }
  rewrite Hp. by rewrite bool_decide_true.
Qed.
Lemma fmt04_small n : (0 ≤ n ≤ 9999)%Z → String.length (fmt04 n) = 4 ∧ ParseInt (fmt04 n) = Ok n.
Proof.
  intros Hn. destruct n as [|p|p]; [done| |lia]. unfold fmt04. replace (Z.pos p <? 0)%Z with false by lia.
  assert (FormatInt (Z.pos p) = pretty_N_go (N.pos p) "") as -> by done.
  pose proof (pretty_go_length 4 (N.pos p) "") as Hl. cbn [String.length] in Hl. change (10 ^ N.of_nat 4)%N with 10000%N in Hl.
  specialize (Hl ltac:(lia)). split; [rewrite sapp_length, zeros_length; lia|].
  apply ParseInt_plain.
  - rewrite parse_zeros, parse_pretty_go by lia. done.
  - unfold in_int64. lia.
  - intros E. apply (f_equal String.length) in E. rewrite sapp_length in E. cbn [String.length] in E.
    pose proof (parse_pretty_go (N.pos p) "" ltac:(lia)) as Hp. destruct (pretty_N_go (N.pos p) ""); [done|]. cbn [String.length] in E. lia.
Qed.

Lemma pretty_go_app x s t : pretty_N_go x (s +:+ t) = pretty_N_go x s +:+ t.
Proof.
  revert s. induction x as [x IH] using (well_founded_induction N.lt_wf_0). intros s.
  destruct (decide (x = 0)%N) as [->|Hx].
  - by rewrite !pretty_N_go_0.
  - rewrite !(pretty_N_go_step x) by lia. rewrite <-IH; [done|]. apply N.div_lt; lia.
Qed.
Lemma pretty_go_first4 x s : (1000 ≤ x)%N → ∃ m t, (1000 ≤ m ≤ 9999)%N ∧ (m ≤ x)%N ∧
  pretty_N_go x s = pretty_N_go m "" +:+ t.
Proof.
  revert s. induction x as [x IH] using (well_founded_induction N.lt_wf_0). intros s Hx.
  destruct (decide (x ≤ 9999)%N) as [Hle|Hgt].
  - exists x, s. split; [lia|]. split; [lia|]. rewrite <-pretty_go_app. done.
  - rewrite pretty_N_go_step by lia. pose proof (N.mul_div_le x 10).
    assert (1000 ≤ x / 10)%N as H10. { apply N.div_le_lower_bound; lia. }
    assert (x / 10 < x)%N as Hlt by (apply N.div_lt; lia).
    destruct (IH (x / 10)%N Hlt (String (pretty_N_char (x mod 10)) s) H10) as (m & t & Hm & Hmx & E).
    exists m, t. split; [done|]. split; [lia|]. done.
Qed.
Lemma parse_digits_bound acc s v : parse_digits acc s = Some v → (0 ≤ acc)%Z →
  (v < (acc + 1) * 10 ^ Z.of_nat (String.length s))%Z.
Proof.
  revert acc v. induction s as [|c s IHs]; intros acc v; cbn [parse_digits String.length].
  - intros [= <-] ?. simpl. rewrite Z.mul_1_r. lia.
  - destruct (digit_val c) as [d|] eqn:Ed; [|done].
    intros Hv Hacc. assert (0 ≤ d ≤ 9)%Z as Hd.
    { unfold digit_val in Ed. destruct ((48 <=? byteZ c)%Z) eqn:E1; [|done].
      destruct ((byteZ c <=? 57)%Z) eqn:E2; [|done]. injection Ed as <-. lia. }
    specialize (IHs (10 * acc + d)%Z v Hv ltac:(lia)).
    rewrite Nat2Z.inj_succ, Z.pow_succ_r by lia.
    assert (0 < 10 ^ Z.of_nat (String.length s))%Z by (apply Z.pow_pos_nonneg; lia). nia.
Qed.
Lemma pretty_len4 q : (1000 ≤ q)%N → 4 ≤ String.length (pretty_N_go q "").
Proof.
  intros Hq. destruct (decide (4 ≤ String.length (pretty_N_go q ""))) as [|Hlt]; [done|]. exfalso.
  pose proof (parse_pretty_go q "" ltac:(lia)) as Hp. apply parse_digits_bound in Hp; [|lia].
  assert (10 ^ Z.of_nat (String.length (pretty_N_go q "")) ≤ 10 ^ 3)%Z as Hpow by (apply Z.pow_le_mono_r; lia).
  change (10 ^ 3)%Z with 1000%Z in Hpow. lia.
Qed.
Lemma fmt04_large (q : N) : (1000 ≤ q)%N → fmt04 (Z.of_N q) = pretty_N_go q "".
Proof.
  intros Hq. destruct q as [|q]; [lia|]. unfold fmt04. simpl Z.of_N. replace (Z.pos q <? 0)%Z with false by lia.
  assert (FormatInt (Z.pos q) = pretty_N_go (N.pos q) "") as -> by done.
  pose proof (pretty_len4 _ Hq). by replace (4 - _) with 0 by lia.
Qed.
Lemma fmt04_big n : (10000 ≤ n)%Z → ∃ m t, (1000 ≤ m ≤ 9999)%Z ∧ fmt04 n = fmt04 m +:+ t.
Proof.
  intros Hn. destruct (pretty_go_first4 (Z.to_N n) "") as (m & t & Hm & Hmx & E); [lia|].
  exists (Z.of_N m), t. split; [lia|]. rewrite fmt04_large by lia.
  rewrite <-(Z2N.id n) by lia. rewrite fmt04_large by lia. done.
Qed.

Lemma head_of s t n : String.length s = 4 → ParseInt s = Ok n →
  head_ok (take 16 (str_bytes (magicStr +:+ fmt04 1 +:+ s +:+ t))) n.
Proof.
  intros Hl Hp.
  destruct s as [|c1 [|c2 [|c3 [|c4 [|]]]]]; try discriminate Hl.
  split; [done|]. split; [done|]. split; [done|]. exact Hp.
Qed.
Lemma head_small n : (0 ≤ n ≤ 9999)%Z → head_ok (magic_line 1 n) n ∧ length (magic_line 1 n) = 16.
Proof.
  intros Hn. destruct (fmt04_small n Hn) as [Hl Hp].
  pose proof (head_of (fmt04 n) "" n Hl Hp) as H. rewrite sapp_nil in H.
  assert (length (magic_line 1 n) = 16) as Hlen.
  { unfold magic_line. rewrite str_bytes_length, !sapp_length, Hl. done. }
  unfold magic_line in *. rewrite take_ge in H by lia. done.
Qed.
Lemma head_any n : (0 ≤ n)%Z → ∃ m, head_ok (take 16 (magic_line 1 n)) m ∧ (m = 0 ↔ n = 0)%Z ∧
  ((n ≤ 9999)%Z → m = n) ∧ ((9999 < n)%Z → 1000 ≤ m ≤ 9999)%Z.
Proof.
  intros Hn. destruct (decide (n ≤ 9999)%Z) as [Hs|Hb].
  - destruct (head_small n) as [H Hl]; [lia|]. exists n. rewrite take_ge by lia. split; [done|]. split; [done|]. split; [done|lia].
  - destruct (fmt04_big n) as (m & t & Hm & E); [lia|]. exists m. split; [|lia].
    unfold magic_line. rewrite E. destruct (fmt04_small m) as [Hl Hp]; [lia|]. by apply head_of.
Qed.

(** ** Slices of the file *)

Lemma slice_range_vis f sp lo hi : (0 ≤ lo ≤ hi)%Z → (hi ≤ Z.of_nat (length f))%Z →
  slice_range (mk_slice f sp) lo hi = Ok (take (Z.to_nat (hi - lo)) (drop (Z.to_nat lo) f)).
Proof.
  intros H1 H2. unfold slice_range. simpl. rewrite app_length.
  replace (0 <=? lo)%Z with true by lia. replace (lo <=? hi)%Z with true by lia.
  rewrite (proj2 (Z.leb_le _ _)) by lia. cbn [andb].
  rewrite drop_app_le by lia. rewrite take_app_le by (rewrite drop_length; lia). done.
Qed.
Lemma slice_from_vis f sp n : n ≤ length f → slice_from (mk_slice f sp) n = Ok (mk_slice (drop n f) sp).
Proof. intros H. unfold slice_from. simpl. apply Nat.leb_le in H. by rewrite H. Qed.
Lemma copy_at_mid pre rest src : length src ≤ length rest →
  copy_at (pre ++ rest) (length pre) src = Ok (pre ++ src ++ drop (length src) rest).
Proof.
  intros H. unfold copy_at. rewrite app_length.
  replace (length pre <=? length pre + length rest) with true by (symmetry; apply Nat.leb_le; lia).
  rewrite take_app. rewrite take_ge by lia. rewrite drop_app_ge by lia.
  do 2 f_equal. f_equal. f_equal. lia.
Qed.
Lemma copy_at_over rest src : copy_at rest 0 src = Ok (take (length rest) src ++ drop (length src) rest).
Proof. unfold copy_at. simpl. by rewrite Nat.sub_0_r. Qed.
Lemma make_bytes_ok n : make_bytes (Z.of_nat n) = Ok (zeroes n).
Proof. unfold make_bytes. rewrite (proj2 (Z.ltb_ge _ _)) by lia. by rewrite Nat2Z.id. Qed.

(** ** Decrypt on a version 1 file *)

Definition dispatch (P : prims) (n : Z) (user pass : bytes) (key : option bytes) (salt : bytes) (e : slice byte) :=
  if negb (n =? 0)%Z && (length user =? 0)%nat then Fail ENeedUser
  else if (n =? 0)%Z then decryptV1Single P v1 pass key salt e
  else decryptV1Multi P v1 n user pass key salt e.

Lemma take_app_16 (m rest : bytes) k j : length m = 16 → j + k ≤ 16 → take k (drop j (m ++ rest)) = take k (drop j m).
Proof.
  intros Hm Hk. rewrite drop_app_le by lia. rewrite take_app_le; [done|]. rewrite drop_length. lia.
Qed.

Lemma verifyMagic_head m n rest sp : head_ok m n → verifyMagic (mk_slice (m ++ rest) sp) = Ok 1%Z.
Proof.
  intros (Hm & H8 & Hv & Hn). unfold verifyMagic.
  rewrite slice_range_vis by (rewrite ?app_length; lia). cbn [mbind outcome_bind].
  rewrite slice_from_vis by (rewrite ?app_length; lia). cbn [mbind outcome_bind].
  rewrite slice_range_vis by (rewrite ?drop_length, ?app_length; lia). cbn [mbind outcome_bind].
  change (Z.to_nat (8 - 0)) with 8. change (Z.to_nat 0) with 0. change (Z.to_nat (4 - 0)) with 4.
  rewrite (take_app_16 m rest 8 0) by lia. rewrite !drop_0, H8.
  unfold beq. rewrite bool_decide_true by done. cbn [negb].
  rewrite (take_app_16 m rest 4 8) by lia. by rewrite Hv.
Qed.
Lemma count_head m n rest sp : head_ok m n →
  slice_range (mk_slice (m ++ rest) sp) 12 16 = Ok (take 4 (drop 12 m)).
Proof.
  intros (Hm & H8 & Hv & Hn). rewrite slice_range_vis by (rewrite ?app_length; lia).
  change (Z.to_nat (16 - 12)) with 4. change (Z.to_nat 12) with 12. by rewrite (take_app_16 m rest 4 12) by lia.
Qed.
Lemma not_v0 m n rest : head_ok m n → take 16 (m ++ rest) ≠ v0Header.
Proof.
  intros (Hm & H8 & _). intros E. assert (take 8 (take 16 (m ++ rest)) = take 8 v0Header) as E2 by by rewrite E.
  rewrite take_take in E2. change (8 `min` 16) with 8 in E2. rewrite take_app_le in E2 by lia. rewrite H8 in E2.
  vm_compute in E2. done.
Qed.

Lemma Decrypt_head P u pw k s m n rest sp : head_ok m n →
  Decrypt P u pw k s (mk_slice (m ++ rest) sp) =
  ('(p, pt) ← dispatch P n u pw k s (mk_slice (m ++ rest) sp); Ok (1%Z, tag_version 1 p, pt)).
Proof.
  intros Hh. pose proof Hh as (Hm & H8 & Hv & Hn). unfold Decrypt.
  change (zlen v0Header) with 16%Z.
  rewrite slice_range_vis; [|lia|rewrite app_length; lia]. cbn [mbind outcome_bind].
  change (Z.to_nat (16 - 0)) with 16. change (Z.to_nat 0) with 0. rewrite drop_0.
  unfold beq. rewrite bool_decide_false by (intros E; by eapply not_v0). cbn [mbind outcome_bind].
  rewrite (verifyMagic_head m n) by done. cbn [mbind outcome_bind].
  change (getVersion 1) with (Ok v1). cbv iota. unfold decryptV1.
  rewrite (count_head m n) by done. cbn [mbind outcome_bind]. rewrite Hn. done.
Qed.
Lemma IsMultiUser_head m n rest sp : head_ok m n → IsMultiUser (mk_slice (m ++ rest) sp) = Ok (negb (n =? 0)%Z).
Proof.
  intros Hh. pose proof Hh as (Hm & H8 & Hv & Hn). unfold IsMultiUser.
  rewrite (verifyMagic_head m n) by done. cbn [mbind outcome_bind].
  rewrite (count_head m n) by done. cbn [mbind outcome_bind]. by rewrite Hn.
Qed.

(** ** Single-user files *)

(** The key used: the one given if its salt matches, else derived. *)
Definition choose (P : prims) (pass : bytes) (key : option bytes) (salt fsalt : bytes) : outcome bytes :=
  match key with
  | Some k => if beq salt fsalt then Ok k
              else if (length pass =? 0)%nat then Fail EWrongPassphrase else Ok (key_of P pass fsalt)
  | None => if (length pass =? 0)%nat then Fail EWrongPassphrase else Ok (key_of P pass fsalt)
  end.
Definition tag0 (p : Params) : Params := tag_version 0 p.

Lemma take_app_len (l k : bytes) n : n = length l → take n (l ++ k) = l.
Proof. intros ->. apply take_app. Qed.
Lemma drop_app_len (l k : bytes) n : n = length l → drop n (l ++ k) = k.
Proof. intros ->. apply drop_app. Qed.

Lemma single_red P pw key salt m s iv ct sp : length m = 16 → length s = 32 → length iv = 40 →
  decryptV1Single P v1 pw key salt (mk_slice (m ++ s ++ iv ++ ct) sp) =
  (k ← choose P pw key salt s;
   body ← decode P k iv ct;
   pt ← open_body P (m ++ s ++ iv) body;
   Ok (tag0 (single_params k s iv), pt)).
Proof.
  intros Hm Hs Hi. unfold decryptV1Single.
  change (c_saltSize v1) with 32. change (c_blockSize v1) with 40. change magicLen with 16.
  change (16 + 32) with 48. change (48 + 40) with 88.
  assert (length (m ++ s ++ iv ++ ct) = 88 + length ct) as Hlen by (rewrite !app_length; lia).
  rewrite (slice_range_vis _ _ (Z.of_nat 16) (Z.of_nat 48)); [|lia|lia]. cbn [mbind outcome_bind].
  change (Z.to_nat (Z.of_nat 48 - Z.of_nat 16)) with 32. change (Z.to_nat (Z.of_nat 16)) with 16.
  assert (take 32 (drop 16 (m ++ s ++ iv ++ ct)) = s) as Hfs.
  { rewrite drop_app_len by lia. apply take_app_len. lia. }
  rewrite Hfs.
  assert (∀ k : bytes, (ciphers ← makeCiphers k 0 (c_algs v1);
    ct0 ← make_bytes (zlen (vis (mk_slice (m ++ s ++ iv ++ ct) sp)) - Z.of_nat 88);
    rest ← slice_from (mk_slice (m ++ s ++ iv ++ ct) sp) 88;
    ct0 ← copy_at ct0 0 (vis rest);
    iv0 ← slice_range (mk_slice (m ++ s ++ iv ++ ct) sp) (Z.of_nat 48) (Z.of_nat 88);
    body ← unseal P (reverse ciphers) iv0 (length iv0) ct0;
    magic ← slice_range (mk_slice (m ++ s ++ iv ++ ct) sp) 0 (Z.of_nat 16);
    plaintext ← open_body P (magic ++ s ++ iv0) body;
    Ok ({| p_version := 0; NUsers := 0; User := 0; Keys := [k]; Salts := [s]; Users := [];
         IVs := [iv0]; MKeys := []; IVM := None; Master := None |}, plaintext)) =
    (body ← decode P k iv ct; pt ← open_body P (m ++ s ++ iv) body; Ok (tag0 (single_params k s iv), pt))) as Hrest.
  { intros k. unfold decode. destruct (makeCiphers k 0 (c_algs v1)) as [cs| |]; [|done|done]. cbn [mbind outcome_bind].
    cbn [vis]. replace (zlen (m ++ s ++ iv ++ ct) - Z.of_nat 88)%Z with (Z.of_nat (length ct)) by (unfold zlen; lia).
    rewrite make_bytes_ok. cbn [mbind outcome_bind].
    rewrite slice_from_vis by lia. cbn [mbind outcome_bind vis].
    assert (drop 88 (m ++ s ++ iv ++ ct) = ct) as Hd.
    { rewrite !(assoc_L (++)). apply drop_app_len. rewrite !app_length. lia. }
    rewrite Hd. rewrite copy_at_over. cbn [mbind outcome_bind].
    assert (take (length (zeroes (length ct))) ct ++ drop (length ct) (zeroes (length ct)) = ct) as Hc.
    { unfold zeroes. rewrite replicate_length. rewrite take_ge by lia. rewrite drop_ge; [by rewrite app_nil_r|].
      rewrite replicate_length. lia. }
    rewrite Hc. rewrite (slice_range_vis _ _ (Z.of_nat 48) (Z.of_nat 88)); [|lia|lia]. cbn [mbind outcome_bind].
    assert (take (Z.to_nat (Z.of_nat 88 - Z.of_nat 48)) (drop (Z.to_nat (Z.of_nat 48)) (m ++ s ++ iv ++ ct)) = iv) as Hiv.
    { change (Z.to_nat (Z.of_nat 88 - Z.of_nat 48)) with 40. change (Z.to_nat (Z.of_nat 48)) with 48.
      rewrite (assoc_L (++) m s). rewrite drop_app_len by (rewrite app_length; lia). apply take_app_len; lia. }
    rewrite Hiv. destruct (unseal P (reverse cs) iv (length iv) ct) as [body| |]; [|done|done]. cbn [mbind outcome_bind].
    rewrite (slice_range_vis _ _ 0 (Z.of_nat 16)); [|lia|lia]. cbn [mbind outcome_bind].
    assert (take (Z.to_nat (Z.of_nat 16 - 0)) (drop (Z.to_nat 0) (m ++ s ++ iv ++ ct)) = m) as Hmm.
    { change (Z.to_nat (Z.of_nat 16 - 0)) with 16. change (Z.to_nat 0) with 0. rewrite drop_0. apply take_app_len; lia. }
    rewrite Hmm. done. }
  unfold choose. change (deriveKeyV1 P v1 pw s) with (key_of P pw s).
  destruct key as [k|].
  - destruct (beq salt s) eqn:Eb; cbn [negb].
    + unfold beq in Eb. apply bool_decide_eq_true in Eb as ->. cbn [mbind outcome_bind]. apply Hrest.
    + destruct (length pw =? 0); [done|]. cbn [mbind outcome_bind]. apply Hrest.
  - destruct (length pw =? 0); [done|]. cbn [mbind outcome_bind]. apply Hrest.
Qed.

(** A file shorter than the header cannot be opened. *)
Lemma single_short P pw key salt f sp r : length f < 88 → decryptV1Single P v1 pw key salt (mk_slice f sp) ≠ Ok r.
Proof.
  intros Hf. unfold decryptV1Single.
  change (c_saltSize v1) with 32. change (c_blockSize v1) with 40. change magicLen with 16.
  change (16 + 32) with 48. change (48 + 40) with 88.
  intros H. apply bind_Ok in H as (ns & _ & H). apply bind_Ok in H as ([k' s'] & _ & H).
  apply bind_Ok in H as (cs & _ & H). apply bind_Ok in H as (b & H & _).
  unfold make_bytes, zlen in H. cbn [vis] in H. rewrite (proj2 (Z.ltb_lt _ _)) in H by lia. done.
Qed.

(** What Encrypt writes for one user. *)
Lemma encryptV1Single_ok P p iv pt key salt : prims_ok P →
  Keys p !! 0 = Some key → Salts p !! 0 = Some salt →
  length key = 80 → length salt = 32 → length iv = 40 →
  ∃ ct, encryptV1Single P v1 p (Some iv) pt = Ok (magic_line 1 0 ++ salt ++ iv ++ ct) ∧
    decode P key iv ct = Ok (sha512 P ((magic_line 1 0 ++ salt ++ iv) ++ pt) ++ pt) ∧
    64 + length pt < length ct.
Proof.
  intros HP Hk Hs Hkl Hsl Hil. unfold encryptV1Single, idx. rewrite Hk, Hs. cbn [mbind outcome_bind].
  unfold len_is. change (c_keySize v1) with 80. change (c_saltSize v1) with 32. change (c_blockSize v1) with 40.
  rewrite Hkl, Hsl, !Nat.eqb_refl. cbn [check mbind outcome_bind].
  destruct (makeCiphers_ok key 0 (c_algs v1)) as (cs & Hcs & Hg & Hf). { rewrite Hkl. simpl. lia. }
  rewrite Hcs. cbn [mbind outcome_bind]. change magicLen with 16. change (c_version v1) with 1%Z.
  change (16 + 32) with 48. change (48 + 40) with 88.
  rewrite make_bytes_ok. cbn [mbind outcome_bind].
  assert (length (magic_line 1 0) = 16) as Hml by (by apply head_small).
  set (ml := magic_line 1 0) in *.
  assert (copy_at (zeroes 88) 0 ml = Ok (ml ++ zeroes 72)) as ->.
  { pose proof (copy_at_mid [] (zeroes 88) ml) as H. rewrite Hml in H. apply H. simpl. lia. }
  cbn [mbind outcome_bind].
  assert (copy_at (ml ++ zeroes 72) 16 salt = Ok ((ml ++ salt) ++ zeroes 40)) as ->.
  { rewrite <-Hml, copy_at_mid by (rewrite Hsl; simpl; lia). rewrite Hsl. by rewrite <-(assoc_L (++)). }
  cbn [mbind outcome_bind].
  assert (copy_at ((ml ++ salt) ++ zeroes 40) 48 iv = Ok (ml ++ salt ++ iv)) as ->.
  { replace 48 with (length (ml ++ salt)) by (rewrite app_length; lia). rewrite copy_at_mid by (rewrite Hil; simpl; lia).
    rewrite Hil. change (drop 40 (zeroes 40)) with (@nil byte). by rewrite app_nil_r, <-(assoc_L (++)). }
  cbn [mbind outcome_bind].
  assert (bsum cs = 40) as Hb by (rewrite (bsum_fst _ _ Hf); done).
  destruct (seal_unseal P cs iv 0 (sha512 P ((ml ++ salt ++ iv) ++ pt) ++ pt) HP Hg) as (ct & Hse & Hun & Hlen & Hlt). { lia. }
  rewrite Hse. cbn [mbind outcome_bind]. exists ct. split; [by rewrite <-!(assoc_L (++))|].
  split.
  - unfold decode. rewrite Hcs. cbn [mbind outcome_bind]. rewrite Hb in Hun. by rewrite Hil.
  - rewrite app_length, sha512_len in Hlt by done. apply Hlt. intros ->. done.
Qed.

Lemma open_body_red P h b : open_body P h b =
  if (64 <=? length b) then if beq (take 64 b) (sha512 P (h ++ drop 64 b)) then Ok (drop 64 b) else Fail EWrongPassphrase
  else Panic.
Proof.
  unfold open_body. destruct (64 <=? length b) eqn:E.
  - pose proof E as E2. apply Nat.leb_le in E2. rewrite bsub_ok by lia. unfold bfrom. rewrite E. done.
  - apply Nat.leb_gt in E. by rewrite bsub_panic by lia.
Qed.
Lemma open_body_ok P h b pt : open_body P h b = Ok pt ↔ b = take 64 b ++ pt ∧ length (take 64 b) = 64 ∧ take 64 b = sha512 P (h ++ pt).
Proof.
  rewrite open_body_red. destruct (64 <=? length b) eqn:E.
  - apply Nat.leb_le in E. unfold beq. case_bool_decide as Hb.
    + split.
      * intros [= <-]. split; [by rewrite take_drop|]. split; [rewrite take_length; lia|done].
      * intros (H1 & H2 & H3). f_equal. rewrite H1 at 1. apply drop_app_len; lia.
    + split; [done|]. intros (H1 & H2 & H3). exfalso. apply Hb. rewrite H3. do 2 f_equal.
      rewrite H1 at 1. symmetry. apply drop_app_len; lia.
  - apply Nat.leb_gt in E. split; [done|].
    intros (H1 & H2 & H3). rewrite take_length in H2. lia.
Qed.
Lemma open_body_genuine P h pt : prims_ok P → open_body P h (sha512 P (h ++ pt) ++ pt) = Ok pt.
Proof.
  intros HP. pose proof (sha512_len _ HP (h ++ pt)) as Hl. apply open_body_ok.
  rewrite take_app_len by lia. done.
Qed.
