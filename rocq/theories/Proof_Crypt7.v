From Verif Require Import Proof_GoStr Proof_Pkcs7.
From Verif Require Export Proof_Crypt6.
From Coq Require Import Lia.
From stdpp Require Import options.
#[local] Open Scope nat_scope.

Lemma Ok_eq {A} (x y : A) : Ok x = Ok y → x = y.
Proof. by intros [= ->]. Qed.
Lemma three_ciphers k : length k = 80 →
  ∃ ka kc k5, makeCiphers k 0 (c_algs v1) = Ok [(AES, ka); (Camellia, kc); (CAST5, k5)].
Proof.
  intros Hk. destruct (makeCiphers_ok k 0 (c_algs v1)) as (cs & Hcs & _ & Hf). { rewrite Hk. simpl. lia. }
  destruct cs as [|[a1 k1] [|[a2 k2] [|[a3 k3] [|]]]]; try done. simpl in Hf. injection Hf as -> -> ->. eauto.
Qed.

(** ** Unknown users *)

Lemma unknown_red P p riv pt name0 key0 salt0 name pass sp : prims_ok P → multi_ok p → (NUsers p ≤ 9999)%Z →
  enrolled P p 0 name0 key0 → Salts p !! 0 = Some salt0 → pass ≠ [] → key0 = key_of P pass salt0 →
  sha256 P name ∉ Users p → name ≠ [] →
  ∃ h ct, Encrypt P 1 p riv pt = Ok (h ++ ct) ∧ length h = 16 + 184 * nusers p + 40 ∧
    ∀ key' salt', key' = None ∨ key' = Some [] ∨ salt' ≠ salt0 →
    let e := mk_slice (h ++ ct) sp in
    (length (h ++ ct) + length sp < 16 + 184 * (nusers p + 1) + 40 → Decrypt P name pass key' salt' e = Panic) ∧
    ∀ v p' pt', Decrypt P name pass key' salt' e = Ok (v, p', pt') →
      pt' = pt ∧ ∃ extra, length extra = 184 ∧ collision P (h ++ pt) (h ++ extra ++ pt).
Proof.
  intros HP Hok H9 (Hu & _ & m & iv & mk & HM & HIv & HMk & HW) Hsalt Hp Hkey Hun Hname.
  destruct (multi_genuine P p riv pt HP Hok) as (m' & ivm & ct & HM' & HI & Lm & Li & E & Hd & Hl).
  rewrite HM in HM'. injection HM' as <-.
  destruct (multi_layout p ivm ct Hok Li H9) as (Hlay & Hh & Ht & Hread & Htok).
  destruct (multi_ok_parts p Hok) as (Hs & Hms & Hn & _).
  assert (length (multi_header p ivm) = 16 + 184 * nusers p + 40) as HLh.
  { unfold multi_header. rewrite !app_length. destruct Hh as [Hh _]. fold (nusers p) in Ht. lia. }
  exists (multi_header p ivm), ct. split; [done|]. split; [done|]. intros key' salt' Hc e.
  assert (Decrypt P name pass key' salt' e = ('(q, pt') ← (
     header ← slice_range e 0 (16 + 184 * (NUsers p + 1) + 40);
     pt' ← open_body P header (sha512 P (multi_header p ivm ++ pt) ++ pt);
     Ok (multi_result true (NUsers p) 0 key0 {| t_users := Users p; t_salts := Salts p; t_ivs := IVs p; t_mkeys := MKeys p |} ivm m, pt'));
     Ok (1%Z, tag_version 1 q, pt'))) as Hred.
  { unfold e. rewrite Hlay. rewrite (Decrypt_head P name pass key' salt' _ (NUsers p)) by done. unfold dispatch.
    rewrite (len0 name Hname), andb_false_r. rewrite (proj2 (Z.eqb_neq (NUsers p) 0)) by lia.
    rewrite (multi_red P (NUsers p) name pass key' salt' _ _ _ ivm ct sp ltac:(lia) (proj1 Hh) Li Ht Hread Htok).
    cbn [t_users t_salts t_ivs t_mkeys]. rewrite find_user_none by done. change (-1 <? 0)%Z with true. cbv zeta iota.
    rewrite (at_some _ _ _ Hsalt), (at_some _ _ _ HIv), (at_some _ _ _ HMk).
    rewrite choose_m_pass by done. cbn [mbind outcome_bind].
    assert (unwrap_key P (key_of P pass salt0) iv mk = Ok m) as ->.
    { rewrite <-Hkey. destruct (EncryptMasterKey_ok P key0 m iv) as (mk' & E1 & E2 & E3); try done.
      - rewrite Hkey. unfold key_of. by apply scrypt_len.
      - assert (Forall (λ s, length s = 40) (IVs p)) as Hf by apply Hms. by eapply Forall_lookup_1 in Hf.
      - rewrite HW in E1. injection E1 as <-. done. }
    cbn [mbind outcome_bind]. rewrite Hd. cbn [mbind outcome_bind]. by rewrite Hkey. }
  rewrite Hred. split.
  - intros Hshort. unfold slice_range, e. cbn [vis spare].
    destruct (_ && _) eqn:Eb; [|done]. exfalso. rewrite !andb_true_iff, !Z.leb_le, app_length in Eb. unfold nusers in *. lia.
  - intros v p' pt' H. apply bind_Ok in H as ([q pt2] & H & HR). injection HR as _ _ <-.
    apply bind_Ok in H as (header & Hhd & H). apply bind_Ok in H as (pt3 & Hpt & H). injection H as _ <-.
    apply open_body_ok in Hpt as (Hb1 & _ & Hb2). rewrite take_app_len in Hb1, Hb2 by (by rewrite sha512_len).
    apply app_inv_head in Hb1 as <-. split; [done|].
    assert (length header = 16 + 184 * (nusers p + 1) + 40 ∧ take (length (multi_header p ivm)) header = multi_header p ivm) as [Lh Th].
    { unfold slice_range, e in Hhd. cbn [vis spare] in Hhd. destruct (_ && _) eqn:Eb in Hhd; [|done]. apply Ok_eq in Hhd. subst header.
      rewrite !andb_true_iff, !Z.leb_le in Eb. change (Z.to_nat 0) with 0. rewrite drop_0, take_take, take_length.
      unfold nusers in *. split; [lia|]. rewrite Nat.min_l by lia. rewrite <-(assoc_L (++)). by apply take_app_len. }
    exists (drop (length (multi_header p ivm)) header). rewrite drop_length. split; [lia|].
    assert (header = multi_header p ivm ++ drop (length (multi_header p ivm)) header) as Hsplit.
    { rewrite <-(take_drop (length (multi_header p ivm)) header) at 1. by rewrite Th. }
    split.
    + intros Heq. apply (f_equal length) in Heq. rewrite !app_length, drop_length in Heq. lia.
    + rewrite Hb2. rewrite Hsplit at 1. by rewrite <-(assoc_L (++)).
Qed.

(** ** No passphrase *)

Lemma no_pass_inv P u key salt f sp v p pt : Decrypt P u [] key salt (mk_slice f sp) = Ok (v, p, pt) →
  ∃ k, key = Some k ∧ k ≠ [] ∧ Salts p !! Z.to_nat (User p) = Some salt ∧ Keys p !! Z.to_nat (User p) = Some k.
Proof.
  intros H. apply Decrypt_inv in H as (-> & m & rest & n & p0 & Hf & Hh & Hn & -> & H).
  unfold dispatch in H. destruct (negb (n =? 0)%Z && (length u =? 0)); [done|]. destruct (n =? 0)%Z eqn:En.
  - apply single_inv in H as (m' & s' & iv & ct & k' & -> & Lm & Ls & Li & Hc & -> & Hd).
    unfold choose in Hc. destruct key as [k|]; [|done]. unfold beq in Hc. case_bool_decide as Hs; [|done]. injection Hc as <-.
    exists k. split; [done|]. split; [|by rewrite Hs].
    intros ->. unfold decode in Hd. done.
  - apply Z.eqb_neq in En. clear Hf.
    apply multi_inv in H as (m' & tbl & t & ivm & ct & -> & Lm & Lt & Li & Hread & Hok & k' & master & header & Hk & Hm & Hhd & Hd & ->); [|lia].
    set (found := find_user (sha256 P u) 0 (t_users t)) in *. set (unk := (found <? 0)%Z) in *.
    set (usr := if unk then 0 else Z.to_nat found) in *. cbn [User tag_version multi_result Salts Keys]. rewrite Nat2Z.id.
    destruct Hok as (L1 & L2 & _).
    assert (usr < Z.to_nat n) as Hlt.
    { unfold usr, unk. destruct (found <? 0)%Z eqn:E; [lia|]. apply Z.ltb_ge in E.
      destruct (find_user_range (sha256 P u) 0 (t_users t)) as [Hr|Hr]; fold found in Hr; lia. }
    unfold choose_m in Hk. destruct (_ || _) eqn:Eb in Hk; [done|]. injection Hk as <-.
    apply orb_false_iff in Eb as [Eb1 Eb2]. apply negb_false_iff in Eb2. unfold beq in Eb2. apply bool_decide_eq_true in Eb2.
    destruct key as [k|]; [|done]. unfold nil_bytes in *. cbn [default id] in *. exists k. split; [done|].
    split; [by intros ->|]. split.
    + destruct (lookup_lt_is_Some_2 (t_salts t) usr) as [s Hs]; [lia|].
      assert (s = salt) as ->. { rewrite Eb2. unfold at_. by rewrite Hs. }
      destruct unk; [rewrite lookup_app_l by lia|]; done.
    + apply list_lookup_insert. rewrite replicate_length. destruct unk; lia.
Qed.

(** ** Crashes and errors *)

Lemma IsMultiUser_short f sp : length f < 8 → IsMultiUser (mk_slice f sp) = Panic.
Proof.
  intros Hf. unfold IsMultiUser, verifyMagic. destruct (slice_range _ 0 8) as [x|e|] eqn:E; [|by apply slice_range_no_fail in E|done].
  cbn [mbind outcome_bind]. unfold slice_from. cbn [vis]. by rewrite (proj2 (Nat.leb_gt _ _)) by lia.
Qed.
Lemma Decrypt_short P u pw k s f n : length f < 8 → Decrypt P u pw k s (mk_slice f (zeroes n)) = Panic.
Proof.
  intros Hf. unfold Decrypt. destruct (slice_range _ 0 (zlen v0Header)) as [x|e|] eqn:E; [|by apply slice_range_no_fail in E|done].
  cbn [mbind outcome_bind]. unfold slice_range in E. destruct (_ && _) eqn:Eb in E; [|done]. apply Ok_eq in E. subst x.
  change (Z.to_nat 0) with 0. rewrite drop_0. cbn [vis spare]. change (Z.to_nat (zlen v0Header - 0)) with 16.
  rewrite beq_ne.
  - unfold verifyMagic. destruct (slice_range _ 0 8) as [x|e|] eqn:E; [|by apply slice_range_no_fail in E|done].
    cbn [mbind outcome_bind]. unfold slice_from. cbn [vis]. by rewrite (proj2 (Nat.leb_gt _ _)) by lia.
  - intros Hv. apply (f_equal (λ l, l !! 15)) in Hv. rewrite lookup_take in Hv by lia.
    rewrite lookup_app_r in Hv by lia. unfold zeroes in Hv.
    change (v0Header !! 15) with (Some (Zbyte 49)) in Hv. symmetry in Hv. apply lookup_replicate in Hv as [Hv _]. by vm_compute in Hv.
Qed.
Lemma Decrypt_no_spare P u pw k s f : length f < 16 → Decrypt P u pw k s (mk_slice f []) = Panic.
Proof.
  intros Hf. unfold Decrypt, slice_range. cbn [vis spare]. rewrite app_nil_r. change (zlen v0Header) with 16%Z.
  destruct (_ && _) eqn:Eb; [|done]. exfalso. rewrite !andb_true_iff, !Z.leb_le in Eb. lia.
Qed.

Lemma IsMultiUser_long f sp : 16 ≤ length f → IsMultiUser (mk_slice f sp) ≠ Panic.
Proof.
  intros Hf. unfold IsMultiUser, verifyMagic.
  rewrite (slice_range_vis f sp 0 8) by lia. cbn [mbind outcome_bind]. rewrite slice_from_vis by lia. cbn [mbind outcome_bind].
  rewrite (slice_range_vis (drop 8 f) sp 0 4) by (rewrite ?drop_length; lia). cbn [mbind outcome_bind].
  destruct (negb _); [done|]. destruct (ParseInt _); cbn [mbind outcome_bind]; [|done|done].
  rewrite (slice_range_vis f sp 12 16) by lia. cbn [mbind outcome_bind]. by destruct (ParseInt _).
Qed.
Lemma IsMultiUser_total f sp : 16 ≤ length f →
  (∃ b, IsMultiUser (mk_slice f sp) = Ok b) ∨ IsMultiUser (mk_slice f sp) = Fail EInvalidFileFormat.
Proof.
  intros Hf. unfold IsMultiUser, verifyMagic.
  rewrite (slice_range_vis f sp 0 8) by lia. cbn [mbind outcome_bind]. rewrite slice_from_vis by lia. cbn [mbind outcome_bind].
  rewrite (slice_range_vis (drop 8 f) sp 0 4) by (rewrite ?drop_length; lia). cbn [mbind outcome_bind].
  destruct (negb _); [by right|]. destruct (ParseInt _); cbn [mbind outcome_bind]; [|by right|by right].
  rewrite (slice_range_vis f sp 12 16) by lia. cbn [mbind outcome_bind]. destruct (ParseInt _); eauto.
Qed.

Lemma Decrypt_foreign P u pw k s f sp : 16 ≤ length f → take 8 f ≠ str_bytes magicStr → take 16 f ≠ v0Header →
  Decrypt P u pw k s (mk_slice f sp) = Fail EInvalidFileFormat.
Proof.
  intros Hf Hm Hv. unfold Decrypt. change (zlen v0Header) with 16%Z.
  rewrite (slice_range_vis f sp 0 16) by lia. cbn [mbind outcome_bind].
  change (Z.to_nat (16 - 0)) with 16. change (Z.to_nat 0) with 0. rewrite drop_0, beq_ne by done.
  unfold verifyMagic. rewrite (slice_range_vis f sp 0 8) by lia. cbn [mbind outcome_bind]. rewrite slice_from_vis by lia. cbn [mbind outcome_bind].
  rewrite (slice_range_vis (drop 8 f) sp 0 4) by (rewrite ?drop_length; lia). cbn [mbind outcome_bind].
  change (Z.to_nat (8 - 0)) with 8. change (Z.to_nat 0) with 0. rewrite drop_0, beq_ne by done. done.
Qed.
Lemma Decrypt_v0 P u pw k s f sp : take 16 f = v0Header → Decrypt P u pw k s (mk_slice f sp) = Fail (EMsg "not implemented").
Proof.
  intros Hv. assert (16 ≤ length f). { apply (f_equal length) in Hv. rewrite take_length in Hv. change (length v0Header) with 16 in Hv. lia. }
  unfold Decrypt. change (zlen v0Header) with 16%Z.
  rewrite (slice_range_vis f sp 0 16) by lia. cbn [mbind outcome_bind].
  change (Z.to_nat (16 - 0)) with 16. change (Z.to_nat 0) with 0. rewrite drop_0, Hv, beq_refl. done.
Qed.
Lemma Decrypt_version P u pw k s f sp v : 16 ≤ length f → take 8 f = str_bytes magicStr →
  ParseInt (bytes_string (take 4 (drop 8 f))) = Ok v → v ≠ 1%Z →
  Decrypt P u pw k s (mk_slice f sp) = Fail (EMsg "unknown version %d, try upgrading bpass").
Proof.
  intros Hf Hm Hv Hne. unfold Decrypt. change (zlen v0Header) with 16%Z.
  rewrite (slice_range_vis f sp 0 16) by lia. cbn [mbind outcome_bind].
  change (Z.to_nat (16 - 0)) with 16. change (Z.to_nat 0) with 0. rewrite drop_0, beq_ne.
  - unfold verifyMagic. rewrite (slice_range_vis f sp 0 8) by lia. cbn [mbind outcome_bind]. rewrite slice_from_vis by lia. cbn [mbind outcome_bind].
    rewrite (slice_range_vis (drop 8 f) sp 0 4) by (rewrite ?drop_length; lia). cbn [mbind outcome_bind].
    change (Z.to_nat (8 - 0)) with 8. change (Z.to_nat (4 - 0)) with 4. change (Z.to_nat 0) with 0. rewrite !drop_0, Hm, beq_refl. cbn [negb].
    rewrite Hv. cbn [mbind outcome_bind]. unfold getVersion. by rewrite (proj2 (Z.eqb_neq v 1)).
  - intros E. apply (f_equal (take 8)) in E. rewrite take_take in E. change (8 `min` 16) with 8 in E. rewrite Hm in E. by vm_compute in E.
Qed.
Lemma Decrypt_bad_version P u pw k s f sp : 16 ≤ length f → take 8 f = str_bytes magicStr →
  (∀ v, ParseInt (bytes_string (take 4 (drop 8 f))) ≠ Ok v) →
  Decrypt P u pw k s (mk_slice f sp) = Fail EInvalidFileFormat.
Proof.
  intros Hf Hm Hv. unfold Decrypt. change (zlen v0Header) with 16%Z.
  rewrite (slice_range_vis f sp 0 16) by lia. cbn [mbind outcome_bind].
  change (Z.to_nat (16 - 0)) with 16. change (Z.to_nat 0) with 0. rewrite drop_0, beq_ne.
  - unfold verifyMagic. rewrite (slice_range_vis f sp 0 8) by lia. cbn [mbind outcome_bind]. rewrite slice_from_vis by lia. cbn [mbind outcome_bind].
    rewrite (slice_range_vis (drop 8 f) sp 0 4) by (rewrite ?drop_length; lia). cbn [mbind outcome_bind].
    change (Z.to_nat (8 - 0)) with 8. change (Z.to_nat (4 - 0)) with 4. change (Z.to_nat 0) with 0. rewrite !drop_0, Hm, beq_refl. cbn [negb].
    destruct (ParseInt _) as [v|e|]; [by destruct (Hv v)|done|done].
  - intros E. apply (f_equal (take 8)) in E. rewrite take_take in E. change (8 `min` 16) with 8 in E. rewrite Hm in E. by vm_compute in E.
Qed.

(** A single-user file whose body is not whole CAST5 blocks. *)
Lemma decode_ragged P k iv ct : length k = 80 → length iv = 40 → length ct mod 8 ≠ 0 → decode P k iv ct = Panic.
Proof.
  intros Hk Hi Hc. unfold decode. destruct (three_ciphers k Hk) as (ka & kc & k5 & E). rewrite E. cbn [mbind outcome_bind].
  change (reverse [(AES, ka); (Camellia, kc); (CAST5, k5)]) with [(CAST5, k5); (Camellia, kc); (AES, ka)].
  generalize [(Camellia, kc); (AES, ka)]. intros r. cbn [unseal].
  destruct (bback iv (length iv) (alg_block CAST5)) as [x|e|] eqn:Eb; [|by apply bback_no_fail in Eb|done].
  cbn [mbind outcome_bind]. unfold cbc_decrypt. change (alg_block CAST5) with 8. by rewrite (proj2 (Nat.eqb_neq _ _) Hc).
Qed.
Lemma ragged_single P u pw key salt m s iv ct sp : prims_ok P → head_ok m 0 → length s = 32 → length iv = 40 → length ct mod 8 ≠ 0 →
  pw ≠ [] → key = None → Decrypt P u pw key salt (mk_slice (m ++ s ++ iv ++ ct) sp) = Panic.
Proof.
  intros HP Hh Hs Hi Hc Hpw ->. rewrite (Decrypt_head _ _ _ _ _ m 0%Z) by done. rewrite single_dispatch, single_red by (done || apply Hh).
  unfold choose. rewrite (len0 pw Hpw). cbn [mbind outcome_bind]. rewrite decode_ragged; [done| |done|done]. by apply scrypt_len.
Qed.
Lemma single_crash P u pw m s iv ct sp : prims_ok P → head_ok m 0 → length s = 32 → length iv = 40 → pw ≠ [] →
  let b := decode P (key_of P pw s) iv ct in
  Decrypt P u pw None [] (mk_slice (m ++ s ++ iv ++ ct) sp) = Panic ↔ b = Panic ∨ ∃ c, b = Ok c ∧ length c < 64.
Proof.
  intros HP Hh Hs Hi Hpw b. rewrite (Decrypt_head _ _ _ _ _ m 0%Z) by done. rewrite single_dispatch, single_red by (done || apply Hh).
  unfold choose. rewrite (len0 pw Hpw). cbn [mbind outcome_bind]. fold b.
  destruct b as [c|e|]; cbn [mbind outcome_bind]; [|split; [done|naive_solver]|naive_solver].
  rewrite open_body_red. destruct (64 <=? length c) eqn:E.
  - apply Nat.leb_le in E. destruct (beq _ _); (split; [done|]); intros [?|(c' & [= <-] & ?)]; try done; lia.
  - apply Nat.leb_gt in E. cbn [mbind outcome_bind]. split; [eauto|done].
Qed.
Lemma negative_count P u pw m n rest sp : head_ok m n → (n < 0)%Z → u ≠ [] → pw ≠ [] →
  Decrypt P u pw None [] (mk_slice (m ++ rest) sp) = Panic.
Proof.
  intros Hh Hn Hu Hpw. rewrite (Decrypt_head _ _ _ _ _ m n) by done. unfold dispatch. rewrite (len0 u Hu), andb_false_r.
  rewrite (proj2 (Z.eqb_neq n 0)) by lia. unfold decryptV1Multi. rewrite slice_from_vis by (rewrite app_length; change magicLen with 16; destruct Hh; lia).
  cbn [mbind outcome_bind vis]. replace (Z.to_nat n) with 0 by lia. cbn [read_users mbind outcome_bind t_users find_user t_salts t_ivs t_mkeys].
  change (-1 <? 0)%Z with true. cbv iota zeta. destruct (pull _ _) as [[ivm h]|e|] eqn:E; [|by apply pull_no_fail in E|done].
  cbn [mbind outcome_bind]. change (Z.to_nat 0) with 0. cbn [app idx lookup list_lookup mbind outcome_bind].
  unfold idx. cbn [lookup list_lookup mbind outcome_bind]. unfold nil_bytes. cbn [default length Nat.eqb orb]. rewrite (len0 pw Hpw). cbn [mbind outcome_bind].
  destruct (n + 1 <? 0)%Z; [done|]. by rewrite (proj2 (Z.ltb_ge 0 (n + 1))) by lia.
Qed.

(** ** Encryption parameters *)

Lemma Encrypt_bad P p riv pt : (¬ sizes_ok p ∨ NUsers p ≠ 0%Z ∧ ¬ multi_sizes_ok p) → ∃ e, Encrypt P 1 p riv pt = Fail e.
Proof.
  intros Hbad. unfold Encrypt. change (getVersion 1) with (Ok v1). cbn [mbind outcome_bind].
  destruct (validate v1 p) as [[]|e|] eqn:E; [|eauto|by apply validate_no_panic in E]. exfalso.
  apply validate_ok in E as [H1 H2]. naive_solver.
Qed.
Lemma Encrypt_version P v p riv pt : v ≠ 1%Z → Encrypt P v p riv pt = Fail (EMsg "unknown version %d").
Proof. intros H. unfold Encrypt, getVersion. by rewrite (proj2 (Z.eqb_neq v 1)). Qed.

Lemma Encrypt_exact P p iv pt : prims_ok P → length iv = 40 →
  (∃ f, Encrypt P 1 p (Some iv) pt = Ok f) ↔
  sizes_ok p ∧ (NUsers p = 0%Z ∧ length (at_ (Keys p) 0) = 80 ∨ NUsers p ≠ 0%Z ∧ multi_sizes_ok p ∧ is_Some (Master p) ∧ is_Some (IVM p)).
Proof.
  intros HP Hi. split.
  - intros [f H]. unfold Encrypt in H. change (getVersion 1) with (Ok v1) in H. cbn [mbind outcome_bind] in H.
    apply bind_Ok in H as ([] & Hv & H). apply validate_ok in Hv as [Hs Hm]. split; [done|].
    destruct (NUsers p =? 0)%Z eqn:En.
    + apply Z.eqb_eq in En. left. split; [done|]. unfold encryptV1Single in H. apply bind_Ok in H as (k & Hk & H).
      apply bind_Ok in H as ([] & Hc & _). apply check_ok, Nat.eqb_eq in Hc. unfold idx in Hk. unfold at_.
      destruct (Keys p !! 0); [|done]. by injection Hk as ->.
    + apply Z.eqb_neq in En. right. split; [done|]. destruct Hm as [?|[_ Hm]]; [done|]. split; [done|].
      unfold encryptV1Multi in H. apply bind_Ok in H as (h & _ & H). apply bind_Ok in H as (h2 & _ & H). apply bind_Ok in H as ([h3 o] & _ & H).
      apply bind_Ok in H as (h4 & _ & H). apply bind_Ok in H as (cs & Hcs & H). apply bind_Ok in H as (w & Hw & _). split.
      * destruct (Master p); [done|]. unfold nil_bytes in Hcs. cbn [default] in Hcs. done.
      * destruct (IVM p); [done|]. unfold nil_bytes in Hw. cbn [default] in Hw.
        destruct (Master p) as [mm|] eqn:EM; [|done]. assert (length mm = 80) as Lm by (apply Hm; done).
        destruct (three_ciphers mm Lm) as (ka & kc & k5 & E). unfold nil_bytes in Hcs. cbn [default id] in Hcs.
        rewrite E in Hcs. injection Hcs as <-. done.
  - intros [Hs [[HN Hk]|(HN & Hm & HM & HI)]].
    + destruct (Keys p !! 0) as [k|] eqn:Ek; [|by unfold at_ in Hk; rewrite Ek in Hk].
      rewrite (at_some _ _ _ Ek) in Hk. destruct (Salts p !! 0) as [s|] eqn:Es.
      2:{ destruct Hs as (_ & Hs & _). by destruct (Salts p). }
      destruct (single_genuine P p iv pt k s HP) as (ct & E & _); try done.
      * apply validate_ok. auto.
      * by intros ->.
      * eauto.
    + assert (multi_ok p) as Hok.
      { split; [apply validate_ok; auto|]. split; [|done]. destruct Hm as (_ & _ & Hm & _). lia. }
      destruct (multi_genuine P p (Some iv) pt HP Hok) as (m & ivm & ct & _ & _ & _ & _ & E & _). eauto.
Qed.

Lemma Encrypt_no_panic P v p riv pt : prims_ok P → (∀ b, riv = Some b → length b = 40) →
  (NUsers p ≠ 0%Z → is_Some (Master p) ∧ is_Some (IVM p)) → Encrypt P v p riv pt ≠ Panic.
Proof.
  intros HP Hr HM H. destruct (decide (v = 1%Z)) as [->|Hv]; [|by rewrite Encrypt_version in H].
  destruct (validate v1 p) as [[]|e|] eqn:E.
  2:{ unfold Encrypt in H. change (getVersion 1) with (Ok v1) in H. cbn [mbind outcome_bind] in H. by rewrite E in H. }
  2:{ by apply validate_no_panic in E. }
  pose proof E as E2. apply validate_ok in E2 as [Hs Hm]. destruct (decide (NUsers p = 0%Z)) as [HN|HN].
  - unfold Encrypt in H. change (getVersion 1) with (Ok v1) in H. cbn [mbind outcome_bind] in H. rewrite E in H. cbn [mbind outcome_bind] in H.
    rewrite (proj2 (Z.eqb_eq _ _) HN) in H.
    destruct (Keys p !! 0) as [k|] eqn:Ek. 2:{ destruct Hs as (Hs & _). by destruct (Keys p). }
    destruct (Salts p !! 0) as [s|] eqn:Es. 2:{ destruct Hs as (_ & Hs & _). by destruct (Salts p). }
    assert (length s = 32) as Ls. { destruct Hs as (_ & _ & _ & Hs). by eapply Forall_lookup_1 in Hs. }
    destruct (decide (length k = 80)) as [Lk|Lk].
    + destruct riv as [iv|].
      * destruct (encryptV1Single_ok P p iv pt k s HP Ek Es Lk Ls (Hr _ eq_refl)) as (ct & E1 & _). by rewrite E1 in H.
      * unfold encryptV1Single in H. unfold idx in H. rewrite Ek, Es in H. cbn [mbind outcome_bind] in H.
        unfold len_is in H. rewrite Lk, Ls in H. 
        change (c_keySize v1) with 80 in H. change (c_saltSize v1) with 32 in H. change (80 =? 80) with true in H. change (32 =? 32) with true in H. cbn [check mbind outcome_bind] in H.
        destruct (three_ciphers k Lk) as (ka & kc & k5 & E1). by rewrite E1 in H.
    + unfold encryptV1Single in H. unfold idx in H. rewrite Ek in H. cbn [mbind outcome_bind] in H. unfold len_is in H.
      change (c_keySize v1) with 80 in H. rewrite (proj2 (Nat.eqb_neq _ _) Lk) in H. done.
  - destruct (HM HN) as [HM1 HM2]. assert (multi_ok p) as Hok.
    { split; [done|]. split; [|done]. destruct Hm as [?|(_ & _ & _ & Hm & _)]; [done|]. lia. }
    destruct (multi_genuine P p riv pt HP Hok) as (m & ivm & ct & _ & _ & _ & _ & E1 & _). by rewrite E1 in H.
Qed.

Lemma Encrypt_nil_key P p riv pt : sizes_ok p → multi_sizes_ok p → (1 ≤ NUsers p)%Z → Master p = None ∨ IVM p = None →
  Encrypt P 1 p riv pt = Panic.
Proof.
  intros Hs Hm Hn Hnil. unfold Encrypt. change (getVersion 1) with (Ok v1). cbn [mbind outcome_bind].
  rewrite (proj2 (validate_ok p)) by (split; [done|right; split; [lia|done]]). cbn [mbind outcome_bind].
  rewrite (proj2 (Z.eqb_neq (NUsers p) 0)) by lia. unfold encryptV1Multi.
  destruct (multi_rows p Hs Hm) as (Hrows & _).
  change (c_blockSize v1) with 40. change (userSize v1) with 184. change magicLen with 16. change (c_version v1) with 1%Z.
  set (n := nusers p). assert (Z.of_nat n = NUsers p) as Hnn by (unfold n, nusers; lia).
  replace (Z.of_nat 16 + Z.of_nat 184 * NUsers p + Z.of_nat 40)%Z with (Z.of_nat (16 + 184 * n + 40)) by lia.
  rewrite make_bytes_ok. cbn [mbind outcome_bind]. rewrite copy_at_over. cbn [mbind outcome_bind].
  set (ml := magic_line 1 (NUsers p)).
  set (buf := take (length (zeroes (16 + 184 * n + 40))) ml ++ drop (length ml) (zeroes (16 + 184 * n + 40))).
  assert (length buf = 16 + 184 * n + 40) as Hbuf.
  { unfold buf, zeroes. rewrite app_length, take_length, drop_length, replicate_length. lia. }
  assert (length (take 16 buf) = 16) as H16 by (rewrite take_length; lia).
  rewrite <-(take_drop 16 buf).
  change (Z.to_nat (NUsers p)) with n.
  assert (length (drop 16 buf) = 184 * n + 40) as Hdl by (rewrite drop_length; lia).
  pose proof (put_users_ok p 0 n (take 16 buf) (drop 16 buf) Hrows ltac:(lia)) as Hput. rewrite H16 in Hput.
  rewrite Hput. cbn [mbind outcome_bind].
  destruct (copy_at _ _ _) as [h'|e|] eqn:E; [|by apply copy_at_no_fail in E|done]. clear E. cbn [mbind outcome_bind].
  destruct (Master p) as [mm|] eqn:EM; [|done]. destruct Hnil as [?|HI]; [done|].
  assert (length mm = 80) as Lm by (apply Hm; done). destruct (three_ciphers mm Lm) as (ka & kc & k5 & E).
  unfold nil_bytes. cbn [default id]. rewrite E, HI. done.
Qed.

(** ** The toy primitives *)

Lemma fit_length n b : length (fit n b) = n.
Proof. unfold fit. rewrite take_length, app_length. unfold zeroes. rewrite replicate_length. lia. Qed.
Lemma toy_ok : prims_ok toy.
Proof.
  assert (∀ a (k b : bytes), length k = alg_key a → length b = alg_block a → length (take (alg_block a) k) = length b) as Hl.
  { intros a k b Hk Hb. rewrite take_length, Hk, Hb. by destruct a. }
  split; simpl.
  - intros. apply fit_length.
  - intros. apply fit_length.
  - intros. apply fit_length.
  - intros a k b Hk Hb. rewrite xor_length; [done|]. by apply Hl.
  - intros a k b Hk Hb. rewrite xor_length; [done|]. by apply Hl.
  - intros a k b Hk Hb. apply xor_invol. by apply Hl.
  - intros a k b Hk Hb. apply xor_invol. by apply Hl.
Qed.
