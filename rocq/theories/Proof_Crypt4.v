From Verif Require Import Proof_GoStr Proof_Pkcs7.
From Verif Require Export Proof_Crypt3.
From Coq Require Import Lia.
From stdpp Require Import options.
#[local] Open Scope nat_scope.

(** ** Multi-user files *)

Definition choose_m (P : prims) (pass : bytes) (key : option bytes) (salt fsalt : bytes) : outcome bytes :=
  if ((length (nil_bytes key) =? 0) || negb (beq salt fsalt))
  then if (length pass =? 0) then Fail EWrongPassphrase else Ok (key_of P pass fsalt)
  else Ok (nil_bytes key).
Definition unwrap_key (P : prims) (k iv mk : bytes) : outcome bytes :=
  cs ← makeCiphers k 0 (c_algs v1);
  unwrap P (reverse cs) iv (length iv) mk.

Lemma find_user_range h k l : (find_user h k l = -1 ∨ k ≤ find_user h k l < k + Z.of_nat (length l))%Z.
Proof.
  revert k. induction l as [|u l IH]; intros k; [by left|]. cbn [find_user length].
  destruct (beq u h); [right; lia|]. destruct (IH (k + 1)%Z) as [->|H]; [by left|right; lia].
Qed.
Lemma find_user_first h k l i : l !! i = Some h → (∀ j, j < i → l !! j ≠ Some h) → find_user h k l = (k + Z.of_nat i)%Z.
Proof.
  revert k i. induction l as [|u l IH]; intros k i Hi Hn; [done|]. cbn [find_user]. unfold beq.
  case_bool_decide as Hu.
  - destruct i as [|i]; [lia|]. exfalso. apply (Hn 0); [lia|]. simpl. by rewrite Hu.
  - destruct i as [|i]; [simpl in Hi; congruence|]. rewrite (IH _ i); [lia|done|].
    intros j Hj. apply (Hn (S j)). lia.
Qed.
Lemma find_user_none h k l : h ∉ l → find_user h k l = (-1)%Z.
Proof.
  revert k. induction l as [|u l IH]; intros k Hn; [done|]. cbn [find_user]. unfold beq.
  apply not_elem_of_cons in Hn as [H1 H2]. rewrite bool_decide_false by congruence. by apply IH.
Qed.
Lemma find_user_some h k l i : (0 ≤ k)%Z → find_user h k l = i → (0 ≤ i)%Z → l !! Z.to_nat (i - k) = Some h.
Proof.
  revert k. induction l as [|u l IH]; intros k Hk; cbn [find_user]; [lia|].
  unfold beq. case_bool_decide as Hu.
  - intros <- _. rewrite Z.sub_diag. simpl. by rewrite Hu.
  - intros Hi H0. pose proof (find_user_range h (k + 1) l) as [Hr|Hr]; [lia|].
    replace (Z.to_nat (i - k)) with (S (Z.to_nat (i - (k + 1)))) by lia. simpl. apply IH; [lia|done|done].
Qed.

Definition multi_result (unk : bool) (n : Z) (usr : nat) (k : bytes) (t : utable) (ivm master : bytes) : Params := {|
  p_version := 0; NUsers := if unk then (n + 1)%Z else n; User := Z.of_nat usr;
  Keys := <[usr := k]> (replicate (Z.to_nat (if unk then (n + 1)%Z else n)) []);
  Salts := if unk then t_salts t ++ [zeroes 32] else t_salts t; Users := t_users t;
  IVs := if unk then t_ivs t ++ [zeroes 40] else t_ivs t;
  MKeys := if unk then t_mkeys t ++ [zeroes 80] else t_mkeys t; IVM := Some ivm; Master := Some master |}.

Lemma multi_red P n user pw key salt m tbl t ivm ct sp : (1 ≤ n)%Z →
  length m = 16 → length ivm = 40 → length tbl = 184 * Z.to_nat n →
  read_users v1 (Z.to_nat n) (tbl ++ ivm ++ ct) = Ok (t, ivm ++ ct) → utable_ok t (Z.to_nat n) →
  let found := find_user (sha256 P user) 0 (t_users t) in
  let unk := (found <? 0)%Z in
  let usr := if unk then 0 else Z.to_nat found in
  let e := mk_slice (m ++ tbl ++ ivm ++ ct) sp in
  decryptV1Multi P v1 n user pw key salt e =
  (k ← choose_m P pw key salt (at_ (t_salts t) usr);
   master ← unwrap_key P k (at_ (t_ivs t) usr) (at_ (t_mkeys t) usr);
   body ← decode P master ivm ct;
   header ← (if unk then slice_range e 0 (16 + 184 * (n + 1) + 40) else Ok (m ++ tbl ++ ivm));
   pt ← open_body P header body;
   Ok (multi_result unk n usr k t ivm master, pt)).
Proof.
  intros Hn Hm Hivm Htbl Hread (L1 & L2 & L3 & L4 & F1 & F2 & F3 & F4) found unk usr e.
  unfold decryptV1Multi. change (c_saltSize v1) with 32. change (c_blockSize v1) with 40. change (c_keySize v1) with 80.
  change magicLen with 16. change (userSize v1) with 184.
  unfold e. rewrite slice_from_vis by (rewrite app_length; lia). cbn [mbind outcome_bind vis].
  rewrite (drop_app_len m) by lia. rewrite Hread. cbn [mbind outcome_bind].
  rewrite (pull_ok ivm) by done. fold found. fold unk. fold e. cbv zeta. cbn [mbind outcome_bind].
  pose proof (find_user_range (sha256 P user) 0 (t_users t)) as Hr. fold found in Hr.
  assert ((if unk then 0%Z else found) = Z.of_nat usr) as Husr.
  { unfold usr, unk. destruct (found <? 0)%Z eqn:E; [done|]. apply Z.ltb_ge in E. lia. }
  assert (usr < Z.to_nat n) as Hlt.
  { unfold usr, unk. destruct (found <? 0)%Z eqn:E; [lia|]. apply Z.ltb_ge in E. lia. }
  rewrite Husr, Nat2Z.id.
  assert (∀ (l : list bytes) z, length l = Z.to_nat n → (if unk then l ++ [z] else l) !! usr = Some (at_ l usr)) as Hat.
  { intros l z Hl. destruct (lookup_lt_is_Some_2 l usr) as [x Hx]; [lia|]. unfold at_. rewrite Hx. simpl.
    destruct unk; [|done]. by rewrite lookup_app_l by lia. }
  unfold idx. rewrite (Hat (t_salts t) (zeroes 32) L2). cbn [mbind outcome_bind].
  unfold choose_m. change (deriveKeyV1 P v1 pw (at_ (t_salts t) usr)) with (key_of P pw (at_ (t_salts t) usr)).
  set (nn := if unk then (n + 1)%Z else n).
  assert ((n ≤ nn)%Z) as Hnn by (unfold nn; destruct unk; lia).
  assert (∀ k : bytes, (keys ← (if (nn <? 0)%Z then Panic
          else if (Z.of_nat usr <? nn)%Z then Ok (<[usr := k]> (replicate (Z.to_nat nn) [])) else Panic);
    let salts := <[usr := at_ (t_salts t) usr]> (if unk then t_salts t ++ [zeroes 32] else t_salts t) in
    ciphers ← makeCiphers k 0 (c_algs v1);
    iv ← match (if unk then t_ivs t ++ [zeroes 40] else t_ivs t) !! usr with Some x => Ok x | None => Panic end;
    mkey ← match (if unk then t_mkeys t ++ [zeroes 80] else t_mkeys t) !! usr with Some x => Ok x | None => Panic end;
    master ← unwrap P (reverse ciphers) iv (length iv) mkey;
    ciphers ← makeCiphers master 0 (c_algs v1);
    body ← unseal P (reverse ciphers) ivm (length ivm) ct;
    header ← slice_range e 0 (Z.of_nat 16 + Z.of_nat 184 * nn + Z.of_nat 40);
    plaintext ← open_body P header body;
    Ok ({| p_version := 0; NUsers := nn; User := Z.of_nat usr; Keys := keys; Salts := salts; Users := t_users t;
         IVs := if unk then t_ivs t ++ [zeroes 40] else t_ivs t;
         MKeys := if unk then t_mkeys t ++ [zeroes 80] else t_mkeys t; IVM := Some ivm; Master := Some master |}, plaintext)) =
   (master ← unwrap_key P k (at_ (t_ivs t) usr) (at_ (t_mkeys t) usr);
   body ← decode P master ivm ct;
   header ← (if unk then slice_range e 0 (16 + 184 * (n + 1) + 40) else Ok (m ++ tbl ++ ivm));
   pt ← open_body P header body;
   Ok (multi_result unk n usr k t ivm master, pt))) as Hrest.
  { intros k. rewrite (proj2 (Z.ltb_ge nn 0)) by lia. rewrite (proj2 (Z.ltb_lt (Z.of_nat usr) nn)) by lia.
    rewrite (Hat (t_ivs t) (zeroes 40) L3), (Hat (t_mkeys t) (zeroes 80) L4). cbn [mbind outcome_bind].
    rewrite (list_insert_id _ _ _ (Hat (t_salts t) (zeroes 32) L2)). cbv zeta.
    unfold unwrap_key. destruct (makeCiphers k 0 (c_algs v1)) as [cs| |]; [|done|done]. cbn [mbind outcome_bind].
    destruct (unwrap P (reverse cs) _ _ _) as [master| |]; [|done|done]. cbn [mbind outcome_bind].
    unfold decode. destruct (makeCiphers master 0 (c_algs v1)) as [cs2| |]; [|done|done]. cbn [mbind outcome_bind].
    destruct (unseal P (reverse cs2) _ _ _) as [body| |]; [|done|done]. cbn [mbind outcome_bind].
    assert (slice_range e 0 (Z.of_nat 16 + Z.of_nat 184 * nn + Z.of_nat 40) =
      (if unk then slice_range e 0 (16 + 184 * (n + 1) + 40) else Ok (m ++ tbl ++ ivm))) as ->.
    { unfold nn. destruct unk; [f_equal; lia|].
      unfold e. rewrite slice_range_vis; [|lia|rewrite !app_length; lia].
      rewrite drop_0. f_equal. rewrite !(assoc_L (++)). apply take_app_len. rewrite !app_length. lia. }
    done. }
  destruct (length (nil_bytes key) =? 0) eqn:Ek; cbn [orb].
  - destruct (length pw =? 0); [done|]. cbn [mbind outcome_bind]. apply Hrest.
  - destruct (beq salt (at_ (t_salts t) usr)) eqn:Eb; cbn [negb].
    + unfold beq in Eb. apply bool_decide_eq_true in Eb as ->. cbn [mbind outcome_bind]. apply Hrest.
    + destruct (length pw =? 0); [done|]. cbn [mbind outcome_bind]. apply Hrest.
Qed.

(** Success on an arbitrary multi-user file means it has all its parts. *)
Lemma multi_parts P n user pw key salt f sp r : (1 ≤ n)%Z →
  decryptV1Multi P v1 n user pw key salt (mk_slice f sp) = Ok r →
  ∃ m tbl t ivm ct, f = m ++ tbl ++ ivm ++ ct ∧ length m = 16 ∧ length tbl = 184 * Z.to_nat n ∧ length ivm = 40 ∧
    read_users v1 (Z.to_nat n) (tbl ++ ivm ++ ct) = Ok (t, ivm ++ ct) ∧ utable_ok t (Z.to_nat n).
Proof.
  intros Hn H. unfold decryptV1Multi in H. change (c_saltSize v1) with 32 in H. change (c_blockSize v1) with 40 in H.
  change magicLen with 16 in H.
  apply bind_Ok in H as (rest & E1 & H). apply bind_Ok in H as ([t h] & E2 & H). apply bind_Ok in H as ([ivm ct] & E3 & _).
  unfold slice_from in E1. destruct (16 <=? length (vis (mk_slice f sp))) eqn:Ef; [|done]. injection E1 as <-.
  cbn [vis] in *. apply Nat.leb_le in Ef. pose proof E2 as E2'. apply read_users_inv in E2' as (tbl & Hd & Lt & Ht).
  apply pull_inv in E3 as [-> Livm].
  exists (take 16 f), tbl, t, ivm, ct. rewrite <-Hd, take_drop. repeat split; auto; try apply Ht.
  rewrite take_length. lia.
Qed.

(** ** What Encrypt writes for several users *)

Lemma encryptV1Multi_ok P p pt m ivm : prims_ok P → (1 ≤ NUsers p)%Z → sizes_ok p → multi_sizes_ok p →
  Master p = Some m → IVM p = Some ivm →
  ∃ ct, let h := take 16 (magic_line 1 (NUsers p)) ++ table p 0 (nusers p) ++ ivm in
    encryptV1Multi P v1 p pt = Ok (h ++ ct) ∧
    decode P m ivm ct = Ok (sha512 P (h ++ pt) ++ pt) ∧ 64 + length pt < length ct.
Proof.
  intros HP Hn Hs Hms HM HI. destruct (multi_rows p Hs Hms) as (Hrows & Lu & Ls & Li & Lm).
  pose proof Hms as (K1 & K2 & K3 & K4 & K5 & K6 & K7 & K8 & K9 & KI & KM).
  specialize (KI _ HI). specialize (KM _ HM).
  unfold encryptV1Multi. change (c_blockSize v1) with 40. change (userSize v1) with 184. change magicLen with 16.
  change (c_version v1) with 1%Z. rewrite HM, HI. unfold nil_bytes. cbn [default id].
  set (n := nusers p). assert (Z.of_nat n = NUsers p) as Hnn by (unfold n, nusers; lia).
  replace (Z.of_nat 16 + Z.of_nat 184 * NUsers p + Z.of_nat 40)%Z with (Z.of_nat (16 + 184 * n + 40)) by lia.
  rewrite make_bytes_ok. cbn [mbind outcome_bind]. rewrite copy_at_over. cbn [mbind outcome_bind].
  set (ml := magic_line 1 (NUsers p)).
  destruct (head_any (NUsers p)) as (cnt & (Hm16 & _) & _); [lia|]. fold ml in Hm16.
  set (buf := take (length (zeroes (16 + 184 * n + 40))) ml ++ drop (length ml) (zeroes (16 + 184 * n + 40))).
  assert (length buf = 16 + 184 * n + 40) as Hbuf.
  { unfold buf, zeroes. rewrite app_length, take_length, drop_length, replicate_length. lia. }
  assert (take 16 buf = take 16 ml) as Htk.
  { unfold buf, zeroes. rewrite replicate_length. rewrite take_length in Hm16.
    rewrite take_app_le by (rewrite take_length; lia). rewrite take_take. f_equal. }
  rewrite <-(take_drop 16 buf). rewrite Htk.
  change (Z.to_nat (NUsers p)) with n.
  assert (length (drop 16 buf) = 184 * n + 40) as Hdl by (rewrite drop_length; lia).
  pose proof (put_users_ok p 0 n (take 16 ml) (drop 16 buf) Hrows ltac:(lia)) as Hput. rewrite Hm16 in Hput.
  rewrite Hput. cbn [mbind outcome_bind].
  pose proof (table_length p 0 n Hrows) as Ht. rewrite (assoc_L (++) (take 16 ml)).
  replace (16 + 184 * n) with (length (take 16 ml ++ table p 0 n)) by (rewrite app_length; lia).
  rewrite copy_at_mid by (rewrite drop_length; lia). cbn [mbind outcome_bind].
  rewrite (drop_ge (drop (184 * n) (drop 16 buf))) by (rewrite drop_length; lia). rewrite app_nil_r.
  rewrite <-(assoc_L (++) (take 16 ml)).
  destruct (makeCiphers_ok m 0 (c_algs v1)) as (cs & Hcs & Hg & Hf). { rewrite KM. simpl. lia. }
  rewrite Hcs. cbn [mbind outcome_bind].
  assert (bsum cs = 40) as Hb by (rewrite (bsum_fst _ _ Hf); done).
  set (h := take 16 ml ++ table p 0 n ++ ivm).
  destruct (seal_unseal P cs ivm 0 (sha512 P (h ++ pt) ++ pt) HP Hg) as (ct & Hse & Hun & Hlen & Hlt). { lia. }
  rewrite Hse. cbn [mbind outcome_bind]. exists ct. split; [done|]. split.
  - unfold decode. rewrite Hcs. cbn [mbind outcome_bind]. rewrite Hb in Hun. by rewrite KI.
  - rewrite app_length, sha512_len in Hlt by done. apply Hlt. intros ->. done.
Qed.

Lemma EncryptMasterKey_ok P key m iv : prims_ok P → length key = 80 → length m = 80 → length iv = 40 →
  ∃ mk, EncryptMasterKey P 1 key m (Some iv) = Ok (mk, iv) ∧ length mk = 80 ∧ unwrap_key P key iv mk = Ok m.
Proof.
  intros HP Hk Hm Hi. unfold EncryptMasterKey, unwrap_key. change (getVersion 1) with (Ok v1). cbn [mbind outcome_bind].
  change (c_keySize v1) with 80. unfold len_is. rewrite Hk, Hm, Nat.eqb_refl. cbn [check mbind outcome_bind].
  destruct (makeCiphers_ok key 0 (c_algs v1)) as (cs & Hcs & Hg & Hf). { rewrite Hk. simpl. lia. }
  rewrite Hcs. cbn [mbind outcome_bind].
  assert (bsum cs = 40) as Hb by (rewrite (bsum_fst _ _ Hf); done).
  destruct (wrap_unwrap P cs iv 0 m HP Hg) as (mk & Hw & Hu & Hl); [lia|..].
  { unfold divides_all. rewrite Hm. apply Forall_forall. intros [a k] Hin.
    assert (a ∈ cs.*1) as Ha by (apply elem_of_list_fmap; by exists (a, k)). rewrite Hf in Ha.
    simpl in Ha. by destruct a. }
  rewrite Hw. cbn [mbind outcome_bind]. exists mk. split; [done|]. split; [lia|]. rewrite Hb in Hu. by rewrite Hi.
Qed.
