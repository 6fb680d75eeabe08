From Verif Require Import Proof_GoStr Proof_Pkcs7.
From Verif Require Export Proof_Crypt5.
From Coq Require Import Lia.
From stdpp Require Import options.
#[local] Open Scope nat_scope.

Lemma find_user_known h k l : (0 ≤ k)%Z → h ∈ l → (k ≤ find_user h k l)%Z.
Proof.
  revert k. induction l as [|x l IH]; intros k Hk Hin; [by apply elem_of_nil in Hin|]. cbn [find_user]. unfold beq.
  case_bool_decide as Hx; [lia|]. apply elem_of_cons in Hin as [->|Hin]; [done|].
  transitivity (k + 1)%Z; [lia|]. apply IH; [lia|done].
Qed.

(** ** Everything a successful Decrypt implies *)

Lemma multi_neg P n user pw key salt e r : (n < 0)%Z → decryptV1Multi P v1 n user pw key salt e ≠ Ok r.
Proof.
  intros Hn H. unfold decryptV1Multi in H. apply bind_Ok in H as (rest & _ & H).
  replace (Z.to_nat n) with 0 in H by lia. cbn [read_users] in H. cbn [mbind outcome_bind] in H. cbn [t_users find_user t_salts t_ivs t_mkeys] in H.
  change (-1 <? 0)%Z with true in H. cbv iota zeta in H.
  apply bind_Ok in H as ([ivm h2] & _ & H). apply bind_Ok in H as (us & _ & H). apply bind_Ok in H as ([k s'] & _ & H).
  apply bind_Ok in H as (keys & H & _). destruct (n + 1 <? 0)%Z; [done|].
  rewrite (proj2 (Z.ltb_ge 0 (n + 1))) in H by lia. done.
Qed.

Lemma Decrypt_inv P u pw k s f sp v p pt : Decrypt P u pw k s (mk_slice f sp) = Ok (v, p, pt) →
  v = 1%Z ∧ ∃ m rest n p0, f = m ++ rest ∧ head_ok m n ∧ (0 ≤ n)%Z ∧ p = tag_version 1 p0 ∧
    dispatch P n u pw k s (mk_slice f sp) = Ok (p0, pt).
Proof.
  intros H. unfold Decrypt in H. apply bind_Ok in H as (first & _ & H).
  destruct (beq v0Header first); [done|]. apply bind_Ok in H as (version & Hver & H).
  unfold getVersion in H. destruct (version =? 1)%Z eqn:Ev; [|done]. apply Z.eqb_eq in Ev as ->.
  apply bind_Ok in H as ([p0 pt0] & H & HR). injection HR as <- <- <-. split; [done|].
  unfold decryptV1 in H. apply bind_Ok in H as (nb & Hnb & H).
  destruct (ParseInt (bytes_string nb)) as [n|e|] eqn:Ep; [|done|done].
  change (dispatch P n u pw k s (mk_slice f sp) = Ok (p0, pt0)) in H.
  assert (16 ≤ length f ∧ (0 ≤ n)%Z) as [Hlen Hn0].
  { unfold dispatch in H. destruct (negb (n =? 0)%Z && (length u =? 0)); [done|]. destruct (n =? 0)%Z eqn:En.
    - apply Z.eqb_eq in En. split; [|lia]. destruct (decide (16 ≤ length f)) as [|Hlt]; [done|]. exfalso.
      eapply single_short; [|exact H]. lia.
    - apply Z.eqb_neq in En. split.
      + unfold decryptV1Multi in H. apply bind_Ok in H as (rest & H & _). unfold slice_from in H. change magicLen with 16 in H.
        cbn [vis] in H. destruct (16 <=? length f) eqn:E; [|done]. by apply Nat.leb_le in E.
      + destruct (decide (0 ≤ n)%Z); [done|]. exfalso. eapply multi_neg; [|exact H]. lia. }
  rewrite <-(take_drop 16 f) in Hver, Hnb.
  exists (take 16 f), (drop 16 f), n, p0. split; [by rewrite take_drop|]. split; [|done].
  assert (length (take 16 f) = 16) as Hm by (rewrite take_length; lia). set (m := take 16 f) in *. set (rest := drop 16 f) in *.
  split; [done|].
  unfold verifyMagic in Hver. rewrite slice_range_vis in Hver by (rewrite ?app_length; lia).
  cbn [mbind outcome_bind] in Hver. rewrite slice_from_vis in Hver by (rewrite ?app_length; lia). cbn [mbind outcome_bind] in Hver.
  rewrite slice_range_vis in Hver by (rewrite ?drop_length, ?app_length; lia). cbn [mbind outcome_bind] in Hver.
  change (Z.to_nat (8 - 0)) with 8 in Hver. change (Z.to_nat 0) with 0 in Hver. change (Z.to_nat (4 - 0)) with 4 in Hver.
  rewrite (take_app_16 m rest 8 0) in Hver by lia. rewrite !drop_0 in Hver. rewrite (take_app_16 m rest 4 8) in Hver by lia.
  unfold beq in Hver. case_bool_decide as Hmag; [|done]. cbn [negb] in Hver.
  split; [done|]. split.
  - destruct (ParseInt (bytes_string (take 4 (drop 8 m)))) as [v'|e|]; [|done|done]. done.
  - rewrite slice_range_vis in Hnb by (rewrite ?app_length; lia).
    change (Z.to_nat (16 - 12)) with 4 in Hnb. change (Z.to_nat 12) with 12 in Hnb.
    rewrite (take_app_16 m rest 4 12) in Hnb by lia. injection Hnb as ->. done.
Qed.

Lemma single_inv P pw key salt f sp p0 pt : decryptV1Single P v1 pw key salt (mk_slice f sp) = Ok (p0, pt) →
  ∃ m s iv ct k, f = m ++ s ++ iv ++ ct ∧ length m = 16 ∧ length s = 32 ∧ length iv = 40 ∧
    choose P pw key salt s = Ok k ∧ p0 = tag0 (single_params k s iv) ∧
    decode P k iv ct = Ok (sha512 P ((m ++ s ++ iv) ++ pt) ++ pt).
Proof.
  intros H. destruct (decide (88 ≤ length f)) as [Hl|Hl]; [|exfalso; eapply single_short; [|exact H]; lia].
  pose (m := take 16 f). pose (s := take 32 (drop 16 f)). pose (iv := take 40 (drop 48 f)). pose (ct := drop 88 f).
  assert (f = m ++ s ++ iv ++ ct) as Hf.
  { unfold m, s, iv, ct. rewrite <-(take_drop 16 f) at 1. f_equal. rewrite <-(take_drop 32 (drop 16 f)) at 1. f_equal.
    rewrite drop_drop. change (16 + 32) with 48. rewrite <-(take_drop 40 (drop 48 f)) at 1. f_equal. by rewrite drop_drop. }
  assert (length m = 16 ∧ length s = 32 ∧ length iv = 40) as (Lm & Ls & Li).
  { unfold m, s, iv. rewrite !take_length, !drop_length. lia. }
  clearbody m s iv ct. subst f. rewrite single_red in H by done.
  apply bind_Ok in H as (k & Hk & H). apply bind_Ok in H as (b & Hb & H). apply bind_Ok in H as (pt' & Hpt & H).
  injection H as <- <-. apply open_body_ok in Hpt as (Hb1 & _ & Hb2). rewrite Hb2 in Hb1.
  exists m, s, iv, ct, k. rewrite <-Hb1. auto 10.
Qed.

Lemma multi_inv P n user pw key salt f sp p0 pt : (1 ≤ n)%Z →
  decryptV1Multi P v1 n user pw key salt (mk_slice f sp) = Ok (p0, pt) →
  ∃ m tbl t ivm ct, f = m ++ tbl ++ ivm ++ ct ∧ length m = 16 ∧ length tbl = 184 * Z.to_nat n ∧ length ivm = 40 ∧
    read_users v1 (Z.to_nat n) (tbl ++ ivm ++ ct) = Ok (t, ivm ++ ct) ∧ utable_ok t (Z.to_nat n) ∧
    let found := find_user (sha256 P user) 0 (t_users t) in
    let unk := (found <? 0)%Z in
    let usr := if unk then 0 else Z.to_nat found in
    ∃ k master header, choose_m P pw key salt (at_ (t_salts t) usr) = Ok k ∧
      unwrap_key P k (at_ (t_ivs t) usr) (at_ (t_mkeys t) usr) = Ok master ∧
      (if unk then slice_range (mk_slice f sp) 0 (16 + 184 * (n + 1) + 40) else Ok (m ++ tbl ++ ivm)) = Ok header ∧
      decode P master ivm ct = Ok (sha512 P (header ++ pt) ++ pt) ∧
      p0 = multi_result unk n usr k t ivm master.
Proof.
  intros Hn H. destruct (multi_parts P n user pw key salt f sp _ Hn H) as (m & tbl & t & ivm & ct & -> & Lm & Lt & Li & Hread & Hok).
  exists m, tbl, t, ivm, ct. do 6 (split; [done|]). intros found unk usr.
  pose proof (multi_red P n user pw key salt m tbl t ivm ct sp Hn Lm Li Lt Hread Hok) as Hred. cbv zeta in Hred.
  fold found in Hred. fold unk in Hred. fold usr in Hred. rewrite H in Hred. symmetry in Hred. clear H.
  apply bind_Ok in Hred as (k & Hk & H). apply bind_Ok in H as (master & Hm & H). apply bind_Ok in H as (b & Hb & H).
  apply bind_Ok in H as (header & Hh & H). apply bind_Ok in H as (pt' & Hpt & H). injection H as <- <-.
  apply open_body_ok in Hpt as (Hb1 & _ & Hb2). rewrite Hb2 in Hb1.
  exists k, master, header. rewrite <-Hb1. auto.
Qed.

(** ** Integrity *)

Lemma integrity P u pw k s f sp v p pt : Decrypt P u pw k s (mk_slice f sp) = Ok (v, p, pt) → known P u p →
  header_len p ≤ length f ∧ body_of P p f = Ok (sha512 P (header_of p f ++ pt) ++ pt).
Proof.
  intros H Hkn. apply Decrypt_inv in H as (-> & m & rest & n & p0 & Hf & Hh & Hn & -> & H).
  unfold dispatch in H. destruct (negb (n =? 0)%Z && (length u =? 0)); [done|]. destruct (n =? 0)%Z eqn:En.
  - apply single_inv in H as (m' & s' & iv & ct & k' & -> & Lm & Ls & Li & _ & -> & Hd).
    unfold body_of, header_of, header_len. cbn [NUsers tag_version tag0 single_params Z.eqb Keys IVs at_]. clear Hf.
    split; [rewrite !app_length; lia|].
    assert (take 88 (m' ++ s' ++ iv ++ ct) = m' ++ s' ++ iv) as Ht.
    { rewrite !(assoc_L (++)). apply take_app_len. rewrite !app_length. lia. }
    assert (drop 88 (m' ++ s' ++ iv ++ ct) = ct) as Hdr.
    { rewrite !(assoc_L (++)). apply drop_app_len. rewrite !app_length. lia. }
    by rewrite Ht, Hdr.
  - apply Z.eqb_neq in En. clear Hf.
    apply multi_inv in H as (m' & tbl & t & ivm & ct & -> & Lm & Lt & Li & Hread & Hok & k' & master & header & Hk & Hm & Hhd & Hd & ->); [|lia].
    set (found := find_user (sha256 P u) 0 (t_users t)) in *.
    assert ((found <? 0)%Z = false) as Hunk.
    { destruct Hkn as [Hkn|Hkn].
      - exfalso. cbn [NUsers tag_version multi_result] in Hkn. destruct (found <? 0)%Z; lia.
      - cbn [Users tag_version multi_result] in Hkn. apply Z.ltb_ge. by apply find_user_known. }
    rewrite Hunk in *. cbn [negb] in *. injection Hhd as <-.
    unfold body_of, header_of, header_len, nusers. cbn [NUsers tag_version multi_result Master IVM].
    rewrite (proj2 (Z.eqb_neq _ _) En). unfold nil_bytes. cbn [default id].
    assert (take (16 + 184 * Z.to_nat n + 40) (m' ++ tbl ++ ivm ++ ct) = m' ++ tbl ++ ivm) as Ht.
    { rewrite !(assoc_L (++)). apply take_app_len. rewrite !app_length. lia. }
    assert (drop (16 + 184 * Z.to_nat n + 40) (m' ++ tbl ++ ivm ++ ct) = ct) as Hdr.
    { rewrite !(assoc_L (++)). apply drop_app_len. rewrite !app_length. lia. }
    rewrite Ht, Hdr. split; [|done]. rewrite !app_length. lia.
Qed.

Lemma same_body P u pw k s f sp v p pt u' pw' k' s' f' sp' v' p' pt' : prims_ok P →
  Decrypt P u pw k s (mk_slice f sp) = Ok (v, p, pt) → known P u p →
  Decrypt P u' pw' k' s' (mk_slice f' sp') = Ok (v', p', pt') → known P u' p' →
  body_of P p f = body_of P p' f' →
  pt = pt' ∧ (header_of p f = header_of p' f' ∨ collision P (header_of p f ++ pt) (header_of p' f' ++ pt)).
Proof.
  intros HP H1 K1 H2 K2 HB. apply integrity in H1 as [L1 H1]; [|done]. apply integrity in H2 as [L2 H2]; [|done].
  rewrite H1, H2 in HB. injection HB as HB. apply app_inj_1 in HB as [HB ->]; [|by rewrite !sha512_len].
  split; [done|]. destruct (decide (header_of p f = header_of p' f')) as [|Hne]; [by left|]. right. split; [|done].
  intros E. apply Hne. by apply app_inj_2 in E as [E _].
Qed.

(** Changing only the magic line of a single-user file. *)
Lemma single_magic P u pw k s f sp v p pt f' sp' v' p' pt' u' : prims_ok P →
  Decrypt P u pw k s (mk_slice f sp) = Ok (v, p, pt) → NUsers p = 0%Z →
  Decrypt P u' pw k s (mk_slice f' sp') = Ok (v', p', pt') → NUsers p' = 0%Z →
  drop 16 f = drop 16 f' →
  pt = pt' ∧ (f = f' ∨ collision P (header_of p f ++ pt) (header_of p' f' ++ pt)).
Proof.
  intros HP H1 N1 H2 N2 Hd. assert (body_of P p f = body_of P p' f') as HB.
  { unfold body_of, header_len. rewrite N1, N2. cbn [Z.eqb].
    assert (∀ (g : bytes), drop 88 g = drop 72 (drop 16 g)) as Hdd by (intros g; by rewrite drop_drop). rewrite !Hdd, Hd.
    apply Decrypt_inv in H1 as (-> & m1 & r1 & n1 & q1 & _ & _ & Hn1 & -> & H1).
    apply Decrypt_inv in H2 as (-> & m2 & r2 & n2 & q2 & _ & _ & Hn2 & -> & H2).
    unfold dispatch in H1, H2.
    destruct (negb (n1 =? 0)%Z && _); [done|]. destruct (negb (n2 =? 0)%Z && _); [done|].
    assert (∀ n u f sp q pt, (0 ≤ n)%Z → NUsers (tag_version 1 q) = 0%Z → (if (n =? 0)%Z then decryptV1Single P v1 pw k s (mk_slice f sp)
       else decryptV1Multi P v1 n u pw k s (mk_slice f sp)) = Ok (q, pt) → decryptV1Single P v1 pw k s (mk_slice f sp) = Ok (q, pt)) as Hs.
    { intros n u0 f0 sp0 q0 pt0 Hn HN H. destruct (n =? 0)%Z eqn:En; [done|]. apply Z.eqb_neq in En. exfalso.
      apply multi_inv in H as (? & ? & t & ? & ? & _ & _ & _ & _ & _ & _ & ? & ? & ? & _ & _ & _ & _ & ->); [|lia].
      cbn [NUsers tag_version multi_result] in HN. destruct (_ <? 0)%Z in HN; lia. }
    apply Hs in H1; [|done|done]. apply Hs in H2; [|done|done].
    apply single_inv in H1 as (m1' & s1 & iv1 & ct1 & k1 & -> & Lm1 & Ls1 & Li1 & Hc1 & -> & _).
    apply single_inv in H2 as (m2' & s2 & iv2 & ct2 & k2 & -> & Lm2 & Ls2 & Li2 & Hc2 & -> & _).
    rewrite !drop_app_len in Hd by done. apply app_inj_1 in Hd as [-> Hd]; [|lia]. apply app_inj_1 in Hd as [-> ->]; [|lia].
    rewrite Hc1 in Hc2. injection Hc2 as ->. done. }
  pose proof H1 as H1'. pose proof H2 as H2'.
  apply integrity in H1' as [L1 _]; [|by left]. apply integrity in H2' as [L2 _]; [|by left].
  destruct (same_body P u pw k s f sp v p pt u' pw k s f' sp' v' p' pt' HP H1 (or_introl N1) H2 (or_introl N2) HB) as [-> [He|Hc]].
  - split; [done|]. left. unfold header_of, header_len in He. rewrite N1, N2 in He. cbn [Z.eqb] in He.
    rewrite <-(take_drop 16 f), <-(take_drop 16 f'), Hd. f_equal.
    assert (∀ g : bytes, take 16 g = take 16 (take 88 g)) as Hg by (intros g; by rewrite take_take).
    by rewrite (Hg f), (Hg f'), He.
  - by split; [|right].
Qed.

(** Changing anything in the header that the user's own decryption does not
    depend on: the magic line, the other users' rows. *)
Lemma multi_rows_tamper P u pw k s f sp v p pt f' sp' v' p' pt' : prims_ok P →
  Decrypt P u pw k s (mk_slice f sp) = Ok (v, p, pt) → sha256 P u ∈ Users p →
  Decrypt P u pw k s (mk_slice f' sp') = Ok (v', p', pt') → sha256 P u ∈ Users p' →
  (0 < NUsers p)%Z → NUsers p' = NUsers p → User p' = User p →
  at_ (Salts p') (Z.to_nat (User p)) = at_ (Salts p) (Z.to_nat (User p)) →
  at_ (IVs p') (Z.to_nat (User p)) = at_ (IVs p) (Z.to_nat (User p)) →
  at_ (MKeys p') (Z.to_nat (User p)) = at_ (MKeys p) (Z.to_nat (User p)) →
  IVM p' = IVM p → drop (header_len p) f' = drop (header_len p) f →
  pt = pt' ∧ (f = f' ∨ collision P (header_of p f ++ pt) (header_of p' f' ++ pt)).
Proof.
  intros HP H1 K1 H2 K2 HN0 HN HU HS HI HMK HIVM Hct.
  assert (∀ f sp v p pt, Decrypt P u pw k s (mk_slice f sp) = Ok (v, p, pt) → sha256 P u ∈ Users p → (0 < NUsers p)%Z →
    ∃ key, choose_m P pw k s (at_ (Salts p) (Z.to_nat (User p))) = Ok key ∧ is_Some (Master p) ∧
      unwrap_key P key (at_ (IVs p) (Z.to_nat (User p))) (at_ (MKeys p) (Z.to_nat (User p))) = Ok (nil_bytes (Master p))) as Hinv.
  { clear. intros f sp v p pt H Hin HN0. apply Decrypt_inv in H as (-> & m1 & r1 & n1 & q1 & _ & _ & Hn1 & -> & H1).
    unfold dispatch in H1. destruct (negb (n1 =? 0)%Z && _); [done|]. destruct (n1 =? 0)%Z eqn:En.
    { apply single_inv in H1 as (? & ? & ? & ? & ? & _ & _ & _ & _ & _ & -> & _). cbn [NUsers tag_version tag0 single_params] in HN0. lia. }
    apply Z.eqb_neq in En.
    apply multi_inv in H1 as (m' & tbl & t & ivm & ct & -> & Lm & Lt & Li & Hread & Hok & k' & master & header & Hk & Hm & Hhd & Hd & ->); [|lia].
    set (found := find_user (sha256 P u) 0 (t_users t)) in *.
    cbn [Users tag_version multi_result] in Hin.
    assert ((found <? 0)%Z = false) as Hunk.
    { apply Z.ltb_ge. by apply find_user_known. }
    rewrite Hunk in *. exists k'. cbn [Salts IVs MKeys User Master tag_version multi_result]. rewrite Nat2Z.id.
    unfold nil_bytes. cbn [default id]. eauto. }
  pose proof (Hinv _ _ _ _ _ H1 K1 HN0) as (k1 & C1 & [M1 M1'] & U1). destruct (Hinv _ _ _ _ _ H2 K2 ltac:(lia)) as (k2 & C2 & [M2 M2'] & U2).
  rewrite HU in *. rewrite HS in C2. rewrite C1 in C2. injection C2 as <-. rewrite HI, HMK, U1 in U2. injection U2 as HMM.
  assert (header_len p' = header_len p) as HL by (unfold header_len, nusers; by rewrite HN).
  assert (body_of P p f = body_of P p' f') as HB.
  { unfold body_of. rewrite HN, HL, Hct, HIVM, HMM. rewrite (proj2 (Z.eqb_neq _ _)) by lia. done. }
  destruct (same_body P u pw k s f sp v p pt u pw k s f' sp' v' p' pt' HP H1 (or_intror K1) H2 (or_intror K2) HB) as [-> [He|Hc]].
  - split; [done|]. left. unfold header_of in He. rewrite HL in He.
    by rewrite <-(take_drop (header_len p) f), <-(take_drop (header_len p) f'), Hct, He.
  - by split; [|right].
Qed.
