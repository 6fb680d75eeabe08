From Verif Require Import Proof_GoStr Proof_Pkcs7 Proof_Crypt7.
From Verif Require Export Spec_Tamper.
From Coq Require Import Lia.
From stdpp Require Import options.
#[local] Open Scope nat_scope.

Lemma xor_byte_shift x a a' : xor_byte (xor_byte x a) (xor_byte a a') = xor_byte x a'.
Proof.
  destruct x, a, a'; simpl.
  f_equal; match goal with |- xorb (xorb ?x ?y) (xorb ?y ?z) = _ => by destruct x, y, z end.
Qed.
Lemma xor_shift x a a' : length a = length x → length a' = length x →
  xor_bytes (xor_bytes x a) (xor_bytes a a') = xor_bytes x a'.
Proof.
  revert a a'. induction x as [|y x IH]; intros [|b a] [|b' a'] H H'; simpl in *; try done.
  f_equal; [apply xor_byte_shift|]. apply IH; lia.
Qed.

Lemma flip16_app d x y : length x = 16 → flip16 d (x ++ y) = xor_bytes x d ++ y.
Proof. intros H. unfold flip16. by rewrite take_app_alt, drop_app_alt. Qed.
Lemma flip16_long d x y : 16 ≤ length x → flip16 d (x ++ y) = flip16 d x ++ y.
Proof. intros H. unfold flip16. rewrite take_app_le, drop_app_le by lia. by rewrite app_assoc. Qed.
Lemma flip16_length d x : length d = 16 → 16 ≤ length x → length (flip16 d x) = length x.
Proof. intros Hd H. unfold flip16. rewrite app_length, xor_length, take_length, drop_length; [lia|]. rewrite take_length. lia. Qed.

Lemma cbc_shift P k iv iv' c b : prims_ok P → length k = alg_key AES → length iv = 16 → length iv' = 16 →
  cbc_decrypt P AES k iv c = Ok b → cbc_decrypt P AES k iv' c = Ok (flip16 (xor_bytes iv iv') b).
Proof.
  intros HP Hk Hi Hi' H. unfold cbc_decrypt in *. change (alg_block AES) with 16 in *.
  destruct (length c mod 16 =? 0) eqn:E; [|done]. apply Nat.eqb_eq in E. apply Ok_eq in H. subst b. f_equal.
  destruct (split_blocks_n 16 (length c / 16) c) as (ls & -> & Hb & _).
  { pose proof (Nat.div_mod (length c) 16 ltac:(lia)). lia. }
  rewrite chunks_concat by (done || lia). destruct Hb as [|x ls Hx Hb]; [done|]. simpl.
  assert (length (blk_dec P AES k x) = 16) as HL by (by apply (dec_len P HP AES)).
  rewrite flip16_app by (rewrite xor_length; lia). by rewrite xor_shift by lia.
Qed.

Lemma Unpad_flip d b r : length d = 16 → 17 ≤ length r → Unpad b = Ok r → Unpad (flip16 d b) = Ok (flip16 d r).
Proof.
  intros Hd Hr H. apply Unpad_spec in H as (n & c & HL & Hc & Hn & ->). apply Unpad_spec. exists n, c.
  rewrite flip16_long by lia. split; [|split; [done|]; split; [|done]].
  - unfold flip16. rewrite <-app_assoc. rewrite <-(take_drop 16 r) in HL. rewrite <-app_assoc in HL.
    destruct (drop 16 r) as [|y l] eqn:E; [apply (f_equal length) in E; rewrite drop_length in E; simpl in E; lia|].
    rewrite last_app in HL |- *. simpl app in *. destruct (last (y :: l ++ replicate n c)) eqn:E'; [done|].
    apply last_None in E'. done.
  - rewrite app_length, replicate_length. lia.
Qed.

Lemma decode_shift P key a a' b ct body : prims_ok P → length a = 16 → length a' = 16 → length b = 24 →
  decode P key (a ++ b) ct = Ok body → 17 ≤ length body →
  decode P key (a' ++ b) ct = Ok (flip16 (xor_bytes a a') body).
Proof.
  intros HP Ha Ha' Hb H HL. unfold decode in *. apply bind_Ok in H as (cs & Hcs & H). rewrite Hcs. cbn [mbind outcome_bind].
  assert (good_ciphers cs ∧ cs.*1 = c_algs v1) as [Hg Hf].
  { destruct (decide (0 + sum_list_with alg_key (c_algs v1) ≤ length key)) as [Hk|Hk].
    - destruct (makeCiphers_ok key 0 (c_algs v1) Hk) as (cs' & E & Hg & Hf). rewrite Hcs in E. apply Ok_eq in E. by subst.
    - rewrite makeCiphers_short in Hcs by lia. done. }
  destruct cs as [|[a1 k1] [|[a2 k2] [|[a3 k3] [|]]]]; try done. simpl in Hf. injection Hf as -> -> ->.
  assert (length k1 = alg_key AES) as Hk1 by (by inversion Hg).
  change (reverse [(AES, k1); (Camellia, k2); (CAST5, k3)]) with [(CAST5, k3); (Camellia, k2); (AES, k1)] in *.
  assert (length (a ++ b) = 40) as L by (rewrite app_length; lia). assert (length (a' ++ b) = 40) as L' by (rewrite app_length; lia).
  rewrite L in H. rewrite L'. cbn [unseal alg_block] in *.
  assert (∀ x n : nat, x ∈ [16; 32] → bback (a' ++ b) (x + n) n = bback (a ++ b) (x + n) n) as Hbb.
  { intros x n Hx. unfold bback. destruct (n <=? x + n); [|done]. replace (x + n - n) with x by lia. unfold bsub. rewrite L, L'.
    destruct (_ && _); [|done]. f_equal. f_equal.
    assert (16 ≤ x) by (set_solver by lia).
    rewrite !drop_app_ge by lia. by rewrite Ha, Ha'. }
  assert (bback (a' ++ b) 40 8 = bback (a ++ b) 40 8) as -> by (apply (Hbb 32 8); set_solver).
  destruct (bback (a ++ b) 40 8) as [i1| |] eqn:E1; [|done|done]. cbn [mbind outcome_bind] in *.
  destruct (cbc_decrypt P CAST5 k3 i1 ct) as [x1| |]; [|done|done]. cbn [mbind outcome_bind] in *.
  destruct (Unpad x1) as [y1| |]; [|done|done]. change (40 - 8) with 32 in *. cbn [unseal alg_block] in *.
  assert (bback (a' ++ b) 32 16 = bback (a ++ b) 32 16) as -> by (apply (Hbb 16 16); set_solver).
  destruct (bback (a ++ b) 32 16) as [i2| |] eqn:E2; [|done|done]. cbn [mbind outcome_bind] in *.
  destruct (cbc_decrypt P Camellia k2 i2 y1) as [x2| |]; [|done|done]. cbn [mbind outcome_bind] in *.
  destruct (Unpad x2) as [y2| |]; [|done|done]. change (32 - 16) with 16 in *. cbn [unseal alg_block] in *.
  assert (∀ z, length z = 16 → bback (z ++ b) 16 16 = Ok z) as Hz.
  { intros z Hz. unfold bback, bsub. rewrite app_length, Hz, Hb. change (16 - 16) with 0. rewrite drop_0.
    change (16 - 0) with 16. change (16 <=? 16) with true. change ((0 <=? 16) && (16 <=? 16 + 24)) with true.
    cbn [mbind outcome_bind]. f_equal. by apply take_app_alt. }
  rewrite Hz in H by done. rewrite Hz by done. cbn [mbind outcome_bind] in *.
  destruct (cbc_decrypt P AES k1 a y2) as [x3| |] eqn:E3; [|done|done]. cbn [mbind outcome_bind] in *.
  rewrite (cbc_shift P k1 a a' y2 x3) by done. cbn [mbind outcome_bind].
  destruct (Unpad x3) as [y3| |] eqn:E4; [|done|done]. apply Ok_eq in H. subst y3.
  rewrite (Unpad_flip _ x3 body); [done| |done|done]. rewrite xor_length; lia.
Qed.

(** ** The whole of Decrypt *)

Lemma open_body_spec P h body pt : open_body P h body = Ok pt ↔ 64 ≤ length body ∧ drop 64 body = pt ∧ take 64 body = sha512 P (h ++ pt).
Proof.
  unfold open_body, bsub, bfrom. rewrite drop_0. change (64 - 0) with 64. change (0 <=? 64) with true. cbn [andb].
  destruct (64 <=? length body) eqn:E; cbn [mbind outcome_bind].
  - apply Nat.leb_le in E. unfold beq. case_bool_decide as H.
    + split; [intros <-%Ok_eq; by split|by intros (_ & -> & _)].
    + split; [done|]. intros (_ & <- & H'). done.
  - apply Nat.leb_gt in E. split; [done|lia].
Qed.

Lemma flip16_split d h pt : 16 ≤ length h → length d = 16 → length h = 64 →
  take 64 (flip16 d (h ++ pt)) = flip16 d h ∧ drop 64 (flip16 d (h ++ pt)) = pt.
Proof.
  intros H Hd H64. rewrite flip16_long by done. pose proof (flip16_length d h Hd H). 
  split; [apply take_app_alt|apply drop_app_alt]; lia.
Qed.

Lemma single_shift P u pw k s m salt a a' b ct sp sp' n v p pt : prims_ok P → head_ok m n → n = 0%Z →
  length salt = 32 → length a = 16 → length a' = 16 → length b = 24 →
  Decrypt P u pw k s (mk_slice (m ++ salt ++ (a ++ b) ++ ct) sp) = Ok (v, p, pt) →
  ∀ r, Decrypt P u pw k s (mk_slice (m ++ salt ++ (a' ++ b) ++ ct) sp') = Ok r ↔
    r = (v, tag_version 1 (tag0 (single_params (at_ (Keys p) 0) salt (a' ++ b))), pt) ∧
    sha512 P ((m ++ salt ++ a' ++ b) ++ pt) = flip16 (xor_bytes a a') (sha512 P ((m ++ salt ++ a ++ b) ++ pt)).
Proof.
  intros HP Hh -> Hs Ha Ha' Hb H r. pose proof Hh as (Lm & _).
  rewrite (Decrypt_head _ _ _ _ _ _ 0%Z) in H by done. rewrite (Decrypt_head _ _ _ _ _ _ 0%Z) by done.
  unfold dispatch in *. cbn [negb Z.eqb andb] in *.
  assert (length (a ++ b) = 40) as L by (rewrite app_length; lia). assert (length (a' ++ b) = 40) as L' by (rewrite app_length; lia).
  rewrite single_red in H by done. rewrite single_red by done.
  destruct (Proof_Crypt2.choose P pw k s salt) as [key| |]; [|done|done]. cbn [mbind outcome_bind] in *.
  destruct (decode P key (a ++ b) ct) as [body| |] eqn:Ed; [|done|done]. cbn [mbind outcome_bind] in *.
  destruct (open_body P (m ++ salt ++ a ++ b) body) as [pt0| |] eqn:Eo; [|done|done]. cbn [mbind outcome_bind] in *.
  apply Ok_eq in H. injection H as <- <- <-. apply open_body_spec in Eo as (HL & Hd & Ht).
  rewrite (decode_shift P key a a' b ct body) by (done || lia). cbn [mbind outcome_bind].
  change (at_ (Keys (tag_version 1 (tag0 (single_params key salt (a ++ b))))) 0) with key.
  assert (length (xor_bytes a a') = 16) as Lx by (rewrite xor_length; lia).
  assert (body = sha512 P ((m ++ salt ++ a ++ b) ++ pt0) ++ pt0) as -> by (rewrite <-Ht, <-Hd; by rewrite take_drop).
  pose proof (sha512_len P HP ((m ++ salt ++ a ++ b) ++ pt0)) as L64.
  destruct (flip16_split (xor_bytes a a') (sha512 P ((m ++ salt ++ a ++ b) ++ pt0)) pt0) as [T D]; [lia|done|done|].
  destruct (open_body P (m ++ salt ++ a' ++ b) _) as [pt1|e|] eqn:Eo; cbn [mbind outcome_bind].
  - apply open_body_spec in Eo as (_ & Hd1 & Ht1). rewrite D in Hd1. subst pt1. rewrite T in Ht1.
    split; [intros <-%Ok_eq; by split|]. by intros [-> _].
  - split; [done|]. intros [-> E]. exfalso. enough (open_body P (m ++ salt ++ a' ++ b)
       (flip16 (xor_bytes a a') (sha512 P ((m ++ salt ++ a ++ b) ++ pt0) ++ pt0)) = Ok pt0) by congruence.
    apply open_body_spec. rewrite T, D. split; [|done]. rewrite flip16_length; [done|done|]. lia.
  - split; [done|]. intros [-> E]. exfalso. enough (open_body P (m ++ salt ++ a' ++ b)
       (flip16 (xor_bytes a a') (sha512 P ((m ++ salt ++ a ++ b) ++ pt0) ++ pt0)) = Ok pt0) by congruence.
    apply open_body_spec. rewrite T, D. split; [|done]. rewrite flip16_length; [done|done|]. lia.
Qed.

Lemma single_shape P u pw k s f sp v p pt : Decrypt P u pw k s (mk_slice f sp) = Ok (v, p, pt) → NUsers p = 0%Z →
  ∃ m salt a b ct, f = m ++ salt ++ (a ++ b) ++ ct ∧ head_ok m 0 ∧ length salt = 32 ∧ length a = 16 ∧ length b = 24.
Proof.
  intros H N. apply Decrypt_inv in H as (-> & m & rest & n & q & Hf & Hh & Hn & -> & H). unfold dispatch in H.
  destruct (negb (n =? 0)%Z && _); [done|]. destruct (n =? 0)%Z eqn:En.
  - apply Z.eqb_eq in En as ->. apply single_inv in H as (m' & s' & iv & ct & k' & E & Lm & Ls & Li & _ & _ & _).
    exists m', s', (take 16 iv), (drop 16 iv), ct. rewrite take_drop. split; [done|]. rewrite take_length, drop_length.
    repeat split; try lia; pose proof Hh as (Lm' & Hrest); rewrite Hf in E; apply app_inj_1 in E as [-> _]; try lia; apply Hrest.
  - apply Z.eqb_neq in En. exfalso.
    apply multi_inv in H as (? & ? & t & ? & ? & _ & _ & _ & _ & _ & _ & ? & ? & ? & _ & _ & _ & _ & ->); [|lia].
    cbn [NUsers tag_version multi_result] in N. destruct (_ <? 0)%Z in N; lia.
Qed.

Lemma single_iv P u pw k s f sp f' sp' v p pt : prims_ok P →
  Decrypt P u pw k s (mk_slice f sp) = Ok (v, p, pt) → NUsers p = 0%Z →
  length f' = length f → take 48 f' = take 48 f → drop 64 f' = drop 64 f →
  let d := xor_bytes (take 16 (drop 48 f)) (take 16 (drop 48 f')) in
  (∀ v' p' pt', Decrypt P u pw k s (mk_slice f' sp') = Ok (v', p', pt') → pt' = pt) ∧
  ((∃ r, Decrypt P u pw k s (mk_slice f' sp') = Ok r) ↔
   sha512 P (take 88 f' ++ pt) = flip16 d (sha512 P (take 88 f ++ pt))).
Proof.
  intros HP H N HL H48 H64 d. destruct (single_shape _ _ _ _ _ _ _ _ _ _ H N) as (m & salt & a & b & ct & -> & Hh & Ls & La & Lb).
  pose proof Hh as (Lm & _). unfold d; clear d.
  remember (take 16 (drop 48 f')) as a' eqn:Ea'.
  assert (length a' = 16) as La'. { rewrite Ea', take_length, drop_length, HL, !app_length. lia. }
  assert (f' = m ++ salt ++ (a' ++ b) ++ ct) as ->.
  { rewrite <-(take_drop 48 f'), H48. rewrite <-(take_drop 16 (drop 48 f')), drop_drop. change (48 + 16) with 64. rewrite H64, <-Ea'.
    assert (∀ z, take 48 (m ++ salt ++ z) = m ++ salt) as T.
    { intros z. rewrite app_assoc. apply take_app_alt. rewrite app_length. lia. }
    assert (∀ y z : bytes, length y = 16 → drop 64 (m ++ salt ++ y ++ z) = z) as D.
    { intros y z Hy. rewrite !app_assoc. apply drop_app_alt. rewrite !app_length. lia. }
    rewrite T. rewrite <-(app_assoc a b ct), D by done. by rewrite <-!app_assoc. }
  assert (∀ y : bytes, length y = 16 → take 88 (m ++ salt ++ (y ++ b) ++ ct) = m ++ salt ++ y ++ b) as T.
  { intros y Hy. replace (m ++ salt ++ (y ++ b) ++ ct) with ((m ++ salt ++ y ++ b) ++ ct) by (by rewrite <-!app_assoc).
    apply take_app_alt. rewrite !app_length. lia. }
  assert (take 16 (drop 48 (m ++ salt ++ (a ++ b) ++ ct)) = a) as Ea.
  { rewrite (app_assoc m). rewrite drop_app_alt by (rewrite app_length; lia). rewrite <-app_assoc. by apply take_app_alt. }
  rewrite Ea, !T by done. clear Ea T H48 H64 HL Ea'.
  pose proof (single_shift P u pw k s m salt a a' b ct sp sp' 0 v p pt HP Hh eq_refl Ls La La' Lb H) as S.
  split.
  - intros v' p' pt' H'. apply S in H' as [E _]. by injection E.
  - split; [intros [r Hr]; by apply S in Hr as [_ ?]|]. intros E. eexists. apply S. split; [reflexivity|done].
Qed.

Lemma multi_iv P u pw k s f sp v p pt f' sp' v' p' pt' a a' b : prims_ok P →
  Decrypt P u pw k s (mk_slice f sp) = Ok (v, p, pt) → sha256 P u ∈ Users p →
  Decrypt P u pw k s (mk_slice f' sp') = Ok (v', p', pt') → sha256 P u ∈ Users p' →
  (0 < NUsers p)%Z → NUsers p' = NUsers p → User p' = User p →
  at_ (Salts p') (Z.to_nat (User p)) = at_ (Salts p) (Z.to_nat (User p)) →
  at_ (IVs p') (Z.to_nat (User p)) = at_ (IVs p) (Z.to_nat (User p)) →
  at_ (MKeys p') (Z.to_nat (User p)) = at_ (MKeys p) (Z.to_nat (User p)) →
  length a = 16 → length a' = 16 → length b = 24 → IVM p = Some (a ++ b) → IVM p' = Some (a' ++ b) →
  drop (header_len p) f' = drop (header_len p) f →
  pt' = pt ∧ sha512 P (header_of p' f' ++ pt) = flip16 (xor_bytes a a') (sha512 P (header_of p f ++ pt)).
Proof.
  intros HP H1 K1 H2 K2 HN0 HN HU HS HI HMK La La' Lb I1 I2 Hct.
  assert (∀ f sp v p pt, Decrypt P u pw k s (mk_slice f sp) = Ok (v, p, pt) → sha256 P u ∈ Users p → (0 < NUsers p)%Z →
    ∃ key, choose_m P pw k s (at_ (Salts p) (Z.to_nat (User p))) = Ok key ∧ is_Some (Master p) ∧
      unwrap_key P key (at_ (IVs p) (Z.to_nat (User p))) (at_ (MKeys p) (Z.to_nat (User p))) = Ok (nil_bytes (Master p))) as Hinv.
  { clear. intros f sp v p pt H Hin HN0. apply Decrypt_inv in H as (-> & m1 & r1 & n1 & q1 & _ & _ & Hn1 & -> & H1).
    unfold dispatch in H1. destruct (negb (n1 =? 0)%Z && _); [done|]. destruct (n1 =? 0)%Z eqn:En.
    { apply single_inv in H1 as (? & ? & ? & ? & ? & _ & _ & _ & _ & _ & -> & _). cbn [NUsers tag_version tag0 single_params] in HN0. lia. }
    apply Z.eqb_neq in En.
    apply multi_inv in H1 as (m' & tbl & t & ivm & ct & -> & Lm & Lt & Li & Hread & Hok & k' & master & header & Hk & Hm & Hhd & Hd & ->); [|lia].
    set (found := find_user (sha256 P u) 0 (t_users t)) in *.
    cbn [Users tag_version multi_result] in Hin.
    assert ((found <? 0)%Z = false) as Hunk.
    { apply Z.ltb_ge. by apply find_user_known. }
    rewrite Hunk in *. exists k'. cbn [Salts IVs MKeys User Master tag_version multi_result]. rewrite Nat2Z.id.
    unfold nil_bytes. cbn [default id]. eauto. }
  pose proof (Hinv _ _ _ _ _ H1 K1 HN0) as (k1 & C1 & [M1 M1'] & U1). destruct (Hinv _ _ _ _ _ H2 K2 ltac:(lia)) as (k2 & C2 & [M2 M2'] & U2).
  rewrite HU in *. rewrite HS in C2. rewrite C1 in C2. injection C2 as <-. rewrite HI, HMK, U1 in U2. apply Ok_eq in U2.
  apply integrity in H1 as [_ B1]; [|by right]. apply integrity in H2 as [_ B2]; [|by right].
  unfold body_of in B1, B2. rewrite HN in B2. rewrite (proj2 (Z.eqb_neq _ _)) in B1, B2 by lia.
  assert (header_len p' = header_len p) as HL by (unfold header_len, nusers; by rewrite HN).
  rewrite HL, Hct, I2 in B2. rewrite <-U2 in B2. rewrite I1 in B1. unfold nil_bytes at 2 in B1. unfold nil_bytes at 2 in B2. cbn [default] in B1, B2.
  pose proof (sha512_len P HP (header_of p f ++ pt)) as L1. pose proof (sha512_len P HP (header_of p' f' ++ pt')) as L2.
  apply (decode_shift P _ a a' b) in B1; [|done|done|done|done|rewrite app_length; lia].
  unfold id in B1, B2. rewrite B2 in B1. apply Ok_eq in B1.
  destruct (flip16_split (xor_bytes a a') (sha512 P (header_of p f ++ pt)) pt) as [T D]; [lia|rewrite xor_length; lia|done|].
  rewrite <-B1 in T, D. rewrite drop_app_alt in D by done. rewrite take_app_alt in T by done. subst pt'. by split.
Qed.

Lemma echo_ok n : prims_ok (echo n).
Proof.
  assert (∀ a (k b : bytes), length k = alg_key a → length b = alg_block a → length (take (alg_block a) k) = length b) as Hl.
  { intros a k b Hk Hb. rewrite take_length, Hk, Hb. by destruct a. }
  split; simpl.
  - intros. apply fit_length.
  - intros. apply fit_length.
  - intros. apply fit_length.
  - intros a k b Hk Hb. rewrite xor_length; [done|]. by apply Hl.
  - intros a k b Hk Hb. rewrite xor_length; [done|]. by apply Hl.
  - intros a k b Hk Hb. apply xor_invol. by apply Hl.
  - intros a k b Hk Hb. apply xor_invol. by apply Hl.
Qed.
