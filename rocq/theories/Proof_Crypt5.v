From Verif Require Import Proof_GoStr Proof_Pkcs7.
From Verif Require Export Proof_Crypt4.
From Coq Require Import Lia.
From stdpp Require Import options.
#[local] Open Scope nat_scope.

Lemma tag_tag0 p : p_version p = 1%Z → tag_version 1 (tag0 p) = p.
Proof. destruct p; simpl. by intros ->. Qed.

Lemma beq_refl a : beq a a = true.
Proof. unfold beq. by rewrite bool_decide_true. Qed.
Lemma beq_ne a b : a ≠ b → beq a b = false.
Proof. intros H. unfold beq. by rewrite bool_decide_false. Qed.
Lemma len0 (l : bytes) : l ≠ [] → (length l =? 0) = false.
Proof. by destruct l. Qed.

Lemma head_zero : head_ok (magic_line 1 0) 0.
Proof. by apply head_small. Qed.

(** ** Single-user *)

Lemma single_genuine P p riv pt key salt : prims_ok P → validate v1 p = Ok tt → NUsers p = 0%Z →
  Keys p !! 0 = Some key → key ≠ [] → Salts p !! 0 = Some salt → length riv = 40 →
  ∃ ct, Encrypt P 1 p (Some riv) pt = Ok (magic_line 1 0 ++ salt ++ riv ++ ct) ∧
    length key = 80 ∧ length salt = 32 ∧
    decode P key riv ct = Ok (sha512 P ((magic_line 1 0 ++ salt ++ riv) ++ pt) ++ pt) ∧ 64 + length pt < length ct.
Proof.
  intros HP Hv HN Hk Hne Hs Hr. pose proof Hv as Hv2. apply validate_ok in Hv2 as [(_ & _ & HK & HS) _].
  rewrite Forall_lookup in HK, HS. specialize (HK _ _ Hk). specialize (HS _ _ Hs).
  assert (length key = 80) as Lk by (destruct HK; [by destruct key|done]).
  destruct (encryptV1Single_ok P p riv pt key salt HP Hk Hs Lk HS Hr) as (ct & E & Hd & Hlt).
  exists ct. unfold Encrypt. change (getVersion 1) with (Ok v1). cbn [mbind outcome_bind]. rewrite Hv, HN. cbn [mbind outcome_bind].
  done.
Qed.

Lemma single_dispatch P u pw k s e : dispatch P 0 u pw k s e = decryptV1Single P v1 pw k s e.
Proof. done. Qed.

Lemma single_round_trip P p riv pt key salt sp : prims_ok P → validate v1 p = Ok tt → NUsers p = 0%Z →
  Keys p !! 0 = Some key → key ≠ [] → Salts p !! 0 = Some salt → length riv = 40 →
  ∃ f, Encrypt P 1 p (Some riv) pt = Ok f ∧
    (∀ user pass, Decrypt P user pass (Some key) salt (mk_slice f sp) = Ok (1%Z, single_params key salt riv, pt)) ∧
    (∀ user pass key' salt', pass ≠ [] → key = key_of P pass salt → (key' = None ∨ salt' ≠ salt) →
       Decrypt P user pass key' salt' (mk_slice f sp) = Ok (1%Z, single_params key salt riv, pt)).
Proof.
  intros HP Hv HN Hk Hne Hs Hr. destruct (single_genuine P p riv pt key salt) as (ct & E & Lk & Ls & Hd & Hlt); auto.
  exists (magic_line 1 0 ++ salt ++ riv ++ ct). split; [done|].
  assert (∀ user pass key' salt', choose P pass key' salt' salt = Ok key →
    Decrypt P user pass key' salt' (mk_slice (magic_line 1 0 ++ salt ++ riv ++ ct) sp) = Ok (1%Z, single_params key salt riv, pt)) as Hall.
  { intros user pass key' salt' Hc. rewrite (Decrypt_head _ _ _ _ _ _ 0%Z) by apply head_zero.
    rewrite single_dispatch, single_red by (done || apply head_zero). rewrite Hc. cbn [mbind outcome_bind].
    rewrite Hd. cbn [mbind outcome_bind]. rewrite open_body_genuine by done. cbn [mbind outcome_bind].
    by rewrite tag_tag0. }
  split.
  - intros user pass. apply Hall. unfold choose. by rewrite beq_refl.
  - intros user pass key' salt' Hp -> Hc. apply Hall. unfold choose. rewrite (len0 pass Hp).
    destruct key' as [k'|]; [|done]. destruct Hc as [?|Hc]; [done|]. by rewrite beq_ne.
Qed.

Lemma single_empty_pass P p riv pt key salt user key' salt' sp : prims_ok P → validate v1 p = Ok tt → NUsers p = 0%Z →
  Keys p !! 0 = Some key → key ≠ [] → Salts p !! 0 = Some salt → length riv = 40 → key' = None ∨ salt' ≠ salt →
  ∃ f, Encrypt P 1 p (Some riv) pt = Ok f ∧ Decrypt P user [] key' salt' (mk_slice f sp) = Fail EWrongPassphrase.
Proof.
  intros HP Hv HN Hk Hne Hs Hr Hc. destruct (single_genuine P p riv pt key salt) as (ct & E & Lk & Ls & Hd & Hlt); auto.
  eexists. split; [done|]. rewrite (Decrypt_head _ _ _ _ _ _ 0%Z) by apply head_zero.
  rewrite single_dispatch, single_red by (done || apply head_zero). unfold choose. cbn [length Nat.eqb].
  destruct key' as [k'|]; [|done]. destruct Hc as [?|Hc]; [done|]. by rewrite beq_ne.
Qed.

(** ** Multi-user *)

Definition multi_header (p : Params) (ivm : bytes) : bytes :=
  take 16 (magic_line 1 (NUsers p)) ++ table p 0 (nusers p) ++ ivm.

Lemma multi_ok_parts p : multi_ok p → sizes_ok p ∧ multi_sizes_ok p ∧ (1 ≤ NUsers p)%Z ∧
  ∃ m ivm, Master p = Some m ∧ IVM p = Some ivm ∧ length m = 80 ∧ length ivm = 40.
Proof.
  intros (Hv & Hn & [ivm HI] & [m HM]). apply validate_ok in Hv as [Hs [?|[_ Hms]]]; [lia|].
  split; [done|]. split; [done|]. split; [done|]. exists m, ivm.
  destruct Hms as (_ & _ & _ & _ & _ & _ & _ & _ & _ & KI & KM). auto.
Qed.

Lemma multi_genuine P p riv pt : prims_ok P → multi_ok p →
  ∃ m ivm ct, Master p = Some m ∧ IVM p = Some ivm ∧ length m = 80 ∧ length ivm = 40 ∧
    Encrypt P 1 p riv pt = Ok (multi_header p ivm ++ ct) ∧
    decode P m ivm ct = Ok (sha512 P (multi_header p ivm ++ pt) ++ pt) ∧ 64 + length pt < length ct.
Proof.
  intros HP Hok. destruct (multi_ok_parts p Hok) as (Hs & Hms & Hn & m & ivm & HM & HI & Lm & Li).
  destruct (encryptV1Multi_ok P p pt m ivm HP Hn Hs Hms HM HI) as (ct & E & Hd & Hl).
  exists m, ivm, ct. repeat split; auto. unfold Encrypt. change (getVersion 1) with (Ok v1). cbn [mbind outcome_bind].
  destruct Hok as [-> _]. cbn [mbind outcome_bind]. rewrite (proj2 (Z.eqb_neq _ _)) by lia. exact E.
Qed.

Lemma choose_m_given P pass key salt : key ≠ [] → choose_m P pass (Some key) salt salt = Ok key.
Proof. intros H. unfold choose_m. cbn [nil_bytes default id]. unfold nil_bytes. cbn [default id]. rewrite (len0 key H), beq_refl. done. Qed.
Lemma choose_m_pass P pass key salt fsalt : pass ≠ [] → key = None ∨ key = Some [] ∨ salt ≠ fsalt →
  choose_m P pass key salt fsalt = Ok (key_of P pass fsalt).
Proof.
  intros Hp Hc. unfold choose_m. rewrite (len0 pass Hp). destruct Hc as [->|[->|Hne]]; [done|done|].
  rewrite beq_ne by done. by rewrite orb_true_r.
Qed.
Lemma choose_m_nopass P key salt fsalt : key = None ∨ key = Some [] ∨ salt ≠ fsalt →
  choose_m P [] key salt fsalt = Fail EWrongPassphrase.
Proof.
  intros Hc. unfold choose_m. cbn [length Nat.eqb]. destruct Hc as [->|[->|Hne]]; [done|done|].
  rewrite beq_ne by done. by rewrite orb_true_r.
Qed.

(** The user table of a written file is read back as it was. *)
Lemma multi_layout p ivm ct : multi_ok p → length ivm = 40 → (NUsers p ≤ 9999)%Z →
  let m := take 16 (magic_line 1 (NUsers p)) in
  let tbl := table p 0 (nusers p) in
  let t := {| t_users := Users p; t_salts := Salts p; t_ivs := IVs p; t_mkeys := MKeys p |} in
  multi_header p ivm ++ ct = m ++ tbl ++ ivm ++ ct ∧ head_ok m (NUsers p) ∧ length tbl = 184 * Z.to_nat (NUsers p) ∧
  read_users v1 (Z.to_nat (NUsers p)) (tbl ++ ivm ++ ct) = Ok (t, ivm ++ ct) ∧ utable_ok t (Z.to_nat (NUsers p)).
Proof.
  intros Hok Hi H9 m tbl t. destruct (multi_ok_parts p Hok) as (Hs & Hms & Hn & _).
  destruct (multi_rows p Hs Hms) as (Hrows & Lu & Ls & Li & Lm).
  split; [unfold multi_header; by rewrite <-!(assoc_L (++))|].
  split.
  { unfold m. destruct (head_any (NUsers p)) as (cnt & Hh & _ & Hc & _); [lia|]. rewrite <-Hc by done. by rewrite Hc in Hh |- *. }
  split; [by apply table_length|]. fold (nusers p).
  unfold tbl. rewrite read_users_ok by done. unfold tab_of. rewrite !map_at_all by done. split; [done|].
  destruct Hs as (_ & _ & _ & FS). destruct Hms as (_ & _ & _ & _ & FU & _ & FI & _ & FM & _). done.
Qed.

Lemma multi_round_trip P p riv pt i name key sp : prims_ok P → multi_ok p → (NUsers p ≤ 9999)%Z →
  enrolled P p i name key → name ≠ [] →
  ∃ f salt, Encrypt P 1 p riv pt = Ok f ∧ Salts p !! i = Some salt ∧
    (∀ pass, Decrypt P name pass (Some key) salt (mk_slice f sp) = Ok (1%Z, params_for p i key, pt)) ∧
    (∀ pass key' salt', pass ≠ [] → key = key_of P pass salt → (key' = None ∨ key' = Some [] ∨ salt' ≠ salt) →
       Decrypt P name pass key' salt' (mk_slice f sp) = Ok (1%Z, params_for p i key, pt)).
Proof.
  intros HP Hok H9 (Hu & Hfirst & m0 & iv & mk & HM0 & Hiv & Hmk & HE) Hname.
  destruct (multi_genuine P p riv pt HP Hok) as (m & ivm & ct & HM & HI & Lm & Li & E & Hd & Hl).
  rewrite HM in HM0. injection HM0 as <-.
  destruct (multi_ok_parts p Hok) as (Hs & Hms & Hn & _).
  destruct (multi_rows p Hs Hms) as (Hrows & Lu & Ls & Liv & Lmk).
  pose proof (lookup_lt_Some _ _ _ Hu) as Hlt.
  destruct (lookup_lt_is_Some_2 (Salts p) i) as [salt Hsalt]; [lia|].
  exists (multi_header p ivm ++ ct), salt. split; [done|]. split; [done|].
  destruct (multi_layout p ivm ct Hok Li H9) as (Hf & Hh & Htl & Hread & Htok).
  assert (length key = 80 ∧ length iv = 40) as [Lkey Liv1].
  { split; [|destruct Hms as (_ & _ & _ & _ & _ & _ & FI & _); rewrite Forall_lookup in FI; by eapply FI].
    unfold EncryptMasterKey in HE. change (getVersion 1) with (Ok v1) in HE. cbn [mbind outcome_bind] in HE.
    apply bind_Ok in HE as ([] & _ & HE). apply bind_Ok in HE as ([] & HE & _). apply check_ok in HE.
    by apply Nat.eqb_eq in HE. }
  assert (unwrap_key P key iv mk = Ok m) as Hunw.
  { destruct (EncryptMasterKey_ok P key m iv HP Lkey Lm Liv1) as (mk' & HE' & _ & Hun). congruence. }
  assert (∀ pass key' salt', choose_m P pass key' salt' salt = Ok key →
    Decrypt P name pass key' salt' (mk_slice (multi_header p ivm ++ ct) sp) = Ok (1%Z, params_for p i key, pt)) as Hall.
  { intros pass key' salt' Hc. rewrite Hf. rewrite (Decrypt_head _ _ _ _ _ _ (NUsers p)) by done.
    unfold dispatch. rewrite (proj2 (Z.eqb_neq _ _)) by lia. rewrite (len0 name Hname). cbn [negb andb].
    pose proof Hh as (Hm16 & _).
    rewrite (multi_red P (NUsers p) name pass key' salt' _ _ _ ivm ct sp Hn Hm16 Li Htl Hread Htok).
    cbn [t_users t_salts t_ivs t_mkeys]. rewrite (find_user_first _ _ _ i Hu Hfirst).
    rewrite Z.add_0_l. rewrite (proj2 (Z.ltb_ge (Z.of_nat i) 0)) by lia. rewrite Nat2Z.id.
    rewrite (at_some _ _ _ Hsalt), (at_some _ _ _ Hiv), (at_some _ _ _ Hmk).
    rewrite Hc. cbn [mbind outcome_bind]. rewrite Hunw. cbn [mbind outcome_bind]. rewrite Hd. cbn [mbind outcome_bind].
    unfold multi_header. rewrite open_body_genuine by done. cbn [mbind outcome_bind].
    unfold multi_result, params_for, tag_version. cbn. rewrite HI, HM. done. }
  split.
  - intros pass. apply Hall. apply choose_m_given. by intros ->.
  - intros pass key' salt' Hp -> Hc. apply Hall. by apply choose_m_pass.
Qed.

Lemma multi_no_pass P p riv pt i name key key' salt' sp : prims_ok P → multi_ok p → (NUsers p ≤ 9999)%Z →
  enrolled P p i name key → name ≠ [] → 
  (key' = None ∨ key' = Some [] ∨ Salts p !! i ≠ Some salt') →
  ∃ f, Encrypt P 1 p riv pt = Ok f ∧ Decrypt P name [] key' salt' (mk_slice f sp) = Fail EWrongPassphrase.
Proof.
  intros HP Hok H9 (Hu & Hfirst & _) Hname Hc.
  destruct (multi_genuine P p riv pt HP Hok) as (m & ivm & ct & HM & HI & Lm & Li & E & Hd & Hl).
  destruct (multi_ok_parts p Hok) as (Hs & Hms & Hn & _).
  destruct (multi_rows p Hs Hms) as (Hrows & Lu & Ls & Liv & Lmk).
  pose proof (lookup_lt_Some _ _ _ Hu) as Hlt.
  destruct (lookup_lt_is_Some_2 (Salts p) i) as [salt Hsalt]; [lia|].
  exists (multi_header p ivm ++ ct). split; [done|].
  destruct (multi_layout p ivm ct Hok Li H9) as (Hf & Hh & Htl & Hread & Htok).
  rewrite Hf. rewrite (Decrypt_head _ _ _ _ _ _ (NUsers p)) by done.
  unfold dispatch. rewrite (proj2 (Z.eqb_neq _ _)) by lia. rewrite (len0 name Hname). cbn [negb andb].
  pose proof Hh as (Hm16 & _).
  rewrite (multi_red P (NUsers p) name [] key' salt' _ _ _ ivm ct sp Hn Hm16 Li Htl Hread Htok).
  cbn [t_users t_salts t_ivs t_mkeys]. rewrite (find_user_first _ _ _ i Hu Hfirst).
  rewrite Z.add_0_l. rewrite (proj2 (Z.ltb_ge (Z.of_nat i) 0)) by lia. rewrite Nat2Z.id.
  rewrite (at_some _ _ _ Hsalt). rewrite choose_m_nopass; [done|].
  destruct Hc as [?|[?|Hc]]; [auto|auto|]. right. right. congruence.
Qed.

(** ** Which mode a file is in *)

Lemma Encrypt_inv P v p riv pt f : prims_ok P → (∀ b, riv = Some b → length b = 40) → Encrypt P v p riv pt = Ok f →
  v = 1%Z ∧ ∃ m n rest, f = m ++ rest ∧ head_ok m n ∧ (n = 0 ↔ NUsers p = 0)%Z ∧ (NUsers p ≤ 9999 → n = NUsers p)%Z ∧
    (9999 < NUsers p → 1000 ≤ n ≤ 9999)%Z ∧
    (NUsers p = 0%Z → ∃ s iv ct, rest = s ++ iv ++ ct ∧ length s = 32 ∧ length iv = 40) ∧ (0 ≤ NUsers p)%Z.
Proof.
  intros HP Hr H. unfold Encrypt in H. apply bind_Ok in H as (c & Hc & H).
  unfold getVersion in Hc. destruct (v =? 1)%Z eqn:Ev; [|done]. apply Z.eqb_eq in Ev as ->. injection Hc as <-.
  split; [done|]. apply bind_Ok in H as ([] & Hv & H).
  destruct (NUsers p =? 0)%Z eqn:En.
  - apply Z.eqb_eq in En.
    assert (∃ iv key salt, riv = Some iv ∧ Keys p !! 0 = Some key ∧ key ≠ [] ∧ Salts p !! 0 = Some salt) as (iv & key & salt & -> & Hk & Hne & Hs).
    { unfold encryptV1Single in H. apply bind_Ok in H as (key & Hk & H). apply bind_Ok in H as ([] & Hkl & H).
      apply bind_Ok in H as (salt & Hs & H). apply bind_Ok in H as ([] & _ & H). apply bind_Ok in H as (cs & _ & H).
      destruct riv as [iv|]; [|done]. exists iv, key, salt. unfold idx in *.
      destruct (Keys p !! 0); [|done]. destruct (Salts p !! 0); [|done]. apply check_ok in Hkl.
      repeat split; try congruence. intros ->. done. }
    destruct (single_genuine P p iv pt key salt) as (ct & E & Lk & Ls & _); auto.
    unfold Encrypt in E. change (getVersion 1) with (Ok v1) in E. cbn [mbind outcome_bind] in E. rewrite Hv, En in E.
    cbn [mbind outcome_bind] in E. cbn [Z.eqb] in E. rewrite H in E. injection E as ->.
    exists (magic_line 1 0), 0%Z, (salt ++ iv ++ ct). rewrite En. split; [done|]. split; [apply head_zero|].
    split; [done|]. split; [done|]. split; [lia|]. split; [|lia]. intros _. exists salt, iv, ct. auto.
  - apply Z.eqb_neq in En. pose proof Hv as Hv2. apply validate_ok in Hv2 as [Hs [?|[_ Hms]]]; [done|].
    assert (1 ≤ NUsers p)%Z as Hn1 by (destruct Hms as (K & _); unfold zlen in K; lia).
    assert (multi_ok p) as Hok.
    { split; [done|]. split; [done|]. unfold encryptV1Multi in H.
      apply bind_Ok in H as (h1 & _ & H). apply bind_Ok in H as (h2 & _ & H). apply bind_Ok in H as ([h3 off] & _ & H).
      apply bind_Ok in H as (h4 & _ & H). apply bind_Ok in H as (cs & Hcs & H). apply bind_Ok in H as (w & Hw & H).
      assert (is_Some (Master p)) as HM.
      { destruct (Master p) as [m|]; [by eexists|]. exfalso.
        change (nil_bytes None) with (@nil byte) in Hcs. rewrite (makeCiphers_short [] 0 (c_algs v1)) in Hcs; [done|simpl; lia|simpl; lia]. }
      split; [|done]. destruct (IVM p) as [ivm|]; [by eexists|]. exfalso.
      destruct HM as [m HM]. rewrite HM in Hcs. unfold nil_bytes in Hcs. cbn [default id] in Hcs.
      destruct (makeCiphers_ok m 0 (c_algs v1)) as (cs' & Hcs' & _ & Hf).
      { destruct Hms as (_ & _ & _ & _ & _ & _ & _ & _ & _ & _ & KM). rewrite (KM _ HM). simpl. lia. }
      rewrite Hcs in Hcs'. injection Hcs' as <-. destruct cs as [|[a k] cs]; [done|]. cbn [seal] in Hw.
      rewrite bsub_panic in Hw; [done|]. unfold nil_bytes. cbn [default id length]. pose proof (alg_block_pos a). lia. }
    destruct (multi_genuine P p riv pt HP Hok) as (m & ivm & ct & HM & HI & Lm & Li & E & Hd & Hl).
    unfold Encrypt in E. change (getVersion 1) with (Ok v1) in E. cbn [mbind outcome_bind] in E. rewrite Hv in E.
    cbn [mbind outcome_bind] in E. rewrite (proj2 (Z.eqb_neq _ _) En) in E. rewrite H in E. injection E as ->.
    destruct (head_any (NUsers p)) as (cnt & Hh & H0 & Hs9 & Hb9); [lia|].
    exists (take 16 (magic_line 1 (NUsers p))), cnt, ((table p 0 (nusers p) ++ ivm) ++ ct).
    unfold multi_header. split; [by rewrite <-!(assoc_L (++))|]. split; [done|]. split; [done|]. split; [done|]. split; [done|].
    split; [done|lia].
Qed.

(** The only error decryption itself returns is ErrWrongPassphrase. *)

Lemma bind_Fail {A B} (x : outcome A) (f : A → outcome B) e : x ≫= f = Fail e ↔ x = Fail e ∨ ∃ a, x = Ok a ∧ f a = Fail e.
Proof. destruct x; simpl; naive_solver. Qed.
Lemma makeCiphers_no_fail k off l e : makeCiphers k off l ≠ Fail e.
Proof.
  revert off. induction l as [|a l IH]; intros off; cbn [makeCiphers]; [done|]. intros H.
  apply bind_Fail in H as [H|(x & _ & H)]; [unfold bsub in H; by destruct (_ && _)|].
  apply bind_Fail in H as [H|(y & _ & H)]; [by apply IH in H|done].
Qed.
Lemma bback_no_fail iv off n e : bback iv off n ≠ Fail e.
Proof. unfold bback, bsub. destruct (n <=? off); [|done]. by destruct (_ && _). Qed.
Lemma cbc_decrypt_no_fail P a k iv b e : cbc_decrypt P a k iv b ≠ Fail e.
Proof. unfold cbc_decrypt. by destruct (_ =? 0). Qed.
Lemma unseal_fail P cs iv off c e : unseal P cs iv off c = Fail e → e = EWrongPassphrase.
Proof.
  revert off c. induction cs as [|[a k] cs IH]; intros off c; cbn [unseal]; [done|]. intros H.
  apply bind_Fail in H as [H|(x & _ & H)]; [by apply bback_no_fail in H|].
  apply bind_Fail in H as [H|(y & _ & H)]; [by apply cbc_decrypt_no_fail in H|].
  destruct (Unpad y) as [b|e'|]; [by eapply IH|congruence|done].
Qed.
Lemma unwrap_no_fail P cs iv off c e : unwrap P cs iv off c ≠ Fail e.
Proof.
  revert off c. induction cs as [|[a k] cs IH]; intros off c; cbn [unwrap]; [done|]. intros H.
  apply bind_Fail in H as [H|(x & _ & H)]; [by apply bback_no_fail in H|].
  apply bind_Fail in H as [H|(y & _ & H)]; [by apply cbc_decrypt_no_fail in H|]. by apply IH in H.
Qed.
Lemma slice_range_no_fail s lo hi e : slice_range s lo hi ≠ Fail e.
Proof. unfold slice_range. by destruct (_ && _). Qed.
Lemma slice_from_no_fail s n e : slice_from s n ≠ Fail e.
Proof. unfold slice_from. by destruct (_ <=? _). Qed.
Lemma copy_at_no_fail b o x e : copy_at b o x ≠ Fail e.
Proof. unfold copy_at. by destruct (_ <=? _). Qed.
Lemma make_bytes_no_fail n e : make_bytes n ≠ Fail e.
Proof. unfold make_bytes. by destruct (_ <? _)%Z. Qed.
Lemma pull_no_fail h n e : pull h n ≠ Fail e.
Proof. unfold pull. by destruct (_ <=? _). Qed.
Lemma idx_no_fail {A} (l : list A) n e : idx l n ≠ Fail e.
Proof. unfold idx. by destruct (l !! n). Qed.
Lemma read_users_no_fail c n h e : read_users c n h ≠ Fail e.
Proof.
  revert h. induction n as [|n IH]; intros h; cbn [read_users]; [done|]. intros H.
  do 4 (apply bind_Fail in H as [H|([] & _ & H)]; [by apply pull_no_fail in H|]).
  apply bind_Fail in H as [H|([] & _ & H)]; [by apply IH in H|done].
Qed.
Lemma open_body_fail P h b e : open_body P h b = Fail e → e = EWrongPassphrase.
Proof. rewrite open_body_red. destruct (64 <=? length b); [|done]. destruct (beq _ _); congruence. Qed.

Ltac no_fail H := first
  [ by apply slice_range_no_fail in H | by apply slice_from_no_fail in H | by apply copy_at_no_fail in H
  | by apply make_bytes_no_fail in H | by apply pull_no_fail in H | by apply idx_no_fail in H
  | by apply read_users_no_fail in H | by apply makeCiphers_no_fail in H | by apply unwrap_no_fail in H
  | by apply unseal_fail in H | by apply open_body_fail in H ].

Lemma decryptV1Single_fail P c pw key salt s e : decryptV1Single P c pw key salt s = Fail e → e = EWrongPassphrase.
Proof.
  unfold decryptV1Single. intros H. apply bind_Fail in H as [H|(ns & _ & H)]; [no_fail H|].
  apply bind_Fail in H as [H|([k s'] & _ & H)].
  { destruct key as [k|]; [destruct (negb _); [|done]|]; destruct (length pw =? 0); congruence. }
  repeat (apply bind_Fail in H as [H|(? & _ & H)]; [no_fail H|]). done.
Qed.
Lemma decryptV1Multi_fail P c n user pw key salt s e : decryptV1Multi P c n user pw key salt s = Fail e → e = EWrongPassphrase.
Proof.
  unfold decryptV1Multi. intros H. apply bind_Fail in H as [H|(ns & _ & H)]; [no_fail H|].
  apply bind_Fail in H as [H|([t h] & _ & H)]; [no_fail H|]. cbv zeta in H.
  apply bind_Fail in H as [H|([ivm h2] & _ & H)]; [no_fail H|].
  apply bind_Fail in H as [H|(us & _ & H)]; [no_fail H|].
  apply bind_Fail in H as [H|([k s'] & _ & H)].
  { destruct (_ || _); [|done]. destruct (length pw =? 0); congruence. }
  apply bind_Fail in H as [H|(keys & _ & H)].
  { destruct (_ <? 0)%Z; [done|]. destruct (_ <? _)%Z in H; done. }
  repeat (apply bind_Fail in H as [H|(? & _ & H)]; [no_fail H|]). done.
Qed.

Lemma mode_agrees P v p riv pt f sp : prims_ok P → (∀ b, riv = Some b → length b = 40) → Encrypt P v p riv pt = Ok f →
  IsMultiUser (mk_slice f sp) = Ok (bool_decide (NUsers p ≠ 0%Z)) ∧
  (∀ pass key salt, Decrypt P [] pass key salt (mk_slice f sp) = Fail ENeedUser ↔ NUsers p ≠ 0%Z) ∧
  (∀ user pass key salt, user ≠ [] → Decrypt P user pass key salt (mk_slice f sp) ≠ Fail ENeedUser).
Proof.
  intros HP Hr H. destruct (Encrypt_inv P v p riv pt f HP Hr H) as (-> & m & n & rest & -> & Hh & H0 & H9 & Hb9 & Hparts & Hnn).
  assert (∀ u pass key salt, (if (n =? 0)%Z then decryptV1Single P v1 pass key salt (mk_slice (m ++ rest) sp)
    else decryptV1Multi P v1 n u pass key salt (mk_slice (m ++ rest) sp)) ≫= (λ '(p0, pt0), Ok (1%Z, tag_version 1 p0, pt0)) ≠ Fail ENeedUser) as Hno.
  { intros u pass key salt HF. apply bind_Fail in HF as [HF|([] & _ & HF)]; [|done].
    destruct (n =? 0)%Z; [by apply decryptV1Single_fail in HF|by apply decryptV1Multi_fail in HF]. }
  split; [|split].
  - rewrite (IsMultiUser_head m n) by done. f_equal. case_bool_decide as Hd.
    + rewrite (proj2 (Z.eqb_neq n 0)); [done|]. naive_solver.
    + destruct (decide (n = 0%Z)) as [->|]; [done|]. exfalso. naive_solver.
  - intros pass key salt. rewrite (Decrypt_head _ _ _ _ _ m n) by done. unfold dispatch. cbn [length Nat.eqb]. rewrite andb_true_r.
    pose proof (Hno [] pass key salt) as Hno'. destruct (n =? 0)%Z eqn:En; cbn [negb].
    + apply Z.eqb_eq in En. assert (NUsers p = 0%Z) as HN by naive_solver. split; [|done]. intros HF. by apply Hno' in HF.
    + apply Z.eqb_neq in En. split; [|done]. intros _ E. apply En. naive_solver.
  - intros user pass key salt Hu. rewrite (Decrypt_head _ _ _ _ _ m n) by done. unfold dispatch. rewrite (len0 user Hu), andb_false_r.
    apply Hno.
Qed.
