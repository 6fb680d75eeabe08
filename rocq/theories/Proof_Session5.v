(** Proofs about sessions: rekeyAll. *)
From Verif Require Import Proof_TxLog Proof_GoStr Proof_Utf8 Proof_Blobs Proof_Blobs2 Proof_Json Proof_Json2 Proof_Crypt3 Proof_Crypt4 Proof_Crypt5 Proof_PassGen.
From Verif Require Import Spec_PassGen.
From Verif Require Export Proof_Session4.
From Coq Require Import Lia.
From stdpp Require Import options.
Import Model_GoStr.
#[local] Open Scope nat_scope.

Lemma C_inv {A B} (x : C A) (f : A → C B) s inp s' b rest : mbind f x s inp = (s', UOk b rest) → ∃ s1 a r1, x s inp = (s1, UOk a r1) ∧ f a s1 r1 = (s', UOk b rest).
Proof. unfold mbind, C_bind. destruct (x s inp) as [s1 [a r1|? ?| |]]; [|done|done|done]. intros H. by exists s1, a, r1. Qed.
Lemma try_inv {A} (o : outcome A) s inp s' a rest : try o s inp = (s', UOk a rest) → s' = s ∧ rest = inp ∧ o = Ok a.
Proof. unfold try. destruct o; intros H; injection H; intros; subst; done. Qed.

Lemma wrong_master P x pw m m1 m2 : prims_ok P → length m1 = 80 → length m2 = 80 → names_unique m →
  (∀ u salt iv mkey, has_row m x u salt iv mkey → length iv = 40) →
  unlocks P m m1 x pw → unlocks P m m2 x pw → m1 = m2.
Proof.
  intros HP L1 L2 Hu Hl (_ & u & s1 & i1 & k1 & R1 & E1) (_ & u' & s2 & i2 & k2 & R2 & E2).
  assert (u = u') as <-. { destruct R1 as (b1 & H1 & N1 & _), R2 as (b2 & H2 & N2 & _). eapply Hu; [by exists b1|by exists b2]. }
  assert (length i1 = 40) as Li by by eapply Hl.
  assert (s1 = s2 ∧ i1 = i2 ∧ k1 = k2) as (-> & -> & ->).
  { destruct R1 as (b1 & H1 & _ & A1 & A2 & A3), R2 as (b2 & H2 & _ & B1 & B2 & B3). rewrite H1 in H2. injection H2 as <-.
    rewrite A1 in B1. rewrite A2 in B2. rewrite A3 in B3. injection B1 as B1. injection B2 as B2. injection B3 as B3.
    apply (f_equal hex_decode) in B1, B2, B3. rewrite !hex_round in B1, B2, B3. split; [congruence|]. split; congruence. }
  destruct (EncryptMasterKey_ok P (key_of P (str_bytes pw) s2) m1 i2) as (k & F1 & _ & G1); [done|apply (scrypt_len _ HP)|done|done|].
  destruct (EncryptMasterKey_ok P (key_of P (str_bytes pw) s2) m2 i2) as (k' & F2 & _ & G2); [done|apply (scrypt_len _ HP)|done|done|].
  assert (k = k2) as -> by congruence. assert (k' = k2) as -> by congruence. congruence.
Qed.

(** What the loop has done: every user of the list got a password, which is
    printed and unlocks the master key of before. *)
Definition rekeyed (P : prims) (master : bytes) (m' : snapshot) (p : string * string) (q : string * string) : Prop :=
  p.2 = "user/" +:+ q.1 ∧ q.2 ≠ "" ∧ ∃ salt iv mkey, has_row m' q.1 p.1 salt iv mkey ∧
    EncryptMasterKey P 1 (key_of P (str_bytes q.2) salt) master (Some iv) = Ok (mkey, iv).

Lemma rekey_loop_ok P e r : prims_ok P → clock_ok e → rand_ok r → ∀ l n printed s m inp s' res rest, serves P s m → NoDup l.*1 →
  (∀ u nm, (u, nm) ∈ l → called m u nm ∧ ∃ x, nm = "user/" +:+ x) →
  (Z.of_nat (length (vis (db_log (s_db s))) + 3 * length l) < 2 ^ 64)%Z →
  rekey_loop P e r n l printed s inp = (s', UOk res rest) →
  ∃ m' new, res = printed ++ new ∧ rest = inp ∧ serves P s' m' ∧ s_master s' = s_master s ∧ s_user s' = s_user s ∧ s_readOnly s' = s_readOnly s ∧
    (∀ v, v ∉ l.*1 → m' !! v = m !! v) ∧ (∀ v y, called m' v y ↔ called m v y) ∧
    (∀ v b, m !! v = Some b → ∃ b', m' !! v = Some b' ∧ ∀ k, k ∉ ["salt"; "iv"; "mkey"] → b' !! k = b !! k) ∧
    Forall2 (rekeyed P (s_master s) m') l new.
Proof.
  intros HP Hc (R1 & R2 & _). induction l as [|[u nm] l IH]; intros n printed s m inp s' res rest Hs Hnd Hl Hroom H.
  - cbn [rekey_loop] in H. unfold mret, C_ret in H. injection H as <- <- <-. exists m, []. rewrite app_nil_r.
    do 7 (split; [done|]). split; [done|]. split; [|constructor]. intros v b Hb. by exists b.
  - cbn [rekey_loop] in H. destruct (Hl u nm) as [Hcd [x ->]]; [left|].
    apply C_inv in H as (s1 & x' & r1 & Hx & H). apply try_inv in Hx as (-> & -> & Hx). rewrite SplitUsername_user in Hx. apply Ok_eq in Hx as <-.
    apply C_inv in H as (s1 & pwb & r1 & Hp & H). apply try_inv in Hp as (-> & -> & Hp).
    cbv zeta in H. set (pw := bytes_string pwb) in *.
    assert (pw ≠ "") as Hpw.
    { assert (no_overflow 32 no_class) as Ho by (split; vm_compute; done). pose proof (genPassword_cases (r_pw r n) 32 no_class Ho) as Hg. cbv zeta in Hg. rewrite Hp in Hg.
      destruct (decide _) as [|Hge]; [done|]. destruct (r_pw r n) as [ent|]; [|done]. destruct (decide _) as [?|]; [done|].
      destruct (decide _); [done|]. destruct Hg as (pw' & Heq & (Hlen & _)). apply Ok_eq in Heq as <-.
      unfold pw. destruct pwb; [cbn in Hlen; lia|done]. }
    apply C_inv in H as (s1 & ks & r1 & Hk & H). apply try_inv in Hk as (-> & -> & Hk).
    destruct (r_salt r n) as [salt|] eqn:Esalt; [|done]. rewrite DeriveKey_ok in Hk. apply Ok_eq in Hk as <-.
    rewrite (C_ok _ _ _ _ s s inp) in H by done.
    set (s1 := if String.eqb x (s_user s) then set_creds pw (key_of P (str_bytes pw) salt) salt s else s).
    rewrite (C_ok _ _ _ _ s1 tt inp) in H by (unfold s1; by destruct (String.eqb x (s_user s))).
    apply C_inv in H as (s2 & mi & r1 & Hm & H). apply try_inv in Hm as (-> & -> & Hm).
    assert (serves P s1 m ∧ s_user s1 = s_user s ∧ s_master s1 = s_master s ∧ s_db s1 = s_db s ∧ s_readOnly s1 = s_readOnly s) as (Hs1 & U1 & M1 & D1 & O1).
    { unfold s1. destruct (String.eqb x (s_user s)); [|done]. split; [|done].
      destruct Hs as (G & W & L1 & L2 & L3 & T). split; [done|]. split; [done|]. split; [done|]. split; [done|]. split; [|done]. right. apply (scrypt_len _ HP). }
    pose proof Hs as (Hg & Hw & Lm & Lim & Lk & Ht & Hu).
    destruct (r_iv r n) as [iv|] eqn:Eiv; [|exfalso; revert Hm; clear; unfold EncryptMasterKey, cryptVersion; change (getVersion 1) with (Ok v1); cbn [mbind outcome_bind];
      intros Hm; apply bind_Ok in Hm as ([] & _ & Hm); apply bind_Ok in Hm as ([] & _ & Hm); apply bind_Ok in Hm as (? & _ & Hm); done].
    destruct (EncryptMasterKey_ok P (key_of P (str_bytes pw) salt) (s_master s) iv) as (mkey & E2 & Lmk & _); [done|apply (scrypt_len _ HP)|done|by eapply R2|].
    unfold cryptVersion in Hm. rewrite E2 in Hm. apply Ok_eq in Hm as <-.
    destruct Hcd as (b & Hb & Hn).
    cbn [length] in Hroom.
    destruct (put_row_ok e (3 * n) u salt iv mkey (s_db s) m b Hg Hb Hc) as (d2 & E3 & G2 & V2); [lia|].
    rewrite (C_ok _ _ _ _ (set_db d2 s1) tt inp) in H by (unfold on_db; by rewrite D1, E3).
    set (m1 := <[u := with_row salt iv mkey b]> m) in *.
    assert (well_named m1) as Hw1 by (eapply well_named_same; [done|done|apply with_row_name]).
    assert (table_ok P m1) as Ht1 by (eapply table_with_row; eauto).
    assert (∀ v y, called m1 v y ↔ called m v y) as Hcl by (intros v y; by apply called_with_row).
    apply NoDup_cons in Hnd as [Hni Hnd]. cbn [fst] in Hni.
    apply (IH (S n) _ _ m1) in H as (m' & new & -> & -> & S' & M' & U' & RO' & K' & C' & B' & F').
    + change (s_master (set_db d2 s1)) with (s_master s1) in *. change (s_user (set_db d2 s1)) with (s_user s1) in *. change (s_readOnly (set_db d2 s1)) with (s_readOnly s1) in *.
      exists m', ((x, pw) :: new). rewrite <-(assoc_L (++)). split; [done|]. split; [done|]. split; [done|]. split; [congruence|]. split; [congruence|]. split; [congruence|].
      split; [|split; [|split]].
      * intros v Hv. cbn [fmap list_fmap fst] in Hv. apply not_elem_of_cons in Hv as [Hne Hv]. rewrite K' by done. unfold m1. by rewrite lookup_insert_ne.
      * intros v y. rewrite C'. apply Hcl.
      * intros v bv Hbv. destruct (decide (v = u)) as [->|Hne].
        -- destruct (B' u (with_row salt iv mkey b)) as (b' & Hb' & Hk'); [apply lookup_insert|]. exists b'. split; [done|]. intros k Hk. rewrite Hk' by done.
           rewrite Hb in Hbv. injection Hbv as <-. unfold with_row. rewrite !lookup_insert_ne; [done|..]; intros <-; apply Hk; set_solver.
        -- apply B'. unfold m1. by rewrite lookup_insert_ne.
      * constructor; [|by rewrite <-M1]. split; [done|]. split; [done|]. exists salt, iv, mkey. split; [|exact E2]. cbn [fst].
        destruct (has_row_with m u b salt iv mkey x Hb Hn) as (b' & H1 & H2). exists b'. split; [|done]. rewrite K' by done. exact H1.
    + split; [exact G2|]. split; [done|]. destruct Hs1 as (_ & _ & A1 & A2 & A3 & _). split; [done|]. split; [done|]. split; [done|]. split; [done|]. apply Hw1.
    + done.
    + intros v y Hin. rewrite Hcl. apply Hl. by right.
    + change (s_db (set_db d2 s1)) with d2. rewrite V2, app_length. cbn [length]. lia.
Qed.

Lemma rekeyAll_ok P e r s m inp s' printed rest : prims_ok P → serves P s m → fair e → fair_results (r_ord r) → clock_ok e → rand_ok r →
  (Z.of_nat (length (vis (db_log (s_db s)))) + 29997 < 2 ^ 64)%Z →
  rekeyAll P e r s inp = (s', UOk printed rest) →
  (s' = s ∧ printed = []) ∨
  ∃ m' master ivm, r_master r = Some master ∧ r_ivm r = Some ivm ∧ s_master s' = master ∧ s_ivm s' = ivm ∧ serves P s' m' ∧
    (∀ v y, called m' v y ↔ called m v y) ∧
    (∀ v b, m !! v = Some b → ∃ b', m' !! v = Some b' ∧ ∀ k, k ∉ ["salt"; "iv"; "mkey"] → b' !! k = b !! k) ∧
    (∀ v, (∀ x, ¬ called m v ("user/" +:+ x)) → m' !! v = m !! v) ∧
    (∀ x, is_user m x → ∃ pw, (x, pw) ∈ printed) ∧
    (∀ x pw, (x, pw) ∈ printed → is_user m x ∧ unlocks P m' (s_master s) x pw ∧ (master ≠ s_master s → ¬ unlocks P m' master x pw)).
Proof.
  intros HP Hs Hf Ho Hc Hrand Hroom H. pose proof Hs as (Hg & Hw & Lm & Lim & Lk & Ht & Hu). pose proof Hrand as (_ & _ & R3 & R4).
  unfold rekeyAll in H. rewrite (C_ok _ _ _ _ s s inp) in H by done. rewrite Lm in H. change (80 =? 0) with false in H. cbv iota in H.
  apply C_inv in H as (s1 & yes & r1 & Hy & H). unfold ask in Hy. injection Hy as <- Hy.
  destruct yes; cbn [negb] in H; [|unfold mret, C_ret in H; injection H as <- <- _; by left].
  right. apply C_inv in H as (s1 & mi & r2 & Hm & H). apply try_inv in Hm as (-> & -> & Hm). unfold NewMasterKey, cryptVersion in Hm. change (getVersion 1) with (Ok v1) in Hm. cbn [mbind outcome_bind] in Hm.
  destruct (r_master r) as [master|] eqn:Em; [|done]. destruct (r_ivm r) as [ivm|] eqn:Ei; [|done]. apply Ok_eq in Hm as <-.
  destruct (Users_spec e (s_db s) m (proj1 Hg) (proj1 Hw) Hf) as (d1 & ur & E1 & Hh1 & Hv1 & Hex).
  rewrite (C_ok _ _ _ _ (set_db d1 s) ur r1) in H by (unfold on_db; by rewrite E1).
  assert (good d1 m) as Hg1.
  { eapply good_same; [done|done|done|]. revert E1. unfold Model_Blobs.Users, mbind, M_bind. destruct (UpdateSnapshot (s_db s)) as [d0 o] eqn:E0. apply UpdateSnapshot_log in E0 as [_ Htp].
    destruct o; unfold get_snap, lift; intros E1; injection E1 as <- _; done. }
  assert (serves P (set_db d1 s) m) as Hs1 by (split; [done|]; split; [done|]; done).
  set (l := r_ord r (res_map ur)) in *.
  assert (∀ u n, (u, n) ∈ l ↔ called m u n ∧ ∃ x, n = "user/" +:+ x) as Hl.
  { intros u n. unfold l. rewrite (Ho (res_map ur)), elem_of_map_to_list. by apply holds_user_called. }
  assert (NoDup l.*1) as Hnd by (unfold l; rewrite (Ho (res_map ur)); apply NoDup_fst_map_to_list).
  assert (Z.of_nat (length l) ≤ 9999)%Z as Hlen.
  { destruct (rows_exist P m Ht l) as (rows & HF & _); [intros u n; apply Hl|]. destruct Ht as (_ & _ & _ & T4).
    rewrite (Forall2_length _ _ _ HF), <-(fmap_length w_name). apply T4.
    - assert (NoDup l) as Hndl by by eapply NoDup_fmap_1. clear -HF Hndl Hl Hu. assert (∀ u n, (u, n) ∈ l → called m u n) as Hcc by (intros u n Hin; by apply Hl). clear Hl.
      induction HF as [|[u n] w l rows (Hn & _) HF IH]; [constructor|]. cbn [fst snd] in Hn.
      apply NoDup_cons in Hndl as [Hni Hndl]. cbn [fmap list_fmap]. apply NoDup_cons. split; [|apply IH; [done|intros; apply Hcc; by right]].
      intros Hin. apply elem_of_list_fmap in Hin as (w' & Hw' & Hin). apply elem_of_list_lookup in Hin as [i Hi].
      destruct (Forall2_lookup_r _ _ _ _ _ HF Hi) as ([u' n'] & Hl' & Hn' & _). cbn [fst snd] in Hn'.
      apply elem_of_list_lookup_2 in Hl'. assert (n' = n) as -> by congruence.
      assert (u = u') as -> by (eapply Hu; apply Hcc; [left|right; exact Hl']). done.
    - intros x Hin. apply elem_of_list_fmap in Hin as (w & -> & Hin). apply elem_of_list_lookup in Hin as [i Hi].
      destruct (Forall2_lookup_r _ _ _ _ _ HF Hi) as ([u n] & _ & _ & _ & b & Hb & Hn & _). by exists u, b. }
  apply C_inv in H as (s2 & pr & r2 & Hloop & H).
  apply (rekey_loop_ok P e r HP Hc Hrand l 0 [] _ m) in Hloop as (m' & new & -> & -> & S' & M' & U' & RO' & K' & C' & B' & F'); [|done|done|intros u nm; apply Hl|cbn [s_db set_db]; rewrite Hv1; lia].
  cbn [app] in H. rewrite (C_ok _ _ _ _ (set_master master ivm s2) tt r1) in H by done. unfold mret, C_ret in H. injection H as <- <- _.
  change (s_master (set_db d1 s)) with (s_master s) in *.
  exists m', master, ivm. split; [done|]. split; [done|]. split; [done|]. split; [done|].
  split. { destruct S' as (G' & W' & A1 & A2 & A3 & A4). split; [done|]. split; [done|]. split; [by apply R3|]. split; [by apply R4|]. done. }
  split; [done|]. split; [done|]. split.
  { intros v Hv. apply K'. intros Hin. apply elem_of_list_fmap in Hin as ([v' n] & -> & Hin). apply Hl in Hin as [Hcd [x ->]]. by apply (Hv x). }
  split.
  - intros x (u & Hcd). assert ((u, "user/" +:+ x) ∈ l) as Hin by (apply Hl; eauto). apply elem_of_list_lookup in Hin as [i Hi].
    destruct (Forall2_lookup_l _ _ _ _ _ F' Hi) as ([x' pw] & Hn' & Hrk & _). cbn [fst snd] in Hrk. apply sapp_inj_l in Hrk as <-.
    exists pw. by eapply elem_of_list_lookup_2.
  - intros x pw Hin. apply elem_of_list_lookup in Hin as [i Hi]. destruct (Forall2_lookup_r _ _ _ _ _ F' Hi) as ([u n] & Hin & Hrk & Hpe & salt & iv & mkey & Hrow & HE).
    cbn [fst snd] in Hrk, Hpe, Hrow, HE. subst n. apply elem_of_list_lookup_2, Hl in Hin as [Hcd _].
    assert (unlocks P m' (s_master s) x pw) as Hun by (split; [done|]; by exists u, salt, iv, mkey).
    split; [by exists u|]. split; [done|]. intros Hne Hun'. apply Hne. symmetry.
    destruct S' as (_ & W' & _ & _ & _ & T' & Hu'). eapply (wrong_master P x pw m'); [done|done|by apply R3|done| |done|done].
    intros u' salt' iv' mkey' (b & Hb & Hn & H1 & H2 & H3). destruct T' as (T1 & _). destruct (T1 u' x) as (_ & _ & s3 & i3 & k3 & (b3 & Hb3 & _ & _ & I3 & _) & _ & L3 & _); [by exists b|].
    rewrite Hb in Hb3. injection Hb3 as <-. rewrite H2 in I3. injection I3 as I3. apply (f_equal hex_decode) in I3. rewrite !hex_round in I3. injection I3 as <-. done.
Qed.
