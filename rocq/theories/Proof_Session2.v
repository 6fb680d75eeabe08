(** Proofs about sessions: adduser, rekey and passwd. *)
From Verif Require Import Proof_TxLog Proof_GoStr Proof_Utf8 Proof_Blobs Proof_Blobs2 Proof_Json Proof_Json2 Proof_Crypt3 Proof_Crypt4 Proof_Crypt5.
From Verif Require Export Proof_Session.
From Coq Require Import Lia.
From stdpp Require Import options.
Import Model_GoStr.
#[local] Open Scope nat_scope.

(** ** Appending to a good store *)
Lemma utf8_empty : utf8 "". Proof. by exists []. Qed.
Lemma ascii_rune c : (byteZ c < 128)%Z → valid_rune (byteZ c) = true ∧ encode_rune (byteZ c) = String c "".
Proof. intros H. destruct c as [[] [] [] [] [] [] [] []]; (split; [reflexivity|reflexivity]) || (exfalso; revert H; compute; discriminate). Qed.
Lemma utf8_cons c s : (byteZ c < 128)%Z → utf8 s → utf8 (String c s).
Proof.
  intros Hc (rs & Hr & ->). destruct (ascii_rune c Hc) as [H1 H2]. exists (byteZ c :: rs). split; [by constructor|].
  unfold encode. cbn [fold_right]. rewrite H2. done.
Qed.
Lemma utf8_hex b : utf8 (hex_encode b).
Proof.
  induction b as [|x b IH]; [apply utf8_empty|]. destruct (hexd_ok x) as (_ & _ & _ & H1 & H2). cbn [hex_encode]. by do 2 (apply utf8_cons; [done|]).
Qed.
Lemma utf8_app a b : utf8 a → utf8 b → utf8 (a +:+ b).
Proof.
  intros (r1 & H1 & ->) (r2 & H2 & ->). exists (r1 ++ r2). split; [by apply Forall_app|]. clear. induction r1 as [|x r1 IH]; [done|].
  unfold encode in *. cbn [app fold_right]. by rewrite <-IH, sapp_assoc.
Qed.
Ltac utf8_lit := repeat (apply utf8_cons; [reflexivity|]); apply utf8_empty.

Lemma good_utf8 d m u b : good d m → m !! u = Some b → utf8 u.
Proof.
  intros ([_ Hr] & _ & Hu & _) Hb. assert (snapshot_utf8 m) as Hm; [|by apply (Hm u b)].
  eapply replays_from_utf8; [exact Hr|done|]. intros ? ? H. by rewrite lookup_empty in H.
Qed.
Lemma good_append g now d t m m' : good d m → tx_step m (mk_tx now (tx_kind t) (tx_uuid t) (tx_key t) (tx_value t)) m' → tx_utf8 t →
  in_int64 now → (Z.of_nat (S (length (vis (db_log d)))) < 2 ^ 64)%Z →
  good (appendLog g now d t) m' ∧ vis (db_log (appendLog g now d t)) = vis (db_log d) ++ [mk_tx now (tx_kind t) (tx_uuid t) (tx_key t) (tx_value t)].
Proof.
  intros (Hh & Htp & Hu & Hi & Hl) Hs Ht Hn Hlen. destruct (holds_append g now d t m m' Hh Hs) as [H1 H2]. split; [|done].
  split; [done|]. split; [exact Htp|]. rewrite H2. split; [apply Forall_app; split; [done|]; by constructor|].
  split; [apply Forall_app; split; [done|]; by constructor|]. rewrite app_length. cbn [length]. lia.
Qed.
Lemma good_set g now d u k v m b : good d m → m !! u = Some b → utf8 k → utf8 v → in_int64 now → (Z.of_nat (S (length (vis (db_log d)))) < 2 ^ 64)%Z →
  good (Model_TxLog.Set_ g now d u k v) (<[u := <[k := v]> b]> m) ∧ vis (db_log (Model_TxLog.Set_ g now d u k v)) = vis (db_log d) ++ [mk_tx now "setk" u k v].
Proof.
  intros Hg Hb Hk Hv Hn Hl. apply (good_append g now d (mk_tx 0 "setk" u k v) m); [done|by constructor| |done|done].
  split; [cbn [tx_kind]; utf8_lit|]. split; [by eapply good_utf8|]. done.
Qed.
Lemma good_same d d' m : good d m → holds d' m → vis (db_log d') = vis (db_log d) → db_txpoint d' = db_txpoint d → good d' m.
Proof. intros (_ & Htp & Hu & Hi & Hl) Hh Hv Ht. unfold good. rewrite Hv, Ht. done. Qed.

(** ** put_row *)
Lemma put_row_ok e i u salt iv mkey d m b : good d m → m !! u = Some b → clock_ok e → (Z.of_nat (3 + length (vis (db_log d))) < 2 ^ 64)%Z →
  ∃ d', put_row e i u salt iv mkey d = (d', Ok tt) ∧ good d' (<[u := with_row salt iv mkey b]> m) ∧
    vis (db_log d') = vis (db_log d) ++ [mk_tx (e_now e i) "setk" u "salt" (hex_encode salt); mk_tx (e_now e (S i)) "setk" u "iv" (hex_encode iv); mk_tx (e_now e (S (S i))) "setk" u "mkey" (hex_encode mkey)].
Proof.
  intros Hg Hb Hc Hl.
  destruct (good_set (e_grow e i) (e_now e i) d u "salt" (hex_encode salt) m b) as [G1 V1]; [done|done|utf8_lit|apply utf8_hex|apply Hc|lia|].
  set (d1 := Model_TxLog.Set_ _ _ d _ _ _) in *.
  destruct (good_set (e_grow e (S i)) (e_now e (S i)) d1 u "iv" (hex_encode iv) (<[u := <["salt" := hex_encode salt]> b]> m) (<["salt" := hex_encode salt]> b)) as [G2 V2];
    [done|by rewrite lookup_insert|utf8_lit|apply utf8_hex|apply Hc|rewrite V1, app_length; cbn [length]; lia|].
  set (d2 := Model_TxLog.Set_ _ _ d1 _ _ _) in *. rewrite insert_insert in G2.
  destruct (good_set (e_grow e (S (S i))) (e_now e (S (S i))) d2 u "mkey" (hex_encode mkey) _ (<["iv" := hex_encode iv]> (<["salt" := hex_encode salt]> b)) G2) as [G3 V3];
    [by rewrite lookup_insert|utf8_lit|apply utf8_hex|apply Hc|rewrite V2, V1, !app_length; cbn [length]; lia|].
  rewrite insert_insert in G3.
  exists (Model_TxLog.Set_ (e_grow e (S (S i))) (e_now e (S (S i))) d2 u "mkey" (hex_encode mkey)).
  split; [reflexivity|]. split; [exact G3|]. rewrite V3, V2, V1, <-!(assoc_L (++)). done.
Qed.

(** ** Contents after changing one user's credentials *)
Lemma with_row_name salt iv mkey b : with_row salt iv mkey b !! "name" = b !! "name".
Proof. unfold with_row. by rewrite !lookup_insert_ne by done. Qed.
Lemma called_with_row m u b salt iv mkey v n : m !! u = Some b → called (<[u := with_row salt iv mkey b]> m) v n ↔ called m v n.
Proof.
  intros Hb. unfold called. destruct (decide (v = u)) as [->|Hne].
  - rewrite lookup_insert. split; intros (b' & H & Hn).
    + injection H as <-. rewrite with_row_name in Hn. by exists b.
    + rewrite Hb in H. injection H as <-. eexists. split; [done|]. by rewrite with_row_name.
  - by rewrite lookup_insert_ne.
Qed.
Lemma has_row_with m u b salt iv mkey x : m !! u = Some b → b !! "name" = Some ("user/" +:+ x) → has_row (<[u := with_row salt iv mkey b]> m) x u salt iv mkey.
Proof.
  intros Hb Hn. exists (with_row salt iv mkey b). rewrite lookup_insert, with_row_name. unfold with_row.
  rewrite lookup_insert, !(lookup_insert_ne _ "mkey"), lookup_insert, (lookup_insert_ne _ "iv"), lookup_insert by done. done.
Qed.
Lemma has_row_other m u b salt iv mkey y v s2 i2 k2 : m !! u = Some b → v ≠ u → has_row m y v s2 i2 k2 ↔ has_row (<[u := with_row salt iv mkey b]> m) y v s2 i2 k2.
Proof. intros Hb Hne. unfold has_row. by rewrite lookup_insert_ne by done. Qed.

Lemma table_with_row P m u x b salt iv mkey : table_ok P m → m !! u = Some b → b !! "name" = Some ("user/" +:+ x) →
  length salt = 32 → length iv = 40 → length mkey = 80 → table_ok P (<[u := with_row salt iv mkey b]> m).
Proof.
  intros (T1 & T2 & T3 & T4) Hb Hn L1 L2 L3.
  assert (∀ y, is_user (<[u := with_row salt iv mkey b]> m) y ↔ is_user m y) as HU.
  { intros y. unfold is_user. split; intros (v & H); exists v; by apply (called_with_row m u b salt iv mkey). }
  split; [|split; [|split]].
  - intros v y Hc. apply called_with_row in Hc; [|done]. destruct (T1 v y Hc) as (H0 & Hy & s2 & i2 & k2 & Hr & ?). split; [done|]. split; [done|].
    destruct (decide (v = u)) as [->|Hne].
    + exists salt, iv, mkey. split; [|done]. apply has_row_with; [done|]. destruct Hc as (b' & H1 & H2). congruence.
    + exists s2, i2, k2. split; [|done]. by apply has_row_other.
  - intros y z Hy Hz. apply HU in Hy, Hz. by apply T2.
  - destruct T3 as (y & Hy). exists y. by apply HU.
  - intros l Hl Hin. apply T4; [done|]. intros y Hy. by apply HU, Hin.
Qed.

Lemma unlocks_other P m master u x b salt iv mkey y pass : names_unique m → m !! u = Some b → b !! "name" = Some ("user/" +:+ x) → y ≠ x →
  unlocks P m master y pass → unlocks P (<[u := with_row salt iv mkey b]> m) master y pass.
Proof.
  intros Hu Hb Hn Hne (Hp & v & s2 & i2 & k2 & Hr & HE). split; [done|]. exists v, s2, i2, k2. split; [|done].
  apply has_row_other; [done| |done]. intros ->. destruct Hr as (b' & H1 & H2 & _). rewrite Hb in H1. injection H1 as <-.
  rewrite Hn in H2. injection H2 as H2. by apply Hne.
Qed.
Lemma unlocks_this P m master u x b salt iv mkey pass : m !! u = Some b → b !! "name" = Some ("user/" +:+ x) → pass ≠ "" →
  EncryptMasterKey P 1 (key_of P (str_bytes pass) salt) master (Some iv) = Ok (mkey, iv) →
  unlocks P (<[u := with_row salt iv mkey b]> m) master x pass.
Proof. intros Hb Hn Hp HE. split; [done|]. exists u, salt, iv, mkey. split; [by apply has_row_with|done]. Qed.

(** ** Finding a user *)
Lemma FindByName_txpoint e n d d' r : FindByName e n d = (d', r) → db_txpoint d' = db_txpoint d.
Proof.
  unfold FindByName, mbind, M_bind. destruct (UpdateSnapshot d) as [d1 o] eqn:E. apply UpdateSnapshot_log in E as [_ Ht].
  destruct o; unfold get_snap, lift; intros H; injection H as <- _; done.
Qed.
Lemma MustFindUser_ok P e x d m : good d m → well_named m → fair e → table_ok P m → is_user m x →
  ∃ d' u b, MustFindUser e x d = (d', Ok (u, b)) ∧ good d' m ∧ vis (db_log d') = vis (db_log d) ∧ m !! u = Some b ∧ b !! "name" = Some ("user/" +:+ x).
Proof.
  intros Hg [Ha Hu] Hf (T1 & _) (v & Hv). destruct (FindByName_spec e ("user/" +:+ x) d m) as (d' & r & E & Hh & Hvis & Hr); [apply Hg|done|done|].
  pose proof (FindByName_txpoint _ _ _ _ _ E) as Htp. destruct r as [[u b]|]; [|exfalso; by apply (Hr v)]. destruct Hr as [H1 H2].
  exists d', u, b. split; [|split; [by eapply good_same|done]].
  unfold MustFindUser, FindUser, mbind, M_bind. change (userPrefix +:+ x) with ("user/" +:+ x). rewrite E.
  destruct (T1 u x) as (Hne & _); [by exists b|]. by rewrite (proj2 (String.eqb_neq _ _) Hne).
Qed.

(** ** The common end of rekey and passwd *)
Definition rewrite_creds (P : prims) (e : env) (r : rand) (x : string) (key salt master : bytes) : C unit :=
  '(uuid, _) ← on_db (MustFindUser e x);
  '(mkey, iv) ← try (EncryptMasterKey P cryptVersion key master (r_iv r 0));
  on_db (put_row e 0 uuid salt iv mkey).

Lemma DeriveKey_ok P b salt : DeriveKey P cryptVersion b (Some salt) = Ok (key_of P b salt, salt).
Proof. done. Qed.
Lemma set_db_same s : set_db (s_db s) s = s.
Proof. by destruct s. Qed.

Lemma rewrite_creds_ok P e r x pass salt iv s m inp : prims_ok P → serves P s m → fair e → clock_ok e → room (s_db s) →
  is_user m x → pass ≠ "" → length salt = 32 → length iv = 40 → r_iv r 0 = Some iv →
  ∃ d' m', rewrite_creds P e r x (key_of P (str_bytes pass) salt) salt (s_master s) s inp = (set_db d' s, UOk tt inp) ∧
    serves P (set_db d' s) m' ∧ only_creds m m' x ∧ unlocks P m' (s_master s) x pass ∧
    (∀ y p, y ≠ x → unlocks P m (s_master s) y p → unlocks P m' (s_master s) y p) ∧
    length (vis (db_log d')) = 3 + length (vis (db_log (s_db s))).
Proof.
  intros HP (Hg & Hw & Hms) Hf Hc Hr Hx Hp Ls Li Hiv. pose proof Hms as (Lm & Lim & Lk & Ht & Hu).
  destruct (MustFindUser_ok P e x (s_db s) m Hg Hw Hf Ht Hx) as (d1 & u & b & E1 & G1 & V1 & Hb & Hn).
  destruct (EncryptMasterKey_ok P (key_of P (str_bytes pass) salt) (s_master s) iv) as (mkey & E2 & Lmk & _); [done|apply (scrypt_len _ HP)|done|done|].
  destruct (put_row_ok e 0 u salt iv mkey d1 m b G1 Hb Hc) as (d2 & E3 & G2 & V2); [rewrite V1; unfold room in Hr; lia|].
  exists d2, (<[u := with_row salt iv mkey b]> m). split.
  { unfold rewrite_creds, mbind, C_bind, on_db, try. rewrite E1. cbn [of_outcome]. rewrite Hiv. unfold cryptVersion. rewrite E2. cbn [of_outcome].
    unfold on_db. cbn [s_db set_db]. rewrite E3. done. }
  split; [split; [exact G2|split; [by eapply well_named_same; [done|done|apply with_row_name]|]]|].
  { split; [done|]. split; [done|]. split; [done|]. split; [by eapply table_with_row|].
    eapply well_named_same; [done|done|apply with_row_name]. }
  split; [exists u, b, salt, iv, mkey; split; [by exists b|done]|].
  split; [by apply unlocks_this|]. split; [intros y p Hne; by eapply unlocks_other|].
  rewrite V2, V1, app_length. cbn [length]. lia.
Qed.

Lemma multi_len P s m : serves P s m → (length (s_master s) =? 0) = false.
Proof. intros (_ & _ & L & _). by rewrite L. Qed.
Lemma user_ne P m x : table_ok P m → is_user m x → x ≠ "".
Proof. intros (T & _) (u & H). by apply (T u x). Qed.

(** ** rekey *)
Lemma rekey_user P e r x s m inp pw rest salt iv : prims_ok P → serves P s m → fair e → clock_ok e → rand_ok r → room (s_db s) → is_user m x →
  newPassword r inp = UOk pw rest → pw ≠ "" → r_salt r 0 = Some salt → r_iv r 0 = Some iv →
  ∃ d' m', rekey P e r x s inp = (set_db d' s, UOk tt rest) ∧ serves P (set_db d' s) m' ∧ only_creds m m' x ∧ unlocks P m' (s_master s) x pw ∧
    (∀ y p, y ≠ x → unlocks P m (s_master s) y p → unlocks P m' (s_master s) y p).
Proof.
  intros HP Hs Hf Hc (R1 & R2 & _) Hr Hx Hpw Hne Hsalt Hiv.
  destruct (rewrite_creds_ok P e r x pw salt iv s m rest) as (d' & m' & E & S' & O' & U' & K' & _); eauto.
  exists d', m'. split; [|done].
  assert (x ≠ "") as Hxe by (destruct Hs as (_ & _ & _ & _ & _ & Ht & _); by eapply user_ne).
  unfold rekey. rewrite (proj2 (String.eqb_neq _ _) Hxe). unfold mbind at 1, C_bind at 1, state. unfold mbind at 1, C_bind at 1, ask. rewrite Hpw.
  rewrite (proj2 (String.eqb_neq _ _) Hne), Hsalt. unfold mbind at 1, C_bind at 1, try at 1. rewrite DeriveKey_ok. cbn [of_outcome].
  unfold mbind at 1, C_bind at 1, mret, C_ret. rewrite (multi_len P s m) by done. exact E.
Qed.
Lemma rekey_self P e r s m inp salt iv : prims_ok P → serves P s m → fair e → clock_ok e → rand_ok r → room (s_db s) → is_user m (s_user s) →
  s_pass s ≠ "" → r_salt r 0 = Some salt → r_iv r 0 = Some iv →
  ∃ d' m', let s' := set_db d' (set_creds (s_pass s) (key_of P (str_bytes (s_pass s)) salt) salt s) in
    rekey P e r "" s inp = (s', UOk tt inp) ∧ serves P s' m' ∧ only_creds m m' (s_user s) ∧ unlocks P m' (s_master s) (s_user s) (s_pass s) ∧
    (∀ y p, y ≠ s_user s → unlocks P m (s_master s) y p → unlocks P m' (s_master s) y p).
Proof.
  intros HP Hs Hf Hc (R1 & R2 & _) Hr Hx Hne Hsalt Hiv.
  set (s1 := set_creds (s_pass s) (key_of P (str_bytes (s_pass s)) salt) salt s).
  assert (serves P s1 m) as Hs1.
  { destruct Hs as (G & W & L1 & L2 & L3 & T). split; [done|]. split; [done|]. split; [done|]. split; [done|]. split; [|done]. right. apply (scrypt_len _ HP). }
  destruct (rewrite_creds_ok P e r (s_user s) (s_pass s) salt iv s1 m inp) as (d' & m' & E & S' & O' & U' & K' & _); eauto.
  exists d', m'. cbv zeta. split; [|done].
  unfold rekey. cbn [String.eqb]. unfold mbind at 1, C_bind at 1, state. unfold mbind at 1, C_bind at 1, mret at 1, C_ret at 1.
  rewrite (proj2 (String.eqb_neq _ _) Hne), Hsalt. unfold mbind at 1, C_bind at 1, try at 1. rewrite DeriveKey_ok. cbn [of_outcome].
  unfold mbind at 1, C_bind at 1, change. rewrite (multi_len P s m) by done. exact E.
Qed.

(** ** passwd: the entry changed is always the current user's *)
Lemma passwd_multi_log P e r x s m inp pw rest salt iv : prims_ok P → serves P s m → fair e → clock_ok e → rand_ok r → room (s_db s) → is_user m (s_user s) →
  newPassword r inp = UOk pw rest → pw ≠ "" → r_salt r 0 = Some salt → r_iv r 0 = Some iv →
  ∃ d' m', let s' := set_db d' (if String.eqb (s_user s) x then set_creds pw (key_of P (str_bytes pw) salt) salt s else s) in
    passwd P e r x s inp = (s', UOk tt rest) ∧ serves P s' m' ∧ only_creds m m' (s_user s) ∧ unlocks P m' (s_master s) (s_user s) pw ∧
    (∀ y p, y ≠ s_user s → unlocks P m (s_master s) y p → unlocks P m' (s_master s) y p) ∧
    length (vis (db_log d')) = 3 + length (vis (db_log (s_db s))).
Proof.
  intros HP Hs Hf Hc (R1 & R2 & _) Hr Hx Hpw Hne Hsalt Hiv.
  assert (s_user s ≠ "") as Hxe by (destruct Hs as (_ & _ & _ & _ & _ & Ht & _); by eapply user_ne).
  set (s1 := if String.eqb (s_user s) x then set_creds pw (key_of P (str_bytes pw) salt) salt s else s).
  assert (serves P s1 m ∧ s_user s1 = s_user s ∧ s_master s1 = s_master s ∧ s_db s1 = s_db s) as (Hs1 & U1 & M1 & D1).
  { unfold s1. destruct (String.eqb (s_user s) x); [|done]. split; [|done].
    destruct Hs as (G & W & L1 & L2 & L3 & T). split; [done|]. split; [done|]. split; [done|]. split; [done|]. split; [|done]. right. apply (scrypt_len _ HP). }
  destruct (rewrite_creds_ok P e r (s_user s) pw salt iv s1 m rest) as (d' & m' & E & S' & O' & U' & K' & L'); eauto; [by rewrite D1|].
  rewrite M1 in E, U', K'. rewrite D1 in L'. exists d', m'. cbv zeta. fold s1. split; [|done].
  unfold passwd. unfold mbind at 1, C_bind at 1, ask. rewrite Hpw.
  rewrite (proj2 (String.eqb_neq _ _) Hne), Hsalt. unfold mbind at 1, C_bind at 1, try at 1. rewrite DeriveKey_ok. cbn [of_outcome].
  unfold mbind at 1, C_bind at 1, state. rewrite (proj2 (String.eqb_neq _ _) Hxe). cbn [orb].
  unfold mbind at 1, C_bind at 1. unfold s1 in *. destruct (String.eqb (s_user s) x); unfold change, mret, C_ret; rewrite (multi_len P s m) by done; exact E.
Qed.
Lemma passwd_multi P e r x s m inp pw rest salt iv : prims_ok P → serves P s m → fair e → clock_ok e → rand_ok r → room (s_db s) → is_user m (s_user s) →
  newPassword r inp = UOk pw rest → pw ≠ "" → r_salt r 0 = Some salt → r_iv r 0 = Some iv →
  ∃ d' m', let s' := set_db d' (if String.eqb (s_user s) x then set_creds pw (key_of P (str_bytes pw) salt) salt s else s) in
    passwd P e r x s inp = (s', UOk tt rest) ∧ serves P s' m' ∧ only_creds m m' (s_user s) ∧ unlocks P m' (s_master s) (s_user s) pw ∧
    (∀ y p, y ≠ s_user s → unlocks P m (s_master s) y p → unlocks P m' (s_master s) y p).
Proof.
  intros HP Hs Hf Hc Hr Hroom Hu Hpw Hne H1 H2.
  destruct (passwd_multi_log P e r x s m inp pw rest salt iv HP Hs Hf Hc Hr Hroom Hu Hpw Hne H1 H2) as (d' & m' & E & S' & O' & U' & K' & _).
  by exists d', m'.
Qed.
