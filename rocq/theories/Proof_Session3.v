(** Proofs about sessions: adduser. *)
From Verif Require Import Proof_TxLog Proof_GoStr Proof_Utf8 Proof_Blobs Proof_Blobs2 Proof_Json Proof_Json2 Proof_Crypt3 Proof_Crypt4 Proof_Crypt5.
From Verif Require Export Proof_Session2.
From Coq Require Import Lia.
From stdpp Require Import options.
Import Model_GoStr.
#[local] Open Scope nat_scope.

Lemma utf8_digits s : digits s → utf8 s.
Proof. induction s as [|c s IH]; intros H; [apply utf8_empty|]. apply digits_cons in H as [Hc H]. apply utf8_cons; [lia|auto]. Qed.
Lemma utf8_FormatInt z : utf8 (FormatInt z).
Proof.
  destruct z as [|p|p]; [change (FormatInt 0) with "0"; utf8_lit| |].
  - assert (FormatInt (Zpos p) = pretty_N_go (Npos p) "") as -> by done. apply utf8_digits, pretty_go_digits, digits_nil.
  - assert (FormatInt (Zneg p) = String (Zbyte 45) (pretty_N_go (Npos p) "")) as -> by done.
    apply utf8_cons; [done|]. apply utf8_digits, pretty_go_digits, digits_nil.
Qed.

Lemma C_ok {A B} (x : C A) (f : A → C B) s inp s' a rest : x s inp = (s', UOk a rest) → mbind f x s inp = f a s' rest.
Proof. intros H. unfold mbind, C_bind. by rewrite H. Qed.

(** ** A new user entry with credentials *)
Lemma NewUser_ok e x d m : good d m → well_named m → fair e → clock_ok e → room d → unused d (e_uuid e) → utf8 (e_uuid e) → utf8 x → ¬ is_user m x →
  ∃ d', NewUser e x d = (d', Ok (e_uuid e)) ∧ good d' (<[e_uuid e := new_entry e ("user/" +:+ x)]> m) ∧ length (vis (db_log d')) = 3 + length (vis (db_log d)).
Proof.
  intros (Hh & Htp & Hu & Hi & Hl) [Ha _] Hf Hc Hr Hun Hu8 Hx8 Hx.
  destruct (New_spec e 0 ("user/" +:+ x) d m Hh Ha Hf) as [[(u & Hcd) _]|[_ H]]; [exfalso; apply Hx; by exists u|].
  destruct (H Hun) as (d' & E & Hh' & Htp' & Hv & _). exists d'. split; [exact E|]. split; [|rewrite Hv, app_length; cbn [length]; lia].
  split; [done|]. split; [congruence|]. rewrite Hv. split; [|split].
  - apply Forall_app. split; [done|]. repeat constructor; cbn [tx_kind tx_uuid tx_key tx_value]; try done; try utf8_lit; [apply utf8_FormatInt|].
    apply utf8_app; [utf8_lit|done].
  - apply Forall_app. split; [done|]. do 3 (constructor; [apply Hc|]). constructor.
  - rewrite app_length. cbn [length]. unfold room in Hr. lia.
Qed.

Lemma called_new m u b n v y : m !! u = None → b !! "name" = Some n → called (<[u := b]> m) v y ↔ (v = u ∧ y = n) ∨ (v ≠ u ∧ called m v y).
Proof.
  intros Hu Hb. unfold called. destruct (decide (v = u)) as [->|Hne].
  - rewrite lookup_insert. split.
    + intros (b' & H & Hn). injection H as <-. left. split; [done|congruence].
    + intros [[_ ->]|[? _]]; [|done]. by exists b.
  - rewrite lookup_insert_ne by done. split; [by right|]. by intros [[? _]|[_ ?]].
Qed.
Lemma is_user_new m u b x y : m !! u = None → b !! "name" = Some ("user/" +:+ x) → is_user (<[u := b]> m) y ↔ y = x ∨ is_user m y.
Proof.
  intros Hu Hb. unfold is_user. split.
  - intros (v & Hv). apply (called_new m u b _ v _ Hu Hb) in Hv as [[_ H]|[_ H]]; [left; by apply sapp_inj_l in H|right; by exists v].
  - intros [->|(v & Hv)]; [exists u; apply (called_new m u b _ _ _ Hu Hb); by left|]. exists v. apply (called_new m u b _ _ _ Hu Hb). right. split; [|done].
    intros ->. destruct Hv as (b' & H & _). congruence.
Qed.
Lemma has_row_new m u b y v s2 i2 k2 : m !! u = None → has_row m y v s2 i2 k2 → has_row (<[u := b]> m) y v s2 i2 k2.
Proof. intros Hu (b' & H & Hr). exists b'. rewrite lookup_insert_ne; [done|]. intros ->. congruence. Qed.

Definition users_bound (m : snapshot) (n : Z) : Prop := ∀ l : list string, NoDup l → (∀ y, y ∈ l → is_user m y) → (Z.of_nat (length l) ≤ n)%Z.

Lemma table_new P m u b x salt iv mkey :
  (∀ v y, called m v ("user/" +:+ y) → v ≠ "" ∧ y ≠ "" ∧
     ∃ salt iv mkey, has_row m y v salt iv mkey ∧ length salt = 32 ∧ length iv = 40 ∧ length mkey = 80) →
  (∀ y z, is_user m y → is_user m z → sha256 P (str_bytes y) = sha256 P (str_bytes z) → y = z) →
  new_user_ok P m x → u ≠ "" → m !! u = None → b !! "name" = Some ("user/" +:+ x) →
  length salt = 32 → length iv = 40 → length mkey = 80 → table_ok P (<[u := with_row salt iv mkey b]> m).
Proof.
  intros T1 T2 (Hx & _ & Hnx & Hsha & Hcnt) Hu Hun Hn L1 L2 L3.
  assert (with_row salt iv mkey b !! "name" = Some ("user/" +:+ x)) as Hn' by by rewrite with_row_name.
  assert (∀ y, is_user (<[u := with_row salt iv mkey b]> m) y ↔ y = x ∨ is_user m y) as HU by (intros y; by apply is_user_new).
  split; [|split; [|split]].
  - intros v y Hc. apply (called_new _ _ _ _ _ _ Hun Hn') in Hc as [[-> Hy]|[Hne Hc]].
    + apply sapp_inj_l in Hy as ->. split; [done|]. split; [done|]. exists salt, iv, mkey. split; [|done].
      rewrite <-(insert_insert m u (with_row salt iv mkey b) b). apply has_row_with; [by rewrite lookup_insert|done].
    + destruct (T1 v y Hc) as (H0 & Hy & s2 & i2 & k2 & Hr & ?). split; [done|]. split; [done|]. exists s2, i2, k2. split; [|done]. by apply has_row_new.
  - intros y z Hy Hz He. apply HU in Hy as [->|Hy], Hz as [->|Hz]; [done| | |by apply T2].
    + exfalso. by apply (Hsha z).
    + exfalso. by apply (Hsha y).
  - exists x. apply HU. by left.
  - intros l Hnd Hin. destruct (decide (x ∈ l)) as [Hxl|Hxl].
    + apply elem_of_list_split in Hxl as (l1 & l2 & ->). rewrite <-Permutation_middle in Hnd. apply NoDup_cons in Hnd as [Hni Hnd].
      specialize (Hcnt (l1 ++ l2) Hnd). rewrite app_length in *. cbn [length]. cut (Z.of_nat (length l1 + length l2) < 9999)%Z; [lia|]. apply Hcnt.
      intros y Hy. assert (y ∈ l1 ++ x :: l2) as Hy' by (rewrite <-Permutation_middle; by right). apply Hin, HU in Hy' as [->|?]; done.
    + cut (Z.of_nat (length l) < 9999)%Z; [lia|]. apply Hcnt; [done|]. intros y Hy. pose proof (Hin y Hy) as Hy'. apply HU in Hy' as [->|?]; done.
Qed.

(** ** adduser in a multi-user file *)
Lemma adduser_multi P e r x s m inp pw rest salt iv : prims_ok P → serves P s m → fair e → clock_ok e → rand_ok r → room (s_db s) →
  new_user_ok P m x → unused (s_db s) (e_uuid e) → utf8 (e_uuid e) → e_uuid e ≠ "" →
  newPassword r inp = UOk pw rest → r_salt r 0 = Some salt → r_iv r 0 = Some iv →
  ∃ d' m' b, adduser P e r x s inp = (set_db d' s, UOk tt rest) ∧ serves P (set_db d' s) m' ∧
    m !! e_uuid e = None ∧ m' = <[e_uuid e := b]> m ∧ (∀ y, is_user m' y ↔ y = x ∨ is_user m y) ∧
    (pw ≠ "" → unlocks P m' (s_master s) x pw) ∧ (∀ y p, unlocks P m (s_master s) y p → unlocks P m' (s_master s) y p).
Proof.
  intros HP (Hg & Hw & Lm & Li & Lk & Ht & Hu) Hf Hc (R1 & R2 & _) Hr Hx Hun Hu8 Hune Hpw Hsalt Hiv.
  pose proof Hx as (Hxe & Hx8 & Hnx & Hsha & Hcnt).
  destruct (NewUser_ok e x (s_db s) m) as (d1 & E1 & G1 & V1); try done.
  assert (m !! e_uuid e = None) as Hnone by (eapply unused_lookup; [apply Hg|done]).
  destruct (EncryptMasterKey_ok P (key_of P (str_bytes pw) salt) (s_master s) iv) as (mkey & E2 & Lmk & _); [done|apply (scrypt_len _ HP)|done|by eapply R2|].
  destruct (put_row_ok e 4 (e_uuid e) salt iv mkey d1 _ (new_entry e ("user/" +:+ x)) G1) as (d2 & E3 & G2 & V2); [by rewrite lookup_insert|done|rewrite V1; unfold room in Hr; lia|].
  rewrite insert_insert in G2.
  set (b := with_row salt iv mkey (new_entry e ("user/" +:+ x))) in *.
  assert (new_entry e ("user/" +:+ x) !! "name" = Some ("user/" +:+ x)) as Hn by apply lookup_insert.
  assert (b !! "name" = Some ("user/" +:+ x)) as Hbn by (unfold b; by rewrite with_row_name).
  exists d2, (<[e_uuid e := b]> m), b. split.
  { unfold adduser. rewrite E1. cbv iota. rewrite (C_ok _ _ _ _ (set_db d1 s) (e_uuid e) inp) by done.
    rewrite (C_ok _ _ _ _ (set_db d1 s) (set_db d1 s) inp) by done. cbn [s_master set_db]. rewrite Lm. change (80 =? 0) with false. cbv iota.
    rewrite (C_ok _ _ _ _ (set_db d1 s) (Some (key_of P (str_bytes pw) salt), salt) rest).
    2:{ rewrite (C_ok _ _ _ _ (set_db d1 s) pw rest) by (unfold ask; by rewrite Hpw).
        rewrite Hsalt. rewrite (C_ok _ _ _ _ (set_db d1 s) (key_of P (str_bytes pw) salt, salt) rest) by done. done. }
    cbv iota beta. rewrite (C_ok _ _ _ _ (set_db d1 s) (set_db d1 s) rest) by done. cbn [s_master set_db].
    rewrite (C_ok _ _ _ _ (set_db d1 s) (mkey, iv) rest) by (unfold try, cryptVersion; by rewrite Hiv, E2).
    unfold on_db. cbn [s_db set_db]. rewrite E3. done. }
  assert (well_named (<[e_uuid e := b]> m)) as Hw'. { eapply (well_named_fresh _ _ _ ("user/" +:+ x)); [done| |done]. intros u Hcd. apply Hnx. by exists u. }
  split; [split; [done|split; [done|split; [done|split; [done|split; [done|split; [|apply Hw']]]]]]|].
  { destruct Ht as (T1 & T2 & T3 & T4). eapply table_new; try done; [by eapply R1|by eapply R2]. }
  split; [done|]. split; [done|]. split; [intros y; by apply is_user_new|]. split.
  - intros Hpe. unfold b. rewrite <-(insert_insert m (e_uuid e) _ (new_entry e ("user/" +:+ x))). apply unlocks_this; [by rewrite lookup_insert|done|done|done].
  - intros y p (Hp & v & s2 & i2 & k2 & Hrow & HE). split; [done|]. exists v, s2, i2, k2. split; [|done]. by apply has_row_new.
Qed.

(** ** adduser turning a single-user file into a multi-user one *)
Lemma adduser_single P e r x s m pass inp iv master ivm : prims_ok P → good (s_db s) m → well_named m → single_session P s pass → fair e → clock_ok e → rand_ok r → room (s_db s) →
  x ≠ "" → utf8 x → (∀ y, ¬ is_user m y) → unused (s_db s) (e_uuid e) → utf8 (e_uuid e) → e_uuid e ≠ "" →
  r_iv r 0 = Some iv → r_master r = Some master → r_ivm r = Some ivm →
  ∃ d' m' b, let s' := set_db d' (set_user x (set_master master ivm s)) in
    adduser P e r x s inp = (s', UOk tt inp) ∧ serves P s' m' ∧
    m !! e_uuid e = None ∧ m' = <[e_uuid e := b]> m ∧ (∀ y, is_user m' y ↔ y = x) ∧ unlocks P m' master x pass.
Proof.
  intros HP Hg Hw (Hm & Hk & Hls & Hpe) Hf Hc (R1 & R2 & R3 & R4) Hr Hxe Hx8 Hnu Hun Hu8 Hune Hiv Hma Him.
  destruct (NewUser_ok e x (s_db s) m) as (d1 & E1 & G1 & V1); try done.
  assert (m !! e_uuid e = None) as Hnone by (eapply unused_lookup; [apply Hg|done]).
  assert (length (s_key s) = 80) as Lk by (rewrite Hk; apply (scrypt_len _ HP)).
  destruct (EncryptMasterKey_ok P (s_key s) master iv) as (mkey & E2 & Lmk & _); [done|done|by apply R3|by eapply R2|].
  destruct (put_row_ok e 4 (e_uuid e) (s_salt s) iv mkey d1 _ (new_entry e ("user/" +:+ x)) G1) as (d2 & E3 & G2 & V2); [by rewrite lookup_insert|done|rewrite V1; unfold room in Hr; lia|].
  rewrite insert_insert in G2.
  set (b := with_row (s_salt s) iv mkey (new_entry e ("user/" +:+ x))) in *.
  assert (new_entry e ("user/" +:+ x) !! "name" = Some ("user/" +:+ x)) as Hn by apply lookup_insert.
  assert (b !! "name" = Some ("user/" +:+ x)) as Hbn by (unfold b; by rewrite with_row_name).
  exists d2, (<[e_uuid e := b]> m), b. cbv zeta. split.
  { unfold adduser. rewrite E1. cbv iota. rewrite (C_ok _ _ _ _ (set_db d1 s) (e_uuid e) inp) by done.
    rewrite (C_ok _ _ _ _ (set_db d1 s) (set_db d1 s) inp) by done. cbn [s_master set_db]. rewrite Hm. cbn [length Nat.eqb].
    set (s1 := set_db d1 (set_user x (set_master master ivm s))).
    rewrite (C_ok _ _ _ _ s1 (Some (s_key s), s_salt s) inp) by (rewrite Hma, Him; done).
    cbv iota beta. rewrite (C_ok _ _ _ _ s1 s1 inp) by done. change (s_master s1) with master.
    rewrite (C_ok _ _ _ _ s1 (mkey, iv) inp) by (unfold try, cryptVersion; by rewrite Hiv, E2).
    unfold on_db. change (s_db s1) with d1. rewrite E3. done. }
  assert (well_named (<[e_uuid e := b]> m)) as Hw'. { eapply (well_named_fresh _ _ _ ("user/" +:+ x)); [done| |done]. intros u Hcd. apply (Hnu x). by exists u. }
  split; [split; [done|split; [done|split; [by apply R3|split; [by apply R4|split; [by right|split; [|apply Hw']]]]]]|].
  { eapply table_new; try done; [| | |by eapply R2].
    - intros v y Hcd. exfalso. apply (Hnu y). by exists v.
    - intros y z Hy. by apply Hnu in Hy.
    - split; [done|]. split; [done|]. split; [by apply Hnu|]. split; [intros y Hy; by apply Hnu in Hy|].
      intros [|y l] _ Hin; [cbn; lia|]. exfalso. apply (Hnu y), Hin. left. }
  split; [done|]. split; [done|]. split.
  { intros y. rewrite (is_user_new m _ b x y) by done. split; [|by left]. intros [?|H]; [done|by apply Hnu in H]. }
  unfold b. rewrite <-(insert_insert m (e_uuid e) _ (new_entry e ("user/" +:+ x))). apply unlocks_this; [by rewrite lookup_insert|done|done|]. by rewrite <-Hk.
Qed.
