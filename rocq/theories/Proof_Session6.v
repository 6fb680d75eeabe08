(** Proofs about sessions: sessions reopened, passphrases that do not work. *)
From Verif Require Import Proof_TxLog Proof_GoStr Proof_Utf8 Proof_Blobs Proof_Blobs2 Proof_Json Proof_Json2 Proof_Crypt3 Proof_Crypt4 Proof_Crypt5.
From Verif Require Export Proof_Session5.
From Coq Require Import Lia.
From stdpp Require Import options.
Import Model_GoStr.
#[local] Open Scope nat_scope.

(** ** Reopening *)
Lemma single_reopen P s pass m e ord riv sp rsalt rest : prims_ok P → good (s_db s) m → s_readOnly s = false →
  single_session P s pass → length riv = 40 →
  ∃ f s2, saveBlob P e ord (Some riv) s = (s, Ok (Some f)) ∧
    loadBlob P (Found (mk_slice f sp)) None rsalt (ILine pass :: rest) = UOk s2 rest ∧
    same_store (s_db s) (s_db s2) ∧ good (s_db s2) m ∧ single_session P s2 pass ∧
    s_readOnly s2 = false ∧ s_created s2 = false ∧ s_user s2 = "" ∧ s_pass s2 = pass.
Proof.
  intros HP Hg Hro Hs Hr. destruct (single_save_load P s pass m e ord riv sp rsalt None rest HP Hg Hro Hs Hr) as (f & d' & E & Hsame & D).
  exists f, (mk_loaded d' "" pass (s_key s) (s_salt s) [] []). split; [done|]. split; [exact D|]. split; [done|].
  split; [by eapply same_store_good|]. destruct Hs as (_ & Hk & Hl & Hp). done.
Qed.
Lemma multi_reopen P s x pass m e ord riv sp rsalt rest : prims_ok P → serves P s m → fair e → fair_results ord →
  s_readOnly s = false → unlocks P m (s_master s) x pass → (∀ b, riv = Some b → length b = 40) →
  ∃ f s' s2, saveBlob P e ord riv s = (s', Ok (Some f)) ∧ vis (db_log (s_db s')) = vis (db_log (s_db s)) ∧
    loadBlob P (Found (mk_slice f sp)) None rsalt (ILine x :: ILine pass :: rest) = UOk s2 rest ∧
    same_store (s_db s) (s_db s2) ∧ serves P s2 m ∧ s_master s2 = s_master s ∧ s_ivm s2 = s_ivm s ∧
    s_readOnly s2 = false ∧ s_created s2 = false ∧ s_user s2 = x ∧ s_pass s2 = pass ∧
    s_key s2 = key_of P (str_bytes pass) (s_salt s2) ∧ length (s_salt s2) = 32.
Proof.
  intros HP (Hg & [Ha Hun] & Hms) Hf Ho Hro Hu Hriv.
  destruct (multi_save_load P s x pass m e ord riv sp rsalt None rest HP Hg Ha Hf Ho Hro Hms Hu Hriv) as (f & d' & s' & salt & E & Hv & Hsame & Hrow & D).
  exists f, s', (mk_loaded d' x pass (key_of P (str_bytes pass) salt) salt (s_master s) (s_ivm s)).
  destruct Hms as (L1 & L2 & _ & Ht & Hn). split; [done|]. split; [done|]. split; [exact D|]. split; [done|]. split.
  - split; [by eapply same_store_good|]. split; [done|]. split; [done|]. split; [done|]. split; [right; apply (scrypt_len _ HP)|]. done.
  - do 7 (split; [done|]). destruct Hrow as (u & iv & mkey & b & Hb & Hbn & Hbs & _). destruct Ht as (T1 & _).
    destruct (T1 u x) as (_ & _ & salt2 & iv2 & mkey2 & (b2 & Hb2 & _ & Hbs2 & _) & L & _); [by exists b|].
    rewrite Hb in Hb2. injection Hb2 as <-. rewrite Hbs in Hbs2. injection Hbs2 as Hs. cbn [s_salt mk_loaded].
    assert (Some salt = Some salt2) as [= ->]; [|done]. rewrite <-!hex_round. by rewrite Hs.
Qed.

(** ** The empty passphrase *)
Lemma no_pass_decrypt P p riv pt i name sp : prims_ok P → multi_ok p → (NUsers p ≤ 9999)%Z →
  Model_Crypt.Users p !! i = Some (sha256 P name) → (∀ j, j < i → Model_Crypt.Users p !! j ≠ Some (sha256 P name)) → name ≠ [] →
  ∃ f, Encrypt P 1 p riv pt = Ok f ∧ Decrypt P name [] None [] (mk_slice f sp) = Fail EWrongPassphrase.
Proof.
  intros HP Hok H9 Hu Hfirst Hname.
  destruct (multi_genuine P p riv pt HP Hok) as (m & ivm & ct & HM & HI & Lm & Li & E & Hd & Hl).
  destruct (multi_ok_parts p Hok) as (Hs & Hms & Hn & _).
  destruct (multi_rows p Hs Hms) as (Hrows & Lu & Ls & Liv & Lmk).
  pose proof (lookup_lt_Some _ _ _ Hu) as Hlt.
  destruct (lookup_lt_is_Some_2 (Salts p) i) as [salt Hsalt]; [lia|].
  exists (multi_header p ivm ++ ct). split; [done|].
  destruct (multi_layout p ivm ct Hok Li H9) as (Hf & Hh & Htl & Hread & Htok).
  rewrite Hf. rewrite (Decrypt_head _ _ _ _ _ _ (NUsers p)) by done.
  unfold dispatch. rewrite (proj2 (Z.eqb_neq _ _)) by lia. rewrite (len0 name Hname). cbn [negb andb].
  pose proof Hh as (Hm16 & _).
  rewrite (multi_red P (NUsers p) name [] None [] _ _ _ ivm ct sp Hn Hm16 Li Htl Hread Htok).
  cbn [t_users t_salts t_ivs t_mkeys]. rewrite (find_user_first _ _ _ i Hu Hfirst).
  rewrite Z.add_0_l. rewrite (proj2 (Z.ltb_ge (Z.of_nat i) 0)) by lia. rewrite Nat2Z.id.
  rewrite (at_some _ _ _ Hsalt). rewrite choose_m_nopass; [done|]. by left.
Qed.
Lemma empty_pass_load P s x m e ord riv sp rsalt hist rest : prims_ok P → serves P s m → fair e → fair_results ord →
  s_readOnly s = false → is_user m x → (∀ b, riv = Some b → length b = 40) →
  ∃ f s', saveBlob P e ord riv s = (s', Ok (Some f)) ∧
    loadBlob P (Found (mk_slice f sp)) hist rsalt (ILine x :: ILine "" :: rest) = UErr EWrongPassphrase rest.
Proof.
  intros HP (Hg & [Ha _] & Hms) Hf Ho Hro (u & Hc) Hriv.
  destruct (good_saves _ _ Hg) as (b & d' & Hb & Hn & Hsame). destruct Hg as (Hh & _).
  destruct (makeParams_multi P e ord s (s_db s) m HP Hh Ha Hf Ho Hms)
    as (d1 & p & rows & E1 & Hh1 & Hv1 & Hok & H9 & HI & HM & HS & HU & HIV & HMK & HN & Hnd & Hrows & Hall).
  destruct Hms as (Lm & Li & Lk & (Ht & Hsha & _) & Hu).
  destruct (Ht u x Hc) as (_ & Hx & salt & iv & mkey & Hrow & _).
  pose proof (Hall _ _ _ _ _ Hrow) as Hin. apply elem_of_list_lookup in Hin as [i Hi].
  destruct (no_pass_decrypt P p riv b i (str_bytes x) sp) as (f & E2 & D); [done|done|done|rewrite HU, list_lookup_fmap, Hi; done| |by apply str_bytes_nonempty|].
  { intros j Hj. rewrite HU, list_lookup_fmap. destruct (rows !! j) as [w|] eqn:Ew; [|done]. cbn. intros Heq. apply (inj Some) in Heq.
    assert (is_user m (w_name w)) as H1 by (destruct (Hrows w (elem_of_list_lookup_2 _ _ _ Ew)) as (u' & b' & H1 & H2 & _); by exists u', b').
    assert (is_user m x) as H2 by by exists u.
    apply Hsha in Heq; [|done|done].
    assert (j = i); [|lia]. eapply (NoDup_lookup (w_name <$> rows)); [done| |]; rewrite list_lookup_fmap; [rewrite Ew|rewrite Hi]; cbn; by rewrite ?Heq. }
  exists f, (set_db d1 s). split.
  - unfold saveBlob. rewrite Hro, Hb, E1. unfold cryptVersion. rewrite E2. done.
  - unfold loadBlob. destruct (mode_agrees P 1 p riv b f sp HP Hriv E2) as (-> & _). rewrite bool_decide_true by (rewrite HN; destruct rows; [done|cbn; lia]).
    cbn [of_outcome ubind]. rewrite prompt_line. cbn [ubind]. rewrite prompt_line. cbn [ubind]. change (str_bytes "") with (@nil byte). rewrite D. done.
Qed.

(** ** Interrupted while adding a user *)
Lemma adduser_interrupted P e r x s m inp err rest : serves P s m → fair e → clock_ok e → room (s_db s) →
  utf8 x → ¬ is_user m x → unused (s_db s) (e_uuid e) → utf8 (e_uuid e) → newPassword r inp = UErr err rest →
  ∃ d', adduser P e r x s inp = (set_db d' s, UErr err rest) ∧ good d' (<[e_uuid e := new_entry e ("user/" +:+ x)]> m).
Proof.
  intros (Hg & Hw & Lm & _) Hf Hc Hr Hx8 Hnx Hun Hu8 Hpw.
  destruct (NewUser_ok e x (s_db s) m) as (d1 & E1 & G1 & V1); try done. exists d1. split; [|done].
  unfold adduser. rewrite E1. cbv iota. rewrite (C_ok _ _ _ _ (set_db d1 s) (e_uuid e) inp) by done.
  rewrite (C_ok _ _ _ _ (set_db d1 s) (set_db d1 s) inp) by done. cbn [s_master set_db]. rewrite Lm. change (80 =? 0) with false. cbv iota.
  unfold mbind, C_bind, ask. rewrite Hpw. done.
Qed.

(** ** Failure of NewMasterKey *)
Lemma adduser_no_master P e r x s m pass inp : good (s_db s) m → well_named m → single_session P s pass → fair e → clock_ok e → room (s_db s) →
  utf8 x → (∀ y, ¬ is_user m y) → unused (s_db s) (e_uuid e) → utf8 (e_uuid e) → r_master r = None →
  ∃ d', adduser P e r x s inp = (set_db d' (set_master [] [] s), UOk tt inp) ∧ good d' (<[e_uuid e := new_entry e ("user/" +:+ x)]> m).
Proof.
  intros Hg Hw (Hm & _) Hf Hc Hr Hx8 Hnx Hun Hu8 Hrm.
  destruct (NewUser_ok e x (s_db s) m) as (d1 & E1 & G1 & V1); try done. exists d1. split; [|done].
  unfold adduser. rewrite E1. cbv iota. rewrite (C_ok _ _ _ _ (set_db d1 s) (e_uuid e) inp) by done.
  rewrite (C_ok _ _ _ _ (set_db d1 s) (set_db d1 s) inp) by done. cbn [s_master set_db]. rewrite Hm. cbn [length Nat.eqb]. rewrite Hrm. done.
Qed.

(** ** An entry called user/… in a single-user file *)
Lemma adduser_single_other P e r x s m pass inp iv master ivm u y b : prims_ok P → good (s_db s) m → well_named m → single_session P s pass → fair e → clock_ok e → rand_ok r → room (s_db s) →
  utf8 x → ¬ is_user m x → unused (s_db s) (e_uuid e) → utf8 (e_uuid e) →
  r_iv r 0 = Some iv → r_master r = Some master → r_ivm r = Some ivm →
  m !! u = Some b → b !! "name" = Some ("user/" +:+ y) → b !! "salt" = None →
  ∃ s', adduser P e r x s inp = (s', UOk tt inp) ∧ s_readOnly s' = s_readOnly s ∧ length (s_master s') ≠ 0 ∧ ∃ m', holds (s_db s') m' ∧ all_named m' ∧
    m' !! u = Some b.
Proof.
  intros HP Hg Hw (Hm & Hk & Hls & Hpe) Hf Hc (R1 & R2 & R3 & R4) Hr Hx8 Hnx Hun Hu8 Hiv Hma Him Hub Hbn Hbs.
  destruct (NewUser_ok e x (s_db s) m) as (d1 & E1 & G1 & V1); try done.
  assert (m !! e_uuid e = None) as Hnone by (eapply unused_lookup; [apply Hg|done]).
  assert (length (s_key s) = 80) as Lk by (rewrite Hk; apply (scrypt_len _ HP)).
  destruct (EncryptMasterKey_ok P (s_key s) master iv) as (mkey & E2 & Lmk & _); [done|done|by apply R3|by eapply R2|].
  destruct (put_row_ok e 4 (e_uuid e) (s_salt s) iv mkey d1 _ (new_entry e ("user/" +:+ x)) G1) as (d2 & E3 & G2 & V2); [by rewrite lookup_insert|done|rewrite V1; unfold room in Hr; lia|].
  rewrite insert_insert in G2.
  exists (set_db d2 (set_user x (set_master master ivm s))). split.
  { unfold adduser. rewrite E1. cbv iota. rewrite (C_ok _ _ _ _ (set_db d1 s) (e_uuid e) inp) by done.
    rewrite (C_ok _ _ _ _ (set_db d1 s) (set_db d1 s) inp) by done. cbn [s_master set_db]. rewrite Hm. cbn [length Nat.eqb].
    set (s1 := set_db d1 (set_user x (set_master master ivm s))).
    rewrite (C_ok _ _ _ _ s1 (Some (s_key s), s_salt s) inp) by (rewrite Hma, Him; done).
    cbv iota beta. rewrite (C_ok _ _ _ _ s1 s1 inp) by done. change (s_master s1) with master.
    rewrite (C_ok _ _ _ _ s1 (mkey, iv) inp) by (unfold try, cryptVersion; by rewrite Hiv, E2).
    unfold on_db. change (s_db s1) with d1. rewrite E3. done. }
  split; [done|]. split; [change (length master ≠ 0); rewrite (R3 _ Hma); lia|].
  exists (<[e_uuid e := with_row (s_salt s) iv mkey (new_entry e ("user/" +:+ x))]> m). split; [apply G2|]. split.
  - eapply (well_named_fresh _ _ _ ("user/" +:+ x)); [done| |rewrite with_row_name; apply lookup_insert]. intros v Hcd. apply Hnx. by exists v.
  - rewrite lookup_insert_ne; [done|]. intros <-. congruence.
Qed.

(** ** Deleting *)
Lemma good_delete e i d m u b : good d m → m !! u = Some b → clock_ok e → room d →
  good (Model_TxLog.Delete (e_grow e i) (e_now e i) d u) (delete u m).
Proof.
  intros Hg Hb Hc Hr. unfold Model_TxLog.Delete.
  eapply (good_append (e_grow e i) (e_now e i) d (mk_tx 0 "del" u "" "") m (delete u m) Hg).
  - econstructor; exact Hb.
  - split; [utf8_lit|]. split; [by eapply good_utf8|]. split; utf8_lit.
  - apply Hc.
  - unfold room in Hr. lia.
Qed.

Lemma delete_done e name s m u rest : good (s_db s) m → well_named m → fair e → clock_ok e → room (s_db s) → called m u name → u ≠ "" →
  counts_as_own s name = false ∨ ¬ several_users m →
  ∃ d', deleteEntry e name s (ILine name :: rest) =
      (set_db d' (if counts_as_own s name then set_master [] [] s else s), UOk tt rest) ∧ good d' (delete u m).
Proof.
  intros Hg Hw Hf Hc Hr Hcd Hu Hown. destruct (deleteEntry_found e name s m (ILine name :: rest) u) as [_ H]; [apply Hg|done|done|done|done|].
  destruct (H Hown) as (s1 & (Hv & Ht & Hs1) & Hh & HE). unfold prompt_end, prompt in HE. rewrite decide_True in HE by done.
  exists (Model_TxLog.Delete (e_grow e 0) (e_now e 0) (s_db s1) u). split.
  { rewrite HE, Hs1. unfold emptied. destruct (counts_as_own s name); reflexivity. }
  destruct Hcd as (b & Hb & Hn). eapply good_delete; [|exact Hb|done|unfold room; by rewrite Hv]. by eapply good_same.
Qed.
Lemma delete_not e name s m u line rest : good (s_db s) m → well_named m → fair e → called m u name → u ≠ "" → line ≠ name →
  counts_as_own s name = false ∨ ¬ several_users m →
  ∃ s', deleteEntry e name s (ILine line :: rest) = (s', UOk tt rest) ∧ unchanged s s' ∧ good (s_db s') m.
Proof.
  intros Hg Hw Hf Hcd Hu Hl Hown. destruct (deleteEntry_found e name s m (ILine line :: rest) u) as [_ H]; [apply Hg|done|done|done|done|].
  destruct (H Hown) as (s1 & Hun & Hh & HE). unfold prompt_end, prompt in HE. rewrite decide_False in HE by done.
  exists s1. split; [done|]. split; [done|]. destruct Hun as (? & ? & ?). by eapply good_same.
Qed.
Lemma delete_refused e name s m u inp : good (s_db s) m → well_named m → fair e → called m u name → u ≠ "" →
  counts_as_own s name = true → several_users m →
  ∃ s', deleteEntry e name s inp = (s', UOk tt inp) ∧ unchanged s s' ∧ good (s_db s') m.
Proof.
  intros Hg Hw Hf Hcd Hu Hown Hsev. destruct (deleteEntry_found e name s m inp u) as [H _]; [apply Hg|done|done|done|done|].
  destruct (H (conj Hown Hsev)) as (s1 & HE & Hun & Hh).
  exists s1. split; [done|]. split; [done|]. destruct Hun as (? & ? & ?). by eapply good_same.
Qed.
Lemma delete_absent e name s m inp : good (s_db s) m → well_named m → fair e → (∀ u, ¬ called m u name) →
  ∃ s', deleteEntry e name s inp = (s', UOk tt inp) ∧ unchanged s s' ∧ good (s_db s') m.
Proof.
  intros Hg Hw Hf Hno. destruct (deleteEntry_absent e name s m inp) as (s' & E & Hun & Hh); [apply Hg|done..|].
  exists s'. split; [done|]. split; [done|]. destruct Hun as (? & ? & ?). by eapply good_same.
Qed.
