(** Proofs about two machines that share a file of several users. *)
From Verif Require Import Proof_TxLog Proof_Blobs Proof_Blobs2 Spec_SyncUsers Proof_Crypt2 Proof_Crypt5 Proof_Json2 Proof_Merge4 Proof_Session Proof_Session3 Proof_Session5 Proof_Session6 Proof_Sync Proof_Sync2 Proof_Sync3 Proof_Sync4 Proof_Sync5 Proof_Runs.
From Coq Require Import Lia.
From stdpp Require Import options.
Import Model_GoStr.
#[local] Open Scope nat_scope.

(** A file saved in session [sr] is opened by anybody who can unlock it, whatever
    key and salt they try first, as long as the key is theirs. *)
Lemma users_opened P sr mr e ord riv sa f sp x pass key salt : prims_ok P → serves P sr mr → s_readOnly sr = false → fair e → fair_results ord →
  (∀ b, riv = Some b → length b = 40) → saveBlob P e ord riv sr = (sa, Ok (Some f)) → unlocks P mr (s_master sr) x pass →
  key = key_of P (str_bytes pass) salt →
  ∃ params pt log, Decrypt P (str_bytes x) (str_bytes pass) (opt_bytes key) salt (mk_slice f sp) = Ok (1%Z, params, pt) ∧
    Master params = Some (s_master sr) ∧ pt ≠ [] ∧ NewLog pt = Ok log ∧ vis log = vis (db_log (s_db sr)).
Proof.
  intros HP (Hg & [Ha Hun] & Hms) Hro Hf Ho Hriv Hsv (Hp & u & usalt & iv & mkey & Hrow & Hwrap) ->.
  destruct (good_saves _ _ Hg) as (b & d' & Hb & Hn & Hsame). destruct Hg as (Hh & _).
  destruct (makeParams_multi P e ord sr (s_db sr) mr HP Hh Ha Hf Ho Hms)
    as (d1 & p & rows & E1 & Hh1 & Hv1 & Hok & H9 & HI & HM & HS & HU & HIV & HMK & HN & Hnd & Hrows & Hall).
  pose proof (Hall _ _ _ _ _ Hrow) as Hin. apply elem_of_list_lookup in Hin as [i Hi].
  destruct Hms as (Lm & Li & Lk & (Ht & Hsha & _) & _).
  assert (x ≠ "") as Hx by (destruct Hrow as (bb & Hb' & Hn' & _); destruct (Ht u x) as (_ & ? & _); [by exists bb|done]).
  destruct (multi_round_trip P p riv b i (str_bytes x) (key_of P (str_bytes pass) usalt) sp) as (f' & salt' & E2 & Hsalt & D1 & D2); [done|done|done| |by apply str_bytes_nonempty|].
  { split; [rewrite HU, list_lookup_fmap, Hi; done|]. split.
    - intros j Hj. rewrite HU, list_lookup_fmap. destruct (rows !! j) as [w|] eqn:Ew; [|done]. cbn. intros Heq. apply (inj Some) in Heq.
      assert (is_user mr (w_name w)) as H1 by (destruct (Hrows w (elem_of_list_lookup_2 _ _ _ Ew)) as (u' & b' & H1 & H2 & _); by exists u', b').
      assert (is_user mr x) as H2 by (destruct Hrow as (b' & H2 & H3 & _); by exists u, b').
      apply Hsha in Heq; [|done|done].
      assert (j = i); [|lia]. eapply (NoDup_lookup (w_name <$> rows)); [done| |]; rewrite list_lookup_fmap; [rewrite Ew|rewrite Hi]; cbn; by rewrite ?Heq.
    - exists (s_master sr), iv, mkey. rewrite HIV, HMK, !list_lookup_fmap, Hi. done. }
  rewrite HS, list_lookup_fmap, Hi in Hsalt. cbn in Hsalt. injection Hsalt as <-.
  assert (f' = f) as ->. { revert Hsv. unfold saveBlob. rewrite Hro, Hb, E1. unfold cryptVersion. rewrite E2. cbn. intros H. by injection H. }
  exists (params_for p i (key_of P (str_bytes pass) usalt)), b, (db_log d'). split; [|split; [done|split; [intros ->; done|split; [by apply New_NewLog|by destruct Hsame]]]].
  assert (opt_bytes (key_of P (str_bytes pass) salt) = Some (key_of P (str_bytes pass) salt)) as ->.
  { assert (length (key_of P (str_bytes pass) salt) = 80) as Lk' by apply (scrypt_len _ HP). unfold opt_bytes. by rewrite Lk'. }
  destruct (decide (salt = usalt)) as [->|Hne]; [apply D1|]. apply D2; [by apply str_bytes_nonempty|done|by right; right].
Qed.
Lemma file_users P w s m u url i inp sr mr e ord riv sa f sp x pass : prims_ok P → holds (s_db s) m → at_file w m u url →
  s_user s = x → s_pass s = pass → s_key s = key_of P (str_bytes pass) (s_salt s) →
  serves P sr mr → s_readOnly sr = false → fair e → fair_results ord →
  (∀ b, riv = Some b → length b = 40) → saveBlob P e ord riv sr = (sa, Ok (Some f)) → unlocks P mr (s_master sr) x pass →
  y_read w i url = Pulled (mk_slice f sp) → ¬ alike (vis (db_log (s_db sr))) (vis (db_log (s_db s))) →
  ∃ params, Master params = Some (s_master sr) ∧ remote_is P w (caught_up s) i u inp "" (Spec_Sync.Opened (mk_part x pass params (vis (db_log (s_db sr))))) inp.
Proof.
  intros HP Hh Hat Hx Hpw Hk Hsv Hro Hf Ho Hriv Hsave Hu Hrd Hal.
  destruct (users_opened P sr mr e ord riv sa f sp x pass (s_key s) (s_salt s)) as (params & pt & log & D & HM & Hpt & Hlog & Hv); try done.
  exists params. split; [done|]. pose proof (pull_file w s m u url i inp Hh Hat) as Ep. rewrite Hrd in Ep. rewrite <- Hv.
  eapply is_opened; [exact Ep| |done|done|by rewrite (proj1 (caught_up_log s)), Hv].
  change (s_key (caught_up s)) with (s_key s). change (s_salt (caught_up s)) with (s_salt s). change (s_user (caught_up s)) with (s_user s). change (s_pass (caught_up s)) with (s_pass s).
  rewrite Hx, Hpw. destruct inp as [|i0 inp0]; cbn [decryptBlob]; rewrite D; done.
Qed.
Lemma merge_master e s p inp : s_master s ≠ [] → Master (b_params p) = Some (s_master s) →
  mergeBlobs e s [p] inp = ubind (mergeLogs (vis (db_log (s_db s))) (b_log p) inp) (λ l rest, UOk (with_log (merge_start s) l) rest).
Proof.
  intros Hm Hpm. unfold mergeBlobs. cbn [merge_parts]. unfold merge_one, take_remote, remote_master. rewrite Hpm. cbn [nil_bytes].
  cbn [merge_start m_log]. destruct (mergeLogs _ _ _) as [l r|err r| |]; [|done|done|done]. cbn [ubind].
  assert ((length (s_master s) =? 0) = false) as -> by (destruct (s_master s); done). cbn [andb]. rewrite Nat.eqb_refl. cbn [negb]. rewrite decide_True by done. done.
Qed.

(** Syncing a store of several users with [us] when no new host shows up *)
Lemma users_sync P w name s inp m us rs inp1 mr rest m2 x pass : prims_ok P → good (s_db s) m → s_readOnly s = false →
  targets w name (s_db s) = (s_db (caught_up s), Ok (Some us)) → about_remotes w name m us → fair_hosts w →
  pulls P w (caught_up s) 0 us inp rs inp1 → new_hosts us rs = ∅ →
  mergeBlobs (y_env w 4) (caught_up s) (opened_parts rs) inp1 = UOk mr rest → replays (m_log mr) m2 →
  Forall tx_utf8 (m_log mr) → Forall (λ t, in_int64 (tx_time t)) (m_log mr) → (Z.of_nat (length (m_log mr)) < 2 ^ 64)%Z →
  length (m_master mr) = 80 → length (m_ivm mr) = 40 → m_key mr = [] ∨ length (m_key mr) = 80 → well_named m2 → table_ok P m2 →
  fair (y_env w 3) → fair_results (y_ord w) → (∀ b, y_iv w = Some b → length b = 40) → unlocks P m2 (m_master mr) x pass →
  ∃ s2 ct, prepare P w name true s inp = (s2, UOk (Some (ct, receivers us rs)) rest) ∧ has_merged mr [] s s2 ∧ snap_of (s_db s2) = m2 ∧
    serves P s2 m2 ∧ UpdateSnapshot (s_db s2) = (s_db s2, Ok tt) ∧
    saveBlob P (y_env w 3) (y_ord w) (y_iv w) s2 = (s2, Ok (Some ct)).
Proof.
  intros HP Hg Hro Et Hab Hfh Hp Hnh Em Hr H1 H2 H3 Hma Hiv Hk Hwn Htab Hf3 Ho Hyiv Hul.
  destruct (adopt_ok mr m2 (caught_up s) rest Hr) as (s2 & Ea & Hm & Hh2 & Hs2 & Hst).
  assert (db_txpoint (s_db (caught_up s)) = 0) as Ht0 by (rewrite (proj2 (caught_up_log s)); apply Hg).
  pose proof (good_has_merged _ _ _ _ Hm Hh2 Ht0 H1 H2 H3) as Hg2.
  pose proof Hm as (A1 & A2 & A3 & A4 & A5 & A6 & A7 & A8 & A9 & A10 & A11). rewrite app_nil_r in A7.
  assert (s_readOnly s2 = false) as Hro2 by (rewrite A9; exact Hro).
  assert (serves P s2 m2) as Hss. { split; [done|]. split; [done|]. unfold multi_session. rewrite A5, A6, A3. repeat (split; [done|]). apply Hwn. }
  rewrite <- A5 in Hul.
  destruct (multi_saves P s2 m2 (y_env w 3) (y_ord w) (y_iv w) x pass HP Hss Hf3 Ho Hro2 Hyiv Hul) as (s2' & ct & Es).
  assert (s2' = s2) as ->.
  { revert Es. unfold saveBlob. rewrite Hro2. destruct (Save (s_db s2)); [|done..]. destruct (makeParams _ _ _ _ _) as [d o] eqn:Ep.
    apply steady_makeParams in Ep as ->; [|done]. destruct o; [|done..]. intros H. injection H as <- _. by destruct s2. }
  exists s2, ct. split; [|split; [|split; [done|split; [done|split; [done|done]]]]].
  - unfold prepare.
    rewrite (C_ok _ _ _ _ (caught_up s) (Some us) inp) by (unfold on_db; by rewrite Et).
    rewrite (C_ok _ _ _ _ (caught_up s) (caught_up s) inp) by done.
    rewrite (C_ok _ _ _ _ (caught_up s) (new_hosts us rs, receivers us rs, opened_parts rs) inp1) by (unfold ask; erewrite pull_loop_about_rev; [done|apply Hg|done|done]).
    rewrite (C_ok _ _ _ _ (caught_up s) (Some mr) rest) by (unfold attempt; by rewrite Em).
    rewrite (C_ok _ _ _ _ s2 tt rest) by done.
    rewrite Hnh, fair_no_hosts by done.
    rewrite (C_ok _ _ _ _ s2 tt rest) by (unfold on_db; rewrite saveHosts_nil by done; by destruct s2).
    rewrite (C_ok _ _ _ _ s2 ct rest) by (by apply sealed_ok). done.
  - rewrite (proj2 (caught_up_log s)) in A11. repeat split; try done. by rewrite app_nil_r.
Qed.

(** Two machines with the same master key share a file. *)
Lemma shared_users P w name s sr sa inp m mr u url f sp e ord riv0 x pass c m2 url2 :
  prims_ok P → serves P s m → s_readOnly s = false → s_user s = x → s_pass s = pass → s_key s = key_of P (str_bytes pass) (s_salt s) →
  fair (y_env w 0) → fair (y_env w 3) → fair_results (y_ord w) → fair_hosts w → (∀ b, y_iv w = Some b → length b = 40) →
  name ≠ "" → u ≠ "" → called m u name → at_file w m u url →
  serves P sr mr → s_readOnly sr = false → s_master sr = s_master s → unlocks P mr (s_master s) x pass → fair e → fair_results ord →
  (∀ b, riv0 = Some b → length b = 40) → saveBlob P e ord riv0 sr = (sa, Ok (Some f)) → y_read w 0 url = Pulled (mk_slice f sp) →
  valid_log (vis (db_log (s_db s))) → valid_log (vis (db_log (s_db sr))) → compatible (vis (db_log (s_db s))) (vis (db_log (s_db sr))) →
  is_union (vis (db_log (s_db s))) (vis (db_log (s_db sr))) c → conflict_free c → same_root (vis (db_log (s_db s))) (vis (db_log (s_db sr))) →
  vis (db_log (s_db sr)) ≠ [] → ¬ alike (vis (db_log (s_db sr))) (vis (db_log (s_db s))) →
  replays c m2 → (Z.of_nat (length c) < 2 ^ 64)%Z → at_file w m2 u url2 → well_named m2 → table_ok P m2 → unlocks P m2 (s_master s) x pass →
  ∃ s' ct, sync P w name true s inp = (s', [mk_push u url2 ct (y_write w 0 url2 ct)], UOk tt inp) ∧
    has_merged (with_log (merge_start s) c) [] s s' ∧ serves P s' m2 ∧ saveBlob P (y_env w 3) (y_ord w) (y_iv w) s' = (s', Ok (Some ct)) ∧
    ∀ z pw, unlocks P m2 (s_master s) z pw → ∀ sp rsalt r, ∃ s3, loadBlob P (Found (mk_slice ct sp)) None rsalt (ILine z :: ILine pw :: r) = UOk s3 r ∧
      vis (db_log (s_db s3)) = c ∧ serves P s3 m2 ∧ s_master s3 = s_master s ∧ s_user s3 = z.
Proof.
  intros HP Hsv Hro Hx Hpw Hk Hf Hf3 Hyo Hfh Hiv Hn Hu Hc Hat Hsr Hror Hmas Hulr He Ho Hriv Hsave Hrd V1 V2 Hco Hun Hcf Hroot Hne Hal Hr2 Hlen Hat2 Hwn2 Ht2 Hul2.
  pose proof Hsv as (Hg & Hwn & Hms). rewrite <- Hmas in Hulr. pose proof Hms as (Lm & Li & Lk & _).
  assert (s_master s ≠ []) as Hm0 by (intros E; rewrite E in Lm; done).
  destruct (file_users P w s m u url 0 inp sr mr e ord riv0 sa f sp x pass) as (params & HM & Hfi); try done; [apply Hg|]. set (p := mk_part _ _ _ _) in Hfi.
  assert (pulls P w (caught_up s) 0 [u] inp [("", Spec_Sync.Opened p)] inp) as Hp by (econstructor; [done|constructor]).
  assert (mergeLogs (vis (db_log (s_db s))) (vis (db_log (s_db sr))) inp = UOk c inp) as Hml.
  { apply mergeLogs_clean_spec; try done. intros Hl. exfalso. by apply Hal, alike_look. }
  assert (mergeBlobs (y_env w 4) (caught_up s) [p] inp = UOk (with_log (merge_start s) c) inp) as Hmb.
  { rewrite merge_master; [|done|change (Master params = Some (s_master s)); by rewrite HM, Hmas]. subst p. cbn [b_log]. rewrite (proj1 (caught_up_log s)), Hml. done. }
  assert (∀ t, t ∈ c → t ∈ vis (db_log (s_db s)) ∨ t ∈ vis (db_log (s_db sr))) as Hin by (intros t Ht; by apply Hun).
  destruct Hsr as (Hgr & _). pose proof Hg as (Hh & Htp & Hu8 & Hi64 & Hlen1). pose proof Hgr as (Hhr & Htpr & Hu8r & Hi64r & Hlenr).
  rewrite Forall_forall in Hu8, Hi64, Hu8r, Hi64r.
  destruct (users_sync P w name s inp m [u] [("", Spec_Sync.Opened p)] inp (with_log (merge_start s) c) inp m2 x pass) as (s2 & ct & Ep & Hm & Hs2 & Hsv2 & Hst & Hsave2); try done.
  { rewrite (targets_named w name (s_db s) m u) by done. done. }
  { by apply about_named. }
  { cbn [with_log m_log]. rewrite Forall_forall. intros t Ht. destruct (Hin t Ht); auto. }
  { cbn [with_log m_log]. rewrite Forall_forall. intros t Ht. destruct (Hin t Ht); auto. }
  exists s2, ct. unfold sync. rewrite Ep. cbn [receivers push_loop].
  destruct Hat2 as ((b2 & Hb2 & Hu2) & Hsch). unfold entry_at. rewrite Hs2, Hb2. cbn [default from_option id].
  unfold pushBlob, key_of_entry. change KeyURL with "url". rewrite Hu2. cbn [default from_option id]. rewrite Hsch.
  change (String.eqb "file" Model_Sync.syncSCP) with false. change (String.eqb "file" Model_Sync.syncFile) with true. cbv iota. cbn [ubind note_host String.eqb].
  rewrite fair_no_hosts by done. unfold on_db. rewrite saveHosts_nil by done. cbn [of_outcome].
  split; [by destruct s2|]. split; [done|]. split; [done|]. split; [done|].
  pose proof Hm as (A1 & A2 & A3 & A4 & A5 & A6 & A7 & A8 & A9 & A10 & A11). rewrite app_nil_r in A7. cbn [with_log merge_start m_master m_log] in A5, A7.
  intros z pw Hz sp' rsalt r. rewrite <- A5 in Hz.
  destruct (multi_saved P s2 m2 (y_env w 3) (y_ord w) (y_iv w) s2 ct HP Hsv2 Hf3 Hyo ltac:(by rewrite A9) Hiv Hsave2 z pw Hz sp' rsalt r) as (s3 & B1 & (B2 & _) & B3 & B4 & B5 & B6 & B7).
  exists s3. split; [done|]. split; [by rewrite B2|]. split; [done|]. split; [by rewrite B4|done].
Qed.
