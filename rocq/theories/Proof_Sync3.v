(** Proofs about syncing: opening remotes, merging, and a whole run. *)
From Verif Require Import Spec_Sync Proof_Sync Proof_Sync2 Proof_TxLog Proof_GoStr Proof_Blobs Proof_Blobs2 Proof_Hosts Proof_Crypt2 Proof_Crypt5 Proof_Json2 Proof_Session Proof_Session3 Proof_Session5 Proof_Session6.
From Coq Require Import Lia.
From stdpp Require Import options.
Import Model_GoStr.
#[local] Open Scope nat_scope.

(** ** Opening a remote *)
Lemma decrypt_typed P key salt ct inp : ∀ user pass params user' pass' pt rest,
  decryptBlob P key salt ct user pass inp = UOk (Some (params, user', pass', pt)) rest →
  (∃ v, Decrypt P (str_bytes user') (str_bytes pass') (opt_bytes key) salt ct = Ok (v, params, pt)) ∧
  ∃ used, inp = used ++ rest ∧ (user' = user ∨ ILine user' ∈ used) ∧ (pass' = pass ∨ ILine pass' ∈ used).
Proof.
  induction inp as [|[x|e] inp IH]; intros user pass params user' pass' pt rest; cbn [decryptBlob];
    destruct (Decrypt P (str_bytes user) (str_bytes pass) (opt_bytes key) salt ct) as [[[v p] q]|err|] eqn:E; try done;
    try (intros H; apply UOk_inj in H as [[= <- <- <- <-] <-]; split; [by exists v|]; exists []; split; [done|]; by split; left).
  - destruct (decide _); [done|]. destruct (decide _); done.
  - destruct (decide _).
    + intros H. destruct (IH _ _ _ _ _ _ _ H) as (Hd & used & -> & Hu & Hp). split; [done|]. exists (ILine x :: used). split; [done|].
      split; [right; destruct Hu as [->|Hu]; [left|by right]|]. destruct Hp as [->|Hp]; [by left|right; by right].
    + destruct (decide _); [|done]. destruct (String.eqb x ""); [done|].
      intros H. destruct (IH _ _ _ _ _ _ _ H) as (Hd & used & -> & Hu & Hp). split; [done|]. exists (ILine x :: used). split; [done|].
      split; [destruct Hu as [->|Hu]; [by left|right; by right]|]. right. destruct Hp as [->|Hp]; [left|by right].
  - destruct (decide _); [done|]. destruct (decide _); done.
Qed.

(** Asking again: passphrases that are wrong, and a user name that is missing or unknown *)
Definition wrong (P : prims) (key salt : bytes) (ct : slice byte) (user pass : string) : Prop :=
  Decrypt P (str_bytes user) (str_bytes pass) (opt_bytes key) salt ct = Fail EWrongPassphrase.
Lemma decrypt_wrong P key salt ct user pass x rest : wrong P key salt ct user pass → x ≠ "" →
  decryptBlob P key salt ct user pass (ILine x :: rest) = decryptBlob P key salt ct user x rest.
Proof.
  intros H Hx. cbn [decryptBlob]. unfold wrong in H. rewrite H. rewrite decide_False by (by intros [?|?]). rewrite decide_True by done. by destruct (String.eqb_spec x "").
Qed.
Lemma decrypt_retry P key salt ct user tried : ∀ pass pass' rest v params pt, Forall (λ x, x ≠ "") tried → Forall (wrong P key salt ct user) (pass :: tried) → pass' ≠ "" →
  Decrypt P (str_bytes user) (str_bytes pass') (opt_bytes key) salt ct = Ok (v, params, pt) →
  decryptBlob P key salt ct user pass (map ILine tried ++ ILine pass' :: rest) = UOk (Some (params, user, pass', pt)) rest.
Proof.
  induction tried as [|x tried IH]; intros pass pass' rest v params pt Hne Hw Hp D; apply Forall_cons in Hw as [Hw1 Hw].
  - cbn [map app]. rewrite decrypt_wrong by done. destruct rest; cbn [decryptBlob]; by rewrite D.
  - apply Forall_cons in Hne as [Hx Hne]. cbn [map app]. rewrite decrypt_wrong by done. by eapply IH.
Qed.
Lemma decrypt_stops P key salt ct user tried : ∀ pass i rest, Forall (λ x, x ≠ "") tried → Forall (wrong P key salt ct user) (pass :: tried) →
  i = ILine "" ∨ (∃ e, i = IErr e) → decryptBlob P key salt ct user pass (map ILine tried ++ i :: rest) = UOk None rest.
Proof.
  induction tried as [|x tried IH]; intros pass i rest Hne Hw Hi; apply Forall_cons in Hw as [Hw1 Hw].
  - cbn [map app decryptBlob]. unfold wrong in Hw1. rewrite Hw1. rewrite decide_False by (by intros [?|?]). rewrite decide_True by done. by destruct Hi as [->|[e ->]].
  - apply Forall_cons in Hne as [Hx Hne]. cbn [map app]. rewrite decrypt_wrong by done. by eapply IH.
Qed.
Lemma decrypt_user P key salt ct user pass e x rest : Decrypt P (str_bytes user) (str_bytes pass) (opt_bytes key) salt ct = Fail e → e = ENeedUser ∨ e = EUnknownUser →
  decryptBlob P key salt ct user pass (ILine x :: rest) = decryptBlob P key salt ct x pass rest ∧
  ∀ e', decryptBlob P key salt ct user pass (IErr e' :: rest) = UOk None rest.
Proof. intros H He. split; [|intros e']; cbn [decryptBlob]; rewrite H; by rewrite decide_True. Qed.
Lemma decrypt_other P key salt ct user pass e inp : Decrypt P (str_bytes user) (str_bytes pass) (opt_bytes key) salt ct = Fail e →
  e ≠ ENeedUser → e ≠ EUnknownUser → e ≠ EWrongPassphrase → decryptBlob P key salt ct user pass inp = UOk None inp.
Proof. intros H H1 H2 H3. destruct inp; cbn [decryptBlob]; rewrite H; by rewrite decide_False, decide_False by naive_solver. Qed.

(** A file of somebody with the same key is opened without a question. *)
Lemma own_file P sr mr e ord riv f sp user pass inp passr : prims_ok P → good (s_db sr) mr → s_readOnly sr = false →
  single_session P sr passr → length riv = 40 → saveBlob P e ord (Some riv) sr = (sr, Ok (Some f)) →
  ∃ pt log, decryptBlob P (s_key sr) (s_salt sr) (mk_slice f sp) user pass inp = UOk (Some (single_params (s_key sr) (s_salt sr) riv, user, pass, pt)) inp ∧
    pt ≠ [] ∧ NewLog pt = Ok log ∧ vis log = vis (db_log (s_db sr)).
Proof.
  intros HP Hg Hro (Hm & Hk & Hs & Hp) Hr Hsave.
  destruct (good_saves _ _ Hg) as (b & d' & Hb & Hn & Hsame).
  assert (length (s_key sr) = 80) as Lk by (rewrite Hk; apply (scrypt_len _ HP)).
  destruct (single_round_trip P (params_single (s_key sr) (s_salt sr)) riv b (s_key sr) (s_salt sr) sp) as (f' & E & D & _); try done.
  { apply validate_ok. split; [|by left]. unfold sizes_ok. cbn [params_single Keys Salts]. split; [done|]. split; [done|]. split; constructor; auto. }
  { intros H. rewrite H in Lk. done. }
  assert (f' = f) as ->.
  { revert Hsave. unfold saveBlob. rewrite Hro, Hb. unfold makeParams. rewrite Hm. cbn [length Nat.eqb]. unfold mret, M_ret, cryptVersion. rewrite E. cbn [mbind outcome_bind].
    intros H. by injection H. }
  exists b, (db_log d'). split.
  - assert (opt_bytes (s_key sr) = Some (s_key sr)) as Eo by (unfold opt_bytes; by rewrite Lk).
    destruct inp as [|i inp]; cbn [decryptBlob]; rewrite Eo, D; done.
  - split; [intros ->; done|]. split; [by apply New_NewLog|]. by destruct Hsame.
Qed.

(** With another salt the passphrase is needed. *)
Lemma own_file_typed P sr mr e ord riv f sp user key' salt' passr : prims_ok P → good (s_db sr) mr → s_readOnly sr = false →
  single_session P sr passr → length riv = 40 → saveBlob P e ord (Some riv) sr = (sr, Ok (Some f)) → salt' ≠ s_salt sr →
  wrong P key' salt' (mk_slice f sp) user "" ∧
  ∃ pt, Decrypt P (str_bytes user) (str_bytes passr) (opt_bytes key') salt' (mk_slice f sp) = Ok (1%Z, single_params (s_key sr) (s_salt sr) riv, pt).
Proof.
  intros HP Hg Hro (Hm & Hk & Hs & Hp) Hr Hsave Hsalt.
  destruct (good_saves _ _ Hg) as (b & d' & Hb & Hn & Hsame).
  assert (length (s_key sr) = 80) as Lk by (rewrite Hk; apply (scrypt_len _ HP)).
  assert (validate v1 (params_single (s_key sr) (s_salt sr)) = Ok tt) as Hv.
  { apply validate_ok. split; [|by left]. unfold sizes_ok. cbn [params_single Keys Salts]. split; [done|]. split; [done|]. split; constructor; auto. }
  assert (s_key sr ≠ []) as Hne by (intros H; rewrite H in Lk; done).
  destruct (single_round_trip P (params_single (s_key sr) (s_salt sr)) riv b (s_key sr) (s_salt sr) sp) as (f' & E & _ & D); try done.
  destruct (single_empty_pass P (params_single (s_key sr) (s_salt sr)) riv b (s_key sr) (s_salt sr) (str_bytes user) (opt_bytes key') salt' sp) as (f2 & E2 & D2); try done; [by right|].
  rewrite E in E2. injection E2 as <-.
  assert (f' = f) as ->.
  { revert Hsave. unfold saveBlob. rewrite Hro, Hb. unfold makeParams. rewrite Hm. cbn [length Nat.eqb]. unfold mret, M_ret, cryptVersion. rewrite E. cbn [mbind outcome_bind].
    intros H. by injection H. }
  split; [exact D2|]. exists b. apply D; [by destruct passr|done|by right].
Qed.

(** ** Merging *)
Lemma idx_some {A} (l : list A) i x : idx l i = Ok x ↔ l !! i = Some x.
Proof. unfold idx. destruct (l !! i); split; congruence. Qed.
Lemma bind_ok {A B} (x : outcome A) (f : A → outcome B) b : mbind f x = Ok b → ∃ a, x = Ok a ∧ f a = Ok b.
Proof. destruct x; cbn; [|done|done]. eauto. Qed.
Lemma merge_one_ok e k ma m0 r inp m1 rest : merge_one e k ma m0 r inp = UOk m1 rest →
  ∃ merged inp1 (take : bool), mergeLogs (m_log m0) (b_log r) inp = UOk merged inp1 ∧
    take_remote e k ma m0 r merged inp1 = UOk take rest ∧
    (if take then creds_of_part r m1 ∧ m_log m1 = merged else m1 = with_log m0 merged).
Proof.
  unfold merge_one. intros H. apply ubind_ok in H as (merged & inp1 & E1 & H). apply ubind_ok in H as (take & inp2 & E2 & H).
  exists merged, inp1, take. destruct take.
  - unfold of_outcome in H. destruct (with_remote r m0 merged) as [m2|err|] eqn:E3; [|done|done]. apply UOk_inj in H as [<- <-].
    unfold with_remote in E3. apply bind_ok in E3 as (key & Ek & E3). apply bind_ok in E3 as (salt & Es & E3). injection E3 as <-.
    apply idx_some in Ek, Es. split; [done|]. split; [done|]. by repeat split.
  - apply UOk_inj in H as [<- <-]. done.
Qed.
Lemma merge_parts_ok e k ma l : ∀ m0 inp m1 rest, merge_parts e k ma m0 l inp = UOk m1 rest →
  merged_one_by_one (m_log m0) l (m_log m1) ∧
  ((m_user m1 = m_user m0 ∧ m_pass m1 = m_pass m0 ∧ m_key m1 = m_key m0 ∧ m_salt m1 = m_salt m0 ∧ m_master m1 = m_master m0 ∧ m_ivm m1 = m_ivm m0) ∨
   ∃ p, p ∈ l ∧ creds_of_part p m1).
Proof.
  induction l as [|r l IH]; intros m0 inp m1 rest; cbn [merge_parts].
  - intros H. apply UOk_inj in H as [<- <-]. split; [constructor|]. left. done.
  - intros H. apply ubind_ok in H as (m2 & inp1 & E & H). apply merge_one_ok in E as (merged & inp2 & take & E1 & _ & Hm).
    apply IH in H as [Hlog Hcr]. destruct take.
    + destruct Hm as [Hp <-]. split; [by econstructor|]. right. destruct Hcr as [Hcr|(p & Hin & Hcr)].
      * exists r. split; [left|]. destruct Hcr as (A1 & A2 & A3 & A4 & A5 & A6). destruct Hp as (B1 & B2 & B3 & B4 & B5 & B6).
        repeat split; congruence.
      * exists p. split; [by right|done].
    + subst m2. split; [by econstructor|]. destruct Hcr as [Hcr|(p & Hin & Hcr)]; [by left|]. right. exists p. split; [by right|done].
Qed.
Lemma mergeBlobs_ok e s l inp mr rest : mergeBlobs e s l inp = UOk mr rest →
  merged_one_by_one (vis (db_log (s_db s))) l (m_log mr) ∧ (creds_of_session s mr ∨ ∃ p, p ∈ l ∧ creds_of_part p mr).
Proof. unfold mergeBlobs. intros H. apply merge_parts_ok in H as [H1 H2]. split; [done|]. destruct H2 as [H2|H2]; [left|by right]. done. Qed.

(** Single-user files with the session's own key: nothing changes but the log *)
Lemma merge_same_key e s p inp : s_master s = [] → single_part (s_key s) p →
  mergeBlobs e s [p] inp = ubind (mergeLogs (vis (db_log (s_db s))) (b_log p) inp) (λ l rest, UOk (with_log (merge_start s) l) rest).
Proof.
  intros Hm [Hk Hpm]. unfold mergeBlobs. cbn [merge_parts]. unfold merge_one, take_remote, take_single, remote_master. rewrite Hm, Hpm.
  cbn [merge_start m_log]. destruct (mergeLogs _ _ _) as [l r|err r| |]; [|done|done|done]. cbn [ubind length Nat.eqb andb].
  rewrite (proj2 (idx_some _ _ _) Hk : remote_key p = Ok (s_key s)). cbn [of_outcome ubind]. rewrite decide_True by done. done.
Qed.
Lemma merge_same_keys e s l : s_master s = [] → Forall (single_part (s_key s)) l → ∀ inp mr rest, mergeBlobs e s l inp = UOk mr rest → creds_of_session s mr.
Proof.
  intros Hm Hl inp mr rest. unfold mergeBlobs.
  cut (∀ m0, creds_of_session s m0 → merge_parts e (s_key s) (s_master s) m0 l inp = UOk mr rest → creds_of_session s mr).
  { intros H. apply H. done. }
  revert inp. induction Hl as [|p l [Hk Hpm] _ IH]; intros inp m0 H0; cbn [merge_parts].
  - intros H. by apply UOk_inj in H as [<- <-].
  - intros H. apply ubind_ok in H as (m2 & inp1 & E & H). apply merge_one_ok in E as (merged & inp2 & take & E1 & E2 & Hm2).
    assert (take = false) as ->.
    { revert E2. unfold take_remote, take_single, remote_master. rewrite Hm, Hpm. cbn [length Nat.eqb andb].
      rewrite (proj2 (idx_some _ _ _) Hk : remote_key p = Ok (s_key s)). cbn [of_outcome ubind]. rewrite decide_True by done. intros E. by apply UOk_inj in E as [<- _]. }
    subst m2. by eapply IH in H.
Qed.

(** ** A run that succeeds *)
Lemma adopt_ok mr m2 s inp : replays (m_log mr) m2 →
  ∃ s2, adopt mr s inp = (s2, UOk tt inp) ∧ has_merged mr [] s s2 ∧ holds (s_db s2) m2 ∧ snap_of (s_db s2) = m2 ∧ UpdateSnapshot (s_db s2) = (s_db s2, Ok tt).
Proof.
  intros Hr. unfold adopt.
  set (s1 := set_master (m_master mr) (m_ivm mr) (set_creds (m_pass mr) (m_key mr) (m_salt mr) (set_user (m_user mr) s))).
  set (d0 := mk_db 0 None (mk_slice (m_log mr) []) (db_txpoint (s_db s))).
  assert (holds d0 m2) as Hh by (split; [split; [cbn; lia|cbn; constructor]|done]).
  destruct (holds_update _ _ Hh) as (d1 & Hu & Hs & Hv & Hp & Hh1).
  exists (set_db d1 s1).
  rewrite (C_ok _ _ _ _ s1 tt inp) by done. rewrite (C_ok _ _ _ _ (set_db d0 s1) tt inp) by done.
  unfold on_db, must. cbn [s_db set_db]. rewrite Hu. split; [done|].
  split; [|split; [done|split; [done|]]].
  - unfold has_merged. cbn [s_db set_db]. rewrite Hv, Hp, app_nil_r. done.
  - eapply (update_again d0); [apply Hh|done].
Qed.
Lemma fair_no_hosts w k : fair_hosts w → y_hosts w k ∅ = [].
Proof. intros Hf. specialize (Hf k ∅). rewrite map_to_list_empty in Hf. by apply Permutation_nil_r in Hf. Qed.
Lemma saveHosts_nil e d : UpdateSnapshot d = (d, Ok tt) → saveHosts e [] d = (d, Ok tt).
Proof. intros H. unfold saveHosts. cbn [save_loop]. unfold mbind, M_bind, mret, M_ret. done. Qed.
Lemma sealed_ok P w s s' inp ct : s_readOnly s = false → saveBlob P (y_env w 3) (y_ord w) (y_iv w) s = (s', Ok (Some ct)) →
  sealed P w s inp = (s', UOk ct inp).
Proof.
  intros Hro. unfold saveBlob. rewrite Hro. unfold sealed. rewrite (C_ok _ _ _ _ s s inp) by done.
  destruct (Save (s_db s)) as [data|e|]; [|done|done]. rewrite (C_ok _ _ _ _ s data inp) by done.
  destruct (makeParams _ _ _ _ _) as [d [params|e|]] eqn:E; [|done|done].
  rewrite (C_ok _ _ _ _ (set_db d s) params inp) by (unfold on_db; by rewrite E).
  destruct (Encrypt _ _ _ _ _) as [f|e|] eqn:E2; cbn; intros H; [|done|done]. injection H as <- <-. done.
Qed.
Lemma good_has_merged mr m2 s s2 : has_merged mr [] s s2 → holds (s_db s2) m2 → db_txpoint (s_db s) = 0 →
  Forall tx_utf8 (m_log mr) → Forall (λ t, in_int64 (tx_time t)) (m_log mr) → (Z.of_nat (length (m_log mr)) < 2 ^ 64)%Z →
  good (s_db s2) m2.
Proof.
  intros (_ & _ & _ & _ & _ & _ & Hv & _ & _ & _ & Ht) Hh H0 H1 H2 H3. rewrite app_nil_r in Hv. unfold good. rewrite Hv, Ht. done.
Qed.

(** Syncing a single-user store with [us] when no new host shows up: if the
    merge succeeds, the file pushed opens with the same passphrase. *)
Lemma single_sync P w name s inp m us rs inp1 mr rest m2 pass riv : prims_ok P → good (s_db s) m → s_readOnly s = false →
  targets w name (s_db s) = (s_db (caught_up s), Ok (Some us)) → about_remotes w name m us → fair_hosts w →
  pulls P w (caught_up s) 0 us inp rs inp1 → new_hosts us rs = ∅ →
  mergeBlobs (y_env w 4) (caught_up s) (opened_parts rs) inp1 = UOk mr rest → replays (m_log mr) m2 →
  Forall tx_utf8 (m_log mr) → Forall (λ t, in_int64 (tx_time t)) (m_log mr) → (Z.of_nat (length (m_log mr)) < 2 ^ 64)%Z →
  m_master mr = [] → m_key mr = key_of P (str_bytes pass) (m_salt mr) → length (m_salt mr) = 32 → pass ≠ "" →
  y_iv w = Some riv → length riv = 40 →
  ∃ s2 ct, prepare P w name true s inp = (s2, UOk (Some (ct, receivers us rs)) rest) ∧ has_merged mr [] s s2 ∧ snap_of (s_db s2) = m2 ∧ 
    good (s_db s2) m2 ∧ UpdateSnapshot (s_db s2) = (s_db s2, Ok tt) ∧
    single_session P s2 pass ∧ saveBlob P (y_env w 3) (y_ord w) (y_iv w) s2 = (s2, Ok (Some ct)) ∧
    ∀ sp rsalt r, ∃ s3, loadBlob P (Found (mk_slice ct sp)) None rsalt (ILine pass :: r) = UOk s3 r ∧ vis (db_log (s_db s3)) = m_log mr ∧ good (s_db s3) m2.
Proof.
  intros HP Hg Hro Et Hab Hfh Hp Hnh Em Hr H1 H2 H3 Hma Hk Hsl Hne Hiv Hliv.
  destruct (adopt_ok mr m2 (caught_up s) rest Hr) as (s2 & Ea & Hm & Hh2 & Hs2 & Hst).
  assert (db_txpoint (s_db (caught_up s)) = 0) as Ht0 by (rewrite (proj2 (caught_up_log s)); apply Hg).
  pose proof (good_has_merged _ _ _ _ Hm Hh2 Ht0 H1 H2 H3) as Hg2.
  pose proof Hm as (A1 & A2 & A3 & A4 & A5 & A6 & A7 & A8 & A9 & A10 & A11). rewrite app_nil_r in A7.
  assert (s_readOnly s2 = false) as Hro2 by (rewrite A9; exact Hro).
  assert (single_session P s2 pass) as Hss by (split; [congruence|]; split; [congruence|]; split; [congruence|done]).
  assert (∃ ct, saveBlob P (y_env w 3) (y_ord w) (y_iv w) s2 = (s2, Ok (Some ct)) ∧
    ∀ sp rsalt r, ∃ s3, loadBlob P (Found (mk_slice ct sp)) None rsalt (ILine pass :: r) = UOk s3 r ∧ vis (db_log (s_db s3)) = m_log mr ∧ good (s_db s3) m2) as (ct & Es & Hl).
  { rewrite Hiv. destruct (single_reopen P s2 pass m2 (y_env w 3) (y_ord w) riv [] None [] HP Hg2 Hro2 Hss Hliv) as (ct & _ & Es & _).
    exists ct. split; [done|]. intros sp rsalt r.
    destruct (single_reopen P s2 pass m2 (y_env w 3) (y_ord w) riv sp rsalt r HP Hg2 Hro2 Hss Hliv) as (ct' & s3 & Es' & El & [Hv3 _] & Hg3 & _).
    rewrite Es in Es'. injection Es' as <-. exists s3. split; [done|]. split; [congruence|done]. }
  exists s2, ct. split; [|split; [|split; [done|split; [done|split; [done|split; [done|split; [done|done]]]]]]].
  - unfold prepare.
    rewrite (C_ok _ _ _ _ (caught_up s) (Some us) inp) by (unfold on_db; by rewrite Et).
    rewrite (C_ok _ _ _ _ (caught_up s) (caught_up s) inp) by done.
    rewrite (C_ok _ _ _ _ (caught_up s) (new_hosts us rs, receivers us rs, opened_parts rs) inp1) by (unfold ask; erewrite pull_loop_about_rev; [done|apply Hg|done|done]).
    rewrite (C_ok _ _ _ _ (caught_up s) (Some mr) rest) by (unfold attempt; by rewrite Em).
    rewrite (C_ok _ _ _ _ s2 tt rest) by done.
    rewrite Hnh, fair_no_hosts by done.
    rewrite (C_ok _ _ _ _ s2 tt rest) by (unfold on_db; rewrite saveHosts_nil by done; by destruct s2).
    rewrite (C_ok _ _ _ _ s2 ct rest) by (by apply sealed_ok). done.
  - rewrite (proj2 (caught_up_log s)) in A11. repeat split; try done. by rewrite app_nil_r.
Qed.
