(** Proofs about syncing: whose credentials are kept, one whole sync with a file,
    crashes. *)
From Verif Require Import Spec_Sync Spec_Merge Proof_Sync Proof_Sync2 Proof_Sync3 Proof_TxLog Proof_GoStr Proof_Blobs Proof_Blobs2 Proof_Merge4 Proof_Crypt2 Proof_Crypt5 Proof_Crypt7 Proof_Session Proof_Session3 Proof_Session5 Proof_Session6.
From Coq Require Import Lia.
From stdpp Require Import options.
Import Model_GoStr.
#[local] Open Scope nat_scope.

(** ** Whose credentials are kept *)
Lemma len0_nil {A} (l : list A) : (length l =? 0) = bool_decide (l = []).
Proof. by destruct l. Qed.
Lemma on_log_users e log m : replays log m → all_named m → fair e →
  ∃ r, on_log log (Model_Blobs.Users e) = Ok r ∧ (size (res_map r) = 0 ↔ ∀ x, ¬ is_user m x).
Proof.
  intros Hr Ha Hf. assert (holds (db_of log) m) as Hh by (split; [split; [cbn; lia|cbn; constructor]|done]).
  destruct (Users_spec e (db_of log) m Hh Ha Hf) as (d' & r & E & _ & _ & Hex). exists r. unfold on_log. rewrite E. split; [done|].
  rewrite map_size_empty_iff. split.
  - intros H0 x (u & b & Hb & Hn). assert (res_map r !! u = Some ("user/" +:+ x)) as Hl.
    { apply Hex. exists b. split; [done|]. split; [done|]. by exists x. }
    by rewrite H0, lookup_empty in Hl.
  - intros H. apply map_empty. intros u. destruct (res_map r !! u) as [n|] eqn:E2; [|done]. apply Hex in E2 as (b & Hb & Hn & x & Hx).
    exfalso. apply (H x). exists u, b. done.
Qed.

Lemma mode_kept e s p inp mr rest m : mergeBlobs e s [p] inp = UOk mr rest →
  (s_master s = [] ↔ remote_master p ≠ []) → replays (m_log mr) m → all_named m → fair e →
  (m_master mr = [] ↔ ∀ x, ¬ is_user m x).
Proof.
  unfold mergeBlobs. cbn [merge_parts]. intros H Hx Hr Ha Hf. apply ubind_ok in H as (m1 & inp1 & E & H). apply UOk_inj in H as [<- <-].
  apply merge_one_ok in E as (merged & inp2 & take & E1 & E2 & Hm).
  assert (m_log m1 = merged) as Hl by (destruct take; [by destruct Hm|by subst m1]).
  rewrite Hl in Hr. destruct (on_log_users e merged m Hr Ha Hf) as (r & Eu & Hu).
  unfold take_remote in E2. rewrite !len0_nil in E2.
  assert (length (s_master s) ≠ length (remote_master p)) as Hlen.
  { destruct (s_master s), (remote_master p); cbn; [|lia|lia|]; destruct Hx as [A B]; [by specialize (A eq_refl)|]. exfalso. specialize (B ltac:(done)). done. }
  destruct (decide (s_master s = [])) as [Hs|Hs].
  - assert (remote_master p ≠ []) as Hrm by by apply Hx.
    rewrite bool_decide_true, bool_decide_false in E2 by done. cbn [andb] in E2.
    rewrite (proj2 (Nat.eqb_neq _ _) Hlen) in E2. cbn [negb] in E2. unfold take_mode in E2. rewrite Eu in E2. cbn [mbind outcome_bind] in E2.
    rewrite Hs in E2. cbn [length Nat.eqb negb] in E2. rewrite andb_false_r, orb_false_l, andb_true_r in E2. cbn [of_outcome] in E2.
    apply UOk_inj in E2 as [<- _]. destruct (size (res_map r) =? 0) eqn:Es; cbn [negb] in Hm.
    + apply Nat.eqb_eq in Es. subst m1. cbn [with_log m_master merge_start]. split; [intros _; by apply Hu|done].
    + apply Nat.eqb_neq in Es. destruct Hm as ((_ & _ & _ & _ & Hmm & _) & _). rewrite Hmm.
      change (nil_bytes (Master (b_params p))) with (remote_master p). split; [done|]. intros Hn. by apply Hu in Hn.
  - assert (remote_master p = []) as Hrm.
    { destruct (remote_master p) eqn:E3; [done|]. exfalso. apply Hs, Hx. done. }
    rewrite bool_decide_false in E2 by done. cbn [andb] in E2.
    rewrite (proj2 (Nat.eqb_neq _ _) Hlen) in E2. cbn [negb] in E2. unfold take_mode in E2. rewrite Eu in E2. cbn [mbind outcome_bind] in E2.
    rewrite len0_nil, bool_decide_false in E2 by done. cbn [negb] in E2. rewrite andb_true_r, andb_false_r, orb_false_r in E2. cbn [of_outcome] in E2.
    apply UOk_inj in E2 as [<- _]. destruct (size (res_map r) =? 0) eqn:Es.
    + apply Nat.eqb_eq in Es. destruct Hm as ((_ & _ & _ & _ & Hmm & _) & _). rewrite Hmm. split; [intros _; by apply Hu|]. done.
    + apply Nat.eqb_neq in Es. subst m1. cbn [with_log m_master merge_start]. split; [done|]. intros Hn. by apply Hu in Hn.
Qed.

(** Both have several users and different master keys *)
Lemma rekey_kept e s p inp mr rest ml m u lb mb : mergeBlobs e s [p] inp = UOk mr rest →
  s_master s ≠ [] → length (remote_master p) = length (s_master s) → remote_master p ≠ s_master s →
  replays (vis (db_log (s_db s))) ml → replays (m_log mr) m → well_named ml → fair e →
  ml !! u = Some lb → lb !! "name" = Some ("user/" +:+ s_user s) → m !! u = Some mb →
  (default "" (lb !! "mkey") = default "" (mb !! "mkey") → creds_of_session s mr) ∧
  (default "" (lb !! "mkey") ≠ default "" (mb !! "mkey") → creds_of_part p mr).
Proof.
  unfold mergeBlobs. cbn [merge_parts]. intros H Hs Hlen Hne Hrl Hr [Ha Hun] Hf Hlb Hln Hmb. apply ubind_ok in H as (m1 & inp1 & E & H). apply UOk_inj in H as [<- <-].
  apply merge_one_ok in E as (merged & inp2 & take & E1 & E2 & Hm).
  assert (m_log m1 = merged) as Hl by (destruct take; [by destruct Hm|by subst m1]). rewrite Hl in Hr.
  assert (take = negb (String.eqb (default "" (lb !! "mkey")) (default "" (mb !! "mkey")))) as ->.
  { revert E2. unfold take_remote. rewrite !len0_nil, bool_decide_false by done. cbn [andb]. rewrite Hlen, Nat.eqb_refl. cbn [negb].
    rewrite decide_False by done. unfold take_master. cbn [merge_start m_log m_user].
    assert (holds (db_of (vis (db_log (s_db s)))) ml) as Hhl by (split; [split; [cbn; lia|cbn; constructor]|done]).
    assert (holds (db_of merged) m) as Hh by (split; [split; [cbn; lia|cbn; constructor]|done]).
    destruct (FindByName_spec e ("user/" +:+ s_user s) _ ml Hhl Ha Hf) as (d1 & o & Eo & _ & _ & Ho).
    assert (on_log (vis (db_log (s_db s))) (FindUser e (s_user s)) = Ok (Some (u, lb))) as ->.
    { unfold on_log, FindUser. change userPrefix with "user/". rewrite Eo. cbn [snd].
      destruct o as [[u' lb']|]; [|exfalso; apply (Ho u); by exists lb].
      destruct Ho as [Hb' Hn']. assert (u' = u) as -> by (eapply Hun; [by exists lb'|by exists lb]). by rewrite Hlb in Hb'; injection Hb' as ->. }
    cbn [mbind outcome_bind].
    assert (on_log merged (Find u) = Ok (Some mb)) as ->.
    { unfold on_log, Find, mbind, M_bind. destruct (holds_update _ _ Hh) as (d2 & E4 & Hs2 & _). rewrite E4.
      unfold get_snap, mret, M_ret. cbn [snd]. by rewrite Hs2, Hmb. }
    cbn [mbind outcome_bind].
    destruct (on_log (vis (db_log (s_db s))) (Model_Blobs.Users e)) as [?|?|]; cbn [mbind outcome_bind of_outcome]; [|done|done].
    destruct (on_log merged (Model_Blobs.Users e)) as [?|?|]; cbn [mbind outcome_bind of_outcome]; [|done|done].
    intros E5. by apply UOk_inj in E5 as [<- _]. }
  destruct (String.eqb _ _) eqn:Eq; cbn [negb] in Hm.
  - apply String.eqb_eq in Eq. split; [intros _; by subst m1|by intros ?].
  - apply String.eqb_neq in Eq. split; [by intros ?|]. intros _. by destruct Hm.
Qed.

(** Both are for a single user and have different keys: the later log wins, and
    the user is asked if they end at the same time. *)
Lemma key_kept e s p inp mr rest key tl tr : mergeBlobs e s [p] inp = UOk mr rest →
  s_master s = [] → single_part key p → key ≠ s_key s →
  tx_time <$> last (vis (db_log (s_db s))) = Some tl → tx_time <$> last (b_log p) = Some tr →
  ((tr < tl)%Z → creds_of_session s mr) ∧ ((tl < tr)%Z → creds_of_part p mr) ∧
  (tl = tr → ∃ inp1 a, mergeLogs (vis (db_log (s_db s))) (b_log p) inp = UOk (m_log mr) inp1 ∧ getYesNo inp1 = UOk a rest ∧
    if (a : bool) then creds_of_part p mr else creds_of_session s mr).
Proof.
  unfold mergeBlobs. cbn [merge_parts]. intros H Hs [Hk Hpm] Hne Htl Htr. apply ubind_ok in H as (m1 & inp1 & E & H). apply UOk_inj in H as [<- <-].
  apply merge_one_ok in E as (merged & inp2 & take & E1 & E2 & Hm).
  assert (m_log m1 = merged) as Hl by (destruct take; [by destruct Hm|by subst m1]).
  assert (∀ l t, tx_time <$> last l = Some t → last_time l = Ok t) as Hlast.
  { intros l t Hlt. unfold last_time. rewrite last_lookup in Hlt. destruct l as [|x l]; [done|]. cbn [length] in *. rewrite Nat.sub_1_r.
    unfold idx. destruct ((x :: l) !! pred (S (length l))) as [y|]; [|done]. cbn in Hlt |- *. by injection Hlt as <-. }
  unfold take_remote, take_single, remote_master in E2. rewrite Hs, Hpm in E2. cbn [length Nat.eqb andb] in E2.
  rewrite (proj2 (idx_some _ _ _) Hk : remote_key p = Ok key) in E2. cbn [of_outcome ubind] in E2. rewrite decide_False in E2 by congruence.
  cbn [merge_start m_log] in E2, E1. rewrite (Hlast _ _ Htl), (Hlast _ _ Htr) in E2. cbn [of_outcome ubind] in E2.
  assert (take = true → creds_of_part p m1) as Ht by (intros ->; by destruct Hm).
  assert (take = false → creds_of_session s m1) as Hfa by (intros ->; by subst m1).
  destruct (tl <? tr)%Z eqn:El; [apply Z.ltb_lt in El; apply UOk_inj in E2 as [<- _]; split; [lia|]; split; [by auto|lia]|].
  apply Z.ltb_ge in El. destruct (tl =? tr)%Z eqn:Eq.
  - apply Z.eqb_eq in Eq. split; [lia|]. split; [lia|]. intros _. exists inp2, take. rewrite Hl. split; [done|]. split; [done|]. destruct take; auto.
  - apply Z.eqb_neq in Eq. apply UOk_inj in E2 as [<- _]. split; [by auto|]. split; lia.
Qed.
(** ... and an empty remote log is a crash. *)
Lemma key_empty e s p l inp key : s_master s = [] → single_part key p → key ≠ s_key s → b_log p = [] → mergeBlobs e s (p :: l) inp = UPanic.
Proof.
  intros Hs [Hk Hpm] Hne Hb. unfold mergeBlobs. cbn [merge_parts]. unfold merge_one, mergeLogs. rewrite Hb. cbn [ubind].
  unfold take_remote, take_single, remote_master. rewrite Hs, Hpm. cbn [length Nat.eqb andb].
  rewrite (proj2 (idx_some _ _ _) Hk : remote_key p = Ok key). cbn [of_outcome ubind]. rewrite decide_False by congruence.
  destruct (last_time (m_log (merge_start s))) as [t|err|] eqn:E; [|exfalso|done].
  - cbn [of_outcome ubind]. rewrite Hb. done.
  - unfold last_time, idx in E. destruct (m_log _ !! _); done.
Qed.

(** ** No merge, nothing pushed *)
Lemma sync_no_merge P w name psh s inp m us rs inp1 : holds (s_db s) m →
  targets w name (s_db s) = (s_db (caught_up s), Ok (Some us)) → about_remotes w name m us →
  pulls P w (caught_up s) 0 us inp rs inp1 →
  (∀ mr rest, mergeBlobs (y_env w 4) (caught_up s) (opened_parts rs) inp1 ≠ UOk mr rest) →
  ∃ r, sync P w name psh s inp = (caught_up s, [], r).
Proof.
  intros Hh Et Hab Hp Em. unfold sync, prepare.
  rewrite (C_ok _ _ _ _ (caught_up s) (Some us) inp) by (unfold on_db; by rewrite Et).
  rewrite (C_ok _ _ _ _ (caught_up s) (caught_up s) inp) by done.
  rewrite (C_ok _ _ _ _ (caught_up s) (new_hosts us rs, receivers us rs, opened_parts rs) inp1) by (unfold ask; by erewrite pull_loop_about_rev).
  unfold mbind at 1, C_bind at 1, attempt. destruct (mergeBlobs _ _ _ _) as [mr r|e r| |] eqn:E.
  - exfalso. by eapply Em.
  - eexists. done.
  - eexists. done.
  - eexists. done.
Qed.
Lemma sync_stuck P w name psh s inp m us rs inp1 p c d x : holds (s_db s) m →
  targets w name (s_db s) = (s_db (caught_up s), Ok (Some us)) → about_remotes w name m us →
  pulls P w (caught_up s) 0 us inp rs inp1 → opened_parts rs = [p] →
  valid_log (vis (db_log (s_db s))) → valid_log (b_log p) → compatible (vis (db_log (s_db s))) (b_log p) →
  no_impostor (vis (db_log (s_db s))) (b_log p) → is_union (vis (db_log (s_db s))) (b_log p) c → edit_after_delete c d x →
  ∃ r, sync P w name psh s inp = (caught_up s, [], r).
Proof.
  intros Hh Et Hab Hp Hop H1 H2 H3 H4 H5 H6. eapply sync_no_merge; [done|done|done|done|]. rewrite Hop. intros mr rest Hm.
  unfold mergeBlobs in Hm. cbn [merge_parts] in Hm. apply ubind_ok in Hm as (m1 & inp2 & E & _). apply merge_one_ok in E as (merged & inp3 & take & E1 & _).
  cbn [merge_start m_log] in E1. rewrite (proj1 (caught_up_log s)) in E1. by eapply mergeLogs_stuck_spec in E1.
Qed.

(** The first remote crashes: so does the program. *)
Lemma sync_crash P w name psh s inp u us : targets w name (s_db s) = (s_db (caught_up s), Ok (Some (u :: us))) →
  pull_one P w (caught_up s) 0 u inp = UPanic → sync P w name psh s inp = (caught_up s, [], UPanic).
Proof.
  intros Et Hp. unfold sync, prepare. 
  rewrite (C_ok _ _ _ _ (caught_up s) (Some (u :: us)) inp) by (unfold on_db; by rewrite Et).
  rewrite (C_ok _ _ _ _ (caught_up s) (caught_up s) inp) by done.
  unfold mbind at 1, C_bind at 1, ask. cbn [pull_loop]. rewrite Hp. done.
Qed.
Lemma pull_url P w s i u inp : y_scheme w (key_of_entry (entry_at s u) KeyURL) = None → pull_one P w s i u inp = UPanic.
Proof. intros H. unfold pull_one, pullBlob. by rewrite H. Qed.
Lemma pull_short P w s i u inp f n : y_scheme w (key_of_entry (entry_at s u) KeyURL) = Some "file" →
  y_read w i (key_of_entry (entry_at s u) KeyURL) = Pulled (mk_slice f (zeroes n)) → length f < 8 → pull_one P w s i u inp = UPanic.
Proof.
  intros H H2 H3. unfold pull_one, pullBlob. rewrite H. change (String.eqb "file" syncSCP) with false. change (String.eqb "file" syncFile) with true. cbv iota.
  rewrite H2. cbn [ubind]. destruct inp; cbn [decryptBlob]; rewrite Decrypt_short by done; done.
Qed.
Lemma pull_other P w s i u inp sch : y_scheme w (key_of_entry (entry_at s u) KeyURL) = Some sch → sch ≠ "scp" → sch ≠ "file" → pull_one P w s i u inp = UPanic.
Proof.
  intros H H2 H3. unfold pull_one, pullBlob. rewrite H. rewrite (proj2 (String.eqb_neq sch syncSCP)), (proj2 (String.eqb_neq sch syncFile)) by done. cbn [ubind].
  destruct inp; cbn [decryptBlob]; rewrite (Decrypt_short _ _ _ _ _ [] 0) by (cbn; lia); done.
Qed.
