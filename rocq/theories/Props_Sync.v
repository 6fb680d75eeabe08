(** C60, C61: syncing with remotes. *)
From Verif Require Import Spec_Sync Spec_Merge Proof_Sync Proof_Sync2 Proof_Sync3 Proof_Sync4 Proof_Sync5 Proof_Sync6 Proof_Sync7 Proof_TxLog Proof_GoStr Proof_Blobs Proof_Merge4 Proof_Crypt7 Proof_Session Proof_SessionEx.
From Coq Require Import Lia.
From stdpp Require Import options.
Import Model_GoStr.
#[local] Open Scope nat_scope.
#[local] Opaque saveBlob sy_file key_of.

(** ** C60: who is synced with, what is merged, what is pushed *)

(** Without a name the remotes are exactly the entries marked for it, each once. *)
Theorem C60_marked : ∀ w m,
  fair (y_env w 0) → about_remotes w "" m (collectSyncs w m).
Proof. exact collect_about. Qed.
Print Assumptions C60_marked.

Example C60_marked_ex : about_remotes (sy_world sy_files_p) "" sy_m (collectSyncs (sy_world sy_files_p) sy_m) ∧
  (∃ b, sy_m !! "s1" = Some b ∧ marked (sy_world sy_files_p) b) ∧ length (collectSyncs (sy_world sy_files_p) sy_m) = 2.
Proof.
  split; [apply collect_about, se_fair|]. split; [|destruct (sy_collect sy_files_p) as [-> | ->]; done].
  exists sy_b1. split; [apply sy_s1|]. split; [done|]. split; [by exists "first"|]. exists "file:///a", "file". naive_solver.
Qed.

(** With a name it is the entry of that name, marked or not. *)
Theorem C60_named : ∀ w name d m u,
  holds d m → well_named m → fair (y_env w 0) → name ≠ "" → called m u name → u ≠ "" →
  targets w name d = (fst (UpdateSnapshot d), Ok (Some [u])).
Proof. exact targets_named. Qed.
Print Assumptions C60_named.

Example C60_named_ex : targets (sy_world sy_files_c) "first" (db_of sy_log) = (fst (UpdateSnapshot (db_of sy_log)), Ok (Some ["s1"])).
Proof. apply (C60_named _ _ _ sy_m); [apply sy_good_0|apply sy_named|apply se_fair|done|by exists sy_b1; split; [apply sy_s1|]|done]. Qed.

(** A remote log is passed over exactly if it has as many transactions as ours and begins and ends at the same times. *)
Theorem C60_alike : ∀ a b,
  b ≠ [] → ∃ r : bool, no_changes a b = Ok r ∧ (r = true ↔ alike a b).
Proof. exact no_changes_spec. Qed.
Print Assumptions C60_alike.

Example C60_alike_ex : no_changes sy_log sy_log = Ok true ∧ no_changes sy_log_p sy_log = Ok false.
Proof. by split; vm_compute. Qed.

(** A remote is opened with the credentials at hand or with what the user typed. *)
Theorem C60_opened : ∀ P key salt ct inp,
  ∀ user pass params user' pass' pt rest,
  decryptBlob P key salt ct user pass inp = UOk (Some (params, user', pass', pt)) rest →
  (∃ v, Decrypt P (str_bytes user') (str_bytes pass') (opt_bytes key) salt ct = Ok (v, params, pt)) ∧
  ∃ used, inp = used ++ rest ∧ (user' = user ∨ ILine user' ∈ used) ∧ (pass' = pass ∨ ILine pass' ∈ used).
Proof. exact decrypt_typed. Qed.
Print Assumptions C60_opened.

Example C60_opened_ex : ∃ pt log, decryptBlob toy (s_key (sy_session sy_log)) (s_salt (sy_session sy_log)) (mk_slice (sy_file sy_log_p) []) "" "?" [] =
    UOk (Some (single_params (s_key (sy_session sy_log_p)) (s_salt (sy_session sy_log_p)) se_iv, "", "?", pt)) [] ∧ pt ≠ [] ∧ NewLog pt = Ok log ∧ vis log = sy_log_p.
Proof.
  exact (own_file toy (sy_session sy_log_p) sy_m_p se_env map_to_list se_iv (sy_file sy_log_p) [] "" "?" [] se_pass toy_ok sy_good_p eq_refl (sy_single _) eq_refl (sy_saved _ _ sy_good_p)).
Qed.

(** After wrong passphrases the user is asked again, until one opens the remote. *)
Theorem C60_retry : ∀ P key salt ct user tried,
  ∀ pass pass' rest v params pt, Forall (λ x, x ≠ "") tried → Forall (wrong P key salt ct user) (pass :: tried) → pass' ≠ "" →
  Decrypt P (str_bytes user) (str_bytes pass') (opt_bytes key) salt ct = Ok (v, params, pt) →
  decryptBlob P key salt ct user pass (map ILine tried ++ ILine pass' :: rest) = UOk (Some (params, user, pass', pt)) rest.
Proof. exact decrypt_retry. Qed.
Print Assumptions C60_retry.

(** An empty answer or the end of the input gives up the remote. *)
Theorem C60_stops : ∀ P key salt ct user tried,
  ∀ pass i rest, Forall (λ x, x ≠ "") tried → Forall (wrong P key salt ct user) (pass :: tried) →
  i = ILine "" ∨ (∃ e, i = IErr e) → decryptBlob P key salt ct user pass (map ILine tried ++ i :: rest) = UOk None rest.
Proof. exact decrypt_stops. Qed.
Print Assumptions C60_stops.

(** A user name that is missing or unknown is asked for. *)
Theorem C60_user : ∀ P key salt ct user pass e x rest,
  Decrypt P (str_bytes user) (str_bytes pass) (opt_bytes key) salt ct = Fail e → e = ENeedUser ∨ e = EUnknownUser →
  decryptBlob P key salt ct user pass (ILine x :: rest) = decryptBlob P key salt ct x pass rest ∧
  ∀ e', decryptBlob P key salt ct user pass (IErr e' :: rest) = UOk None rest.
Proof. exact decrypt_user. Qed.
Print Assumptions C60_user.

(** For any other error nothing is asked and the remote is given up. *)
Theorem C60_other : ∀ P key salt ct user pass e inp,
  Decrypt P (str_bytes user) (str_bytes pass) (opt_bytes key) salt ct = Fail e →
  e ≠ ENeedUser → e ≠ EUnknownUser → e ≠ EWrongPassphrase → decryptBlob P key salt ct user pass inp = UOk None inp.
Proof. exact decrypt_other. Qed.
Print Assumptions C60_other.

Example C60_retry_ex : Forall (wrong toy (s_key (sy_session sy_log)) [] (mk_slice (sy_file sy_log) []) "") [""] ∧
  ∃ v params pt, Decrypt toy (str_bytes "") (str_bytes se_pass) (opt_bytes (s_key (sy_session sy_log))) [] (mk_slice (sy_file sy_log) []) = Ok (v, params, pt).
Proof.
  destruct (own_file_typed toy (sy_session sy_log) sy_m se_env map_to_list se_iv (sy_file sy_log) [] "" (s_key (sy_session sy_log)) [] se_pass toy_ok sy_good_0 eq_refl (sy_single _) eq_refl (sy_saved _ _ sy_good_0)) as (H1 & pt & H2); [done|].
  split; [constructor; [exact H1|constructor]|]. eexists _, _, pt. exact H2.
Qed.

(** Whenever anything is pushed, in any run, however it ends: the logs of all remotes that could be opened were merged; what is pushed is one file, which saving the session would write; and it goes to a part of the remotes that were opened or did not exist, in order, each at the url the merged store says.  A remote that could not be reached or opened, or that looks alike, gets nothing. *)
Theorem C60_pushed : ∀ P w name psh s inp s' ps r m,
  holds (s_db s) m → all_named m → fair (y_env w 0) → fair_hosts w →
  sync P w name psh s inp = (s', ps, r) → ps ≠ [] →
  psh = true ∧ ∃ us rs inp1 mr inp2 s2 m2 ct, about_remotes w name m us ∧ pulls P w (caught_up s) 0 us inp rs inp1 ∧
    mergeBlobs (y_env w 4) (caught_up s) (opened_parts rs) inp1 = UOk mr inp2 ∧
    after_merge s mr (new_hosts us rs) s2 m2 ∧ file_of P w s2 ct ∧
    (p_uuid <$> ps) `prefix_of` receivers us rs ∧ one_file ct m2 ps.
Proof. exact sync_pushed. Qed.
Print Assumptions C60_pushed.

(** A sync that ends without error or crash: either there is no such name; or merging failed; or every remote that was opened or did not exist got the file.  What is missing: the url may be another one after merging ([C60_moved_refuted]), remotes that look alike do not get what is merged from others ([C60_unchanged_refuted]), a push may fail ([p_err]), and the sync may crash ([C60_short_refuted] and following). *)
Theorem C60_sync_partial : ∀ P w name psh s inp s' ps rest m,
  holds (s_db s) m → all_named m → fair (y_env w 0) → fair_hosts w →
  sync P w name psh s inp = (s', ps, UOk tt rest) →
  (ps = [] ∧ name ≠ "" ∧ (∀ u, called m u name → ∃ u', called m u' name ∧ u' = "") ∧ s' = caught_up s) ∨
  ∃ us rs inp1, about_remotes w name m us ∧ pulls P w (caught_up s) 0 us inp rs inp1 ∧
    ((ps = [] ∧ s' = caught_up s ∧ ∃ e, mergeBlobs (y_env w 4) (caught_up s) (opened_parts rs) inp1 = UErr e rest) ∨
     ∃ mr inp2 s2 m2, mergeBlobs (y_env w 4) (caught_up s) (opened_parts rs) inp1 = UOk mr inp2 ∧
       after_merge s mr (new_hosts us rs) s2 m2 ∧
       ((psh = false ∧ ps = [] ∧ s' = s2) ∨
        (psh = true ∧ ∃ ct hosts m3, file_of P w s2 ct ∧ p_uuid <$> ps = receivers us rs ∧ one_file ct m2 ps ∧
           (∀ u, is_Some (hosts !! u) → u ∈ receivers us rs) ∧
           after_merge s2 (merge_start s2) hosts s' m3))).
Proof. exact sync_done. Qed.
Print Assumptions C60_sync_partial.

Example C60_sync_partial_ex : ∃ s' ct, sync toy (sy_world sy_files_p) "" true (sy_session sy_log) [] = (s', [mk_push "s2" "file:///b" ct None], UOk tt []) ∧
  vis (db_log (s_db s')) = sy_log_p.
Proof. exact unchanged_run. Qed.

(** The merged log is ours with those of the remotes merged into it one by one, and the credentials are ours or those of one of them. *)
Theorem C60_merged : ∀ e s l inp mr rest,
  mergeBlobs e s l inp = UOk mr rest →
  merged_one_by_one (vis (db_log (s_db s))) l (m_log mr) ∧ (creds_of_session s mr ∨ ∃ p, p ∈ l ∧ creds_of_part p mr).
Proof. exact mergeBlobs_ok. Qed.
Print Assumptions C60_merged.

Example C60_merged_ex : ∃ mr, mergeBlobs se_env (sy_key "k0") [sy_part "k1" None sy_late1; sy_part "k0" None sy_late2] [] = UOk mr [] ∧ ∃ p, p ∈ [sy_part "k1" None sy_late1; sy_part "k0" None sy_late2] ∧ creds_of_part p mr.
Proof.
  destruct latest_run as (mr & E & Hk & Hu). exists mr. split; [done|]. destruct (C60_merged _ _ _ _ _ _ E) as [_ [Hs|Hp]]; [|done].
  exfalso. destruct Hs as (Hs & _). rewrite Hu in Hs. done.
Qed.

(** Single users with one key keep it. *)
Theorem C60_same_keys : ∀ e s l,
  s_master s = [] → Forall (single_part (s_key s)) l → ∀ inp mr rest, mergeBlobs e s l inp = UOk mr rest → creds_of_session s mr.
Proof. exact merge_same_keys. Qed.
Print Assumptions C60_same_keys.

Example C60_same_keys_ex : ∃ mr, mergeBlobs se_env (sy_key "k0") [sy_part "k0" None sy_late1; sy_part "k0" None sy_late2] [] = UOk mr [] ∧ creds_of_session (sy_key "k0") mr.
Proof.
  eexists. split; [vm_compute; reflexivity|]. done.
Qed.

(** Single users with different keys: the one whose log ends later; the user is asked if both end at the same time. *)
Theorem C60_later_key : ∀ e s p inp mr rest key tl tr,
  mergeBlobs e s [p] inp = UOk mr rest →
  s_master s = [] → single_part key p → key ≠ s_key s →
  tx_time <$> last (vis (db_log (s_db s))) = Some tl → tx_time <$> last (b_log p) = Some tr →
  ((tr < tl)%Z → creds_of_session s mr) ∧ ((tl < tr)%Z → creds_of_part p mr) ∧
  (tl = tr → ∃ inp1 a, mergeLogs (vis (db_log (s_db s))) (b_log p) inp = UOk (m_log mr) inp1 ∧ getYesNo inp1 = UOk a rest ∧
    if (a : bool) then creds_of_part p mr else creds_of_session s mr).
Proof. exact key_kept. Qed.
Print Assumptions C60_later_key.

Example C60_later_key_ex : ∃ mr, mergeBlobs se_env (sy_key "k0") [sy_part "k1" None sy_late1] [] = UOk mr [] ∧ creds_of_part (sy_part "k1" None sy_late1) mr.
Proof. eexists. split; [vm_compute; reflexivity|]. done. Qed.

(** One has a single user, the other several: the merged log decides, it has users exactly if the credentials kept have a master key. *)
Theorem C60_mode : ∀ e s p inp mr rest m,
  mergeBlobs e s [p] inp = UOk mr rest →
  (s_master s = [] ↔ remote_master p ≠ []) → replays (m_log mr) m → all_named m → fair e →
  (m_master mr = [] ↔ ∀ x, ¬ is_user m x).
Proof. exact mode_kept. Qed.
Print Assumptions C60_mode.

Example C60_mode_ex : ∃ mr, mergeBlobs se_env (sy_key "k0") [sy_part "alice" (Some (str_bytes "m")) sy_users] [] = UOk mr [] ∧ m_master mr = str_bytes "m".
Proof. eexists. split; [vm_compute; reflexivity|]. done. Qed.

(** Both have several users and different master keys: ours is kept exactly if the merged log has our own entry's wrapped key. *)
Theorem C60_rekeyed : ∀ e s p inp mr rest ml m u lb mb,
  mergeBlobs e s [p] inp = UOk mr rest →
  s_master s ≠ [] → length (remote_master p) = length (s_master s) → remote_master p ≠ s_master s →
  replays (vis (db_log (s_db s))) ml → replays (m_log mr) m → well_named ml → fair e →
  ml !! u = Some lb → lb !! "name" = Some ("user/" +:+ s_user s) → m !! u = Some mb →
  (default "" (lb !! "mkey") = default "" (mb !! "mkey") → creds_of_session s mr) ∧
  (default "" (lb !! "mkey") ≠ default "" (mb !! "mkey") → creds_of_part p mr).
Proof. exact rekey_kept. Qed.
Print Assumptions C60_rekeyed.

Example C60_rekeyed_ex :
  let s := mk_session false false 8 (db_of (sy_users ++ [mk_tx 22 "setk" "u" "mkey" "aa"])) "alice" "pw" (str_bytes "k0") (str_bytes "salt") (str_bytes "m") (str_bytes "iv") in
  let p := sy_part "alice" (Some (str_bytes "n")) (sy_users ++ [mk_tx 23 "setk" "u" "mkey" "bb"]) in
  ∃ mr, mergeBlobs se_env s [p] [] = UOk mr [] ∧ creds_of_part p mr.
Proof. eexists. split; [vm_compute; reflexivity|]. done. Qed.

(** A sync whose merge succeeds with single-user credentials does not crash before pushing, and the file it pushes opens with the passphrase to the merged log.  No new hosts here. *)
Theorem C60_single_partial : ∀ P w name s inp m us rs inp1 mr rest m2 pass riv,
  prims_ok P → good (s_db s) m → s_readOnly s = false →
  targets w name (s_db s) = (s_db (caught_up s), Ok (Some us)) → about_remotes w name m us → fair_hosts w →
  pulls P w (caught_up s) 0 us inp rs inp1 → new_hosts us rs = ∅ →
  mergeBlobs (y_env w 4) (caught_up s) (opened_parts rs) inp1 = UOk mr rest → replays (m_log mr) m2 →
  Forall tx_utf8 (m_log mr) → Forall (λ t, in_int64 (tx_time t)) (m_log mr) → (Z.of_nat (length (m_log mr)) < 2 ^ 64)%Z →
  m_master mr = [] → m_key mr = key_of P (str_bytes pass) (m_salt mr) → length (m_salt mr) = 32 → pass ≠ "" →
  y_iv w = Some riv → length riv = 40 →
  ∃ s2 ct, prepare P w name true s inp = (s2, UOk (Some (ct, receivers us rs)) rest) ∧ has_merged mr [] s s2 ∧ snap_of (s_db s2) = m2 ∧ 
    good (s_db s2) m2 ∧ UpdateSnapshot (s_db s2) = (s_db s2, Ok tt) ∧
    single_session P s2 pass ∧ saveBlob P (y_env w 3) (y_ord w) (y_iv w) s2 = (s2, Ok (Some ct)) ∧
    ∀ sp rsalt r, ∃ s3, loadBlob P (Found (mk_slice ct sp)) None rsalt (ILine pass :: r) = UOk s3 r ∧ vis (db_log (s_db s3)) = m_log mr ∧ good (s_db s3) m2.
Proof. exact single_sync. Qed.
Print Assumptions C60_single_partial.

(** Two machines with the same passphrase and salt share one file: a sync brings the time-ordered union of both histories to the session and to the file, which opens with the passphrase.  Delete/edit conflicts are left out, see [C60_conflict_refuted]. *)
Theorem C60_shared_partial : ∀ P w name s sr inp m mr u url f sp e ord riv0 riv pass c m2 url2,
  prims_ok P → good (s_db s) m → well_named m → s_readOnly s = false → single_session P s pass →
  fair (y_env w 0) → fair_hosts w → y_iv w = Some riv → length riv = 40 →
  name ≠ "" → u ≠ "" → called m u name → at_file w m u url →
  good (s_db sr) mr → s_readOnly sr = false → single_session P sr pass → s_salt sr = s_salt s →
  length riv0 = 40 → saveBlob P e ord (Some riv0) sr = (sr, Ok (Some f)) → y_read w 0 url = Pulled (mk_slice f sp) →
  valid_log (vis (db_log (s_db s))) → valid_log (vis (db_log (s_db sr))) → compatible (vis (db_log (s_db s))) (vis (db_log (s_db sr))) →
  is_union (vis (db_log (s_db s))) (vis (db_log (s_db sr))) c → conflict_free c → same_root (vis (db_log (s_db s))) (vis (db_log (s_db sr))) →
  vis (db_log (s_db sr)) ≠ [] → ¬ alike (vis (db_log (s_db sr))) (vis (db_log (s_db s))) →
  replays c m2 → (Z.of_nat (length c) < 2 ^ 64)%Z → at_file w m2 u url2 →
  ∃ s' ct, sync P w name true s inp = (s', [mk_push u url2 ct (y_write w 0 url2 ct)], UOk tt inp) ∧
    has_merged (with_log (merge_start s) c) [] s s' ∧ good (s_db s') m2 ∧
    single_session P s' pass ∧ saveBlob P (y_env w 3) (y_ord w) (Some riv) s' = (s', Ok (Some ct)) ∧
    ∀ sp rsalt r, ∃ s3, loadBlob P (Found (mk_slice ct sp)) None rsalt (ILine pass :: r) = UOk s3 r ∧
      vis (db_log (s_db s3)) = c ∧ good (s_db s3) m2.
Proof. exact shared_sync. Qed.
Print Assumptions C60_shared_partial.

Example C60_shared_partial_ex : ∃ s' ct,
  sync toy (sy_world sy_files_c) "first" true (sy_session sy_log) [] = (s', [mk_push "s1" "file:///c" ct None], UOk tt []) ∧
  vis (db_log (s_db s')) = sy_log_c.
Proof. destruct moved_run as (s' & ct & E & H & _). exists s', ct. split; [exact E|exact H]. Qed.

(** The file has the same log: nothing is pushed and the session stays as it is. *)
Theorem C60_nothing_new : ∀ P w name s sr inp m mr u url f sp e ord riv0 riv pass,
  prims_ok P → good (s_db s) m → well_named m → s_readOnly s = false → single_session P s pass →
  fair (y_env w 0) → fair_hosts w → y_iv w = Some riv → length riv = 40 →
  name ≠ "" → u ≠ "" → called m u name → at_file w m u url →
  good (s_db sr) mr → s_readOnly sr = false → single_session P sr pass → s_salt sr = s_salt s →
  length riv0 = 40 → saveBlob P e ord (Some riv0) sr = (sr, Ok (Some f)) → y_read w 0 url = Pulled (mk_slice f sp) →
  alike (vis (db_log (s_db sr))) (vis (db_log (s_db s))) →
  ∃ s', sync P w name true s inp = (s', [], UOk tt inp) ∧ has_merged (merge_start s) [] s s' ∧ good (s_db s') m.
Proof. exact same_log_sync. Qed.
Print Assumptions C60_nothing_new.

Example C60_nothing_new_ex : ∃ s', sync toy (sy_world (λ _, Pulled (mk_slice (sy_file sy_log) []))) "first" true (sy_session sy_log) [] = (s', [], UOk tt []).
Proof.
  destruct (C60_nothing_new toy (sy_world (λ _, Pulled (mk_slice (sy_file sy_log) []))) "first" (sy_session sy_log) (sy_session sy_log) [] sy_m sy_m "s1" "file:///a" (sy_file sy_log) []
    se_env map_to_list se_iv se_iv se_pass) as (s' & E & _).
  all: lazymatch goal with
    | |- ex _ => idtac
    | |- saveBlob _ _ _ _ _ = _ => apply (sy_saved _ sy_m), sy_good_0
    | |- prims_ok _ => apply toy_ok
    | |- good _ _ => apply sy_good_0
    | |- well_named _ => apply sy_named
    | |- single_session _ _ _ => apply sy_single
    | |- fair _ => apply se_fair
    | |- fair_hosts _ => apply sy_fair_hosts
    | |- called _ _ _ => exists sy_b1; split; [apply sy_s1|done]
    | |- at_file _ _ _ _ => split; [exists sy_b1; split; [apply sy_s1|done]|done]
    | |- _ => done
    end.
  exists s'. exact E.
Qed.

(** Two machines sync with a shared file one after the other: both end with the same log, the union of their histories, and the same entries. *)
Theorem C60_both_agree_partial : ∀ P wa wb namea nameb a b inpa inpb ma mb ua ub urla urla2 urlb urlb2 f sp spb e ord riv0 riva rivb pass c m,
  prims_ok P →
  (* two sessions with the same passphrase and salt *)
  good (s_db a) ma → well_named ma → s_readOnly a = false → single_session P a pass →
  good (s_db b) mb → well_named mb → s_readOnly b = false → single_session P b pass → s_salt b = s_salt a →
  (* histories that belong together *)
  valid_log (vis (db_log (s_db a))) → valid_log (vis (db_log (s_db b))) → compatible (vis (db_log (s_db a))) (vis (db_log (s_db b))) →
  is_union (vis (db_log (s_db a))) (vis (db_log (s_db b))) c → conflict_free c → same_root (vis (db_log (s_db a))) (vis (db_log (s_db b))) →
  ¬ alike (vis (db_log (s_db b))) (vis (db_log (s_db a))) → valid_log c → replays c m → (Z.of_nat (length c) < 2 ^ 64)%Z →
  (* the worlds *)
  fair (y_env wa 0) → fair_hosts wa → y_iv wa = Some riva → length riva = 40 →
  fair (y_env wb 0) → fair_hosts wb → y_iv wb = Some rivb → length rivb = 40 →
  (* both have an entry for the file *)
  namea ≠ "" → ua ≠ "" → called ma ua namea → at_file wa ma ua urla → at_file wa m ua urla2 →
  nameb ≠ "" → ub ≠ "" → called mb ub nameb → at_file wb mb ub urlb → at_file wb m ub urlb2 →
  (* the file is the one [b] wrote, and [b] then finds what [a] wrote *)
  length riv0 = 40 → saveBlob P e ord (Some riv0) b = (b, Ok (Some f)) → y_read wa 0 urla = Pulled (mk_slice f sp) →
  (∀ ct, saveBlob P (y_env wa 3) (y_ord wa) (Some riva) (fst (fst (sync P wa namea true a inpa))) = (fst (fst (sync P wa namea true a inpa)), Ok (Some ct)) →
    y_read wb 0 urlb = Pulled (mk_slice ct spb)) →
  ∃ a' b' ct ps, sync P wa namea true a inpa = (a', [mk_push ua urla2 ct (y_write wa 0 urla2 ct)], UOk tt inpa) ∧
    sync P wb nameb true b inpb = (b', ps, UOk tt inpb) ∧
    vis (db_log (s_db a')) = c ∧ vis (db_log (s_db b')) = c ∧ good (s_db a') m ∧ good (s_db b') m ∧
    (ps = [] ∨ ∃ ct2, ps = [mk_push ub urlb2 ct2 (y_write wb 0 urlb2 ct2)]).
Proof. exact both_agree. Qed.
Print Assumptions C60_both_agree_partial.

Example C60_both_agree_partial_ex : ∃ a' b' ct ps, sync toy sy_wa "first" true (sy_session sy_log_p) [] = (a', [mk_push "s1" "file:///a" ct None], UOk tt []) ∧
  sync toy sy_wb "second" true (sy_session sy_log_q) [] = (b', ps, UOk tt []) ∧ vis (db_log (s_db a')) = sy_log_pq ∧ vis (db_log (s_db b')) = sy_log_pq.
Proof. exact agree_run. Qed.


(** ** C60: what does not hold *)

(** The remote's log moves its url: the file goes to a place that was never
    looked at, whatever is there is overwritten, and the file that was read does
    not get the merged log. *)
Theorem C60_moved_refuted : ∃ w s m b s' ct,
  holds (s_db s) m ∧ m !! "s1" = Some b ∧ b !! "url" = Some "file:///a" ∧ y_read w 0 "file:///c" = Pulled (mk_slice (str_bytes "precious") []) ∧
  sync toy w "first" true s [] = (s', [mk_push "s1" "file:///c" ct None], UOk tt []) ∧ vis (db_log (s_db s')) ≠ vis (db_log (s_db s)).
Proof.
  destruct moved_run as (s' & ct & E & Hv & Hv0 & Hb & Hu). exists (sy_world sy_files_c), (sy_session sy_log), sy_m, sy_b1, s', ct.
  split; [apply sy_good_0|]. split; [done|]. split; [done|]. split; [done|]. split; [exact E|]. rewrite Hv, Hv0. intros H. apply (f_equal length) in H. done.
Qed.
Print Assumptions C60_moved_refuted.

(** Two remotes, one as we left it, the other with something new: only the other
    one gets the merged log, though both could be opened. *)
Theorem C60_unchanged_refuted : ∃ w s s' ct,
  (∀ i, y_read w i "file:///a" = Pulled (mk_slice (sy_file sy_log) [])) ∧ (∀ i, y_read w i "file:///b" = Pulled (mk_slice (sy_file sy_log_p) [])) ∧
  about_remotes w "" sy_m (collectSyncs w sy_m) ∧ "s1" ∈ collectSyncs w sy_m ∧ sy_b1 !! "url" = Some "file:///a" ∧ vis (db_log (s_db s)) = sy_log ∧
  sync toy w "" true s [] = (s', [mk_push "s2" "file:///b" ct None], UOk tt []) ∧ vis (db_log (s_db s')) = sy_log_p ∧ sy_log_p ≠ sy_log.
Proof.
  destruct unchanged_run as (s' & ct & E & Hv). exists (sy_world sy_files_p), (sy_session sy_log), s', ct.
  split; [done|]. split; [done|]. split; [apply collect_about, se_fair|]. split.
  { destruct (sy_collect sy_files_p) as [H|H]; rewrite H; [left|right; left]. }
  split; [done|]. split; [done|]. split; [exact E|]. split; [exact Hv|]. intros H. apply (f_equal length) in H. done.
Qed.
Print Assumptions C60_unchanged_refuted.

(** Histories that differ in the middle look alike: neither is merged, neither
    side is told. *)
Theorem C60_alike_refuted : ∃ a b, alike a b ∧ valid_log a ∧ valid_log b ∧ compatible a b ∧ a ≠ b ∧ no_changes a b = Ok true.
Proof.
  set (a := [mk_tx 1 "add" "u" "" ""; mk_tx 2 "setk" "u" "pass" "x"; mk_tx 4 "setk" "u" "name" "n"]).
  set (b := [mk_tx 1 "add" "u" "" ""; mk_tx 3 "setk" "u" "pass" "y"; mk_tx 4 "setk" "u" "name" "n"]).
  exists a, b. split; [done|]. split; [by apply valid_b_ok; vm_compute|]. split; [by apply valid_b_ok; vm_compute|].
  split; [by apply compat_b_ok; vm_compute|]. split; [done|]. by vm_compute.
Qed.
Print Assumptions C60_alike_refuted.

(** Deleting an entry on one side and editing it on the other: no sync ever pushes again, whatever the user answers. *)
Theorem C60_conflict_refuted : ∀ P w name psh s inp m us rs inp1 p c d x,
  holds (s_db s) m →
  targets w name (s_db s) = (s_db (caught_up s), Ok (Some us)) → about_remotes w name m us →
  pulls P w (caught_up s) 0 us inp rs inp1 → opened_parts rs = [p] →
  valid_log (vis (db_log (s_db s))) → valid_log (b_log p) → compatible (vis (db_log (s_db s))) (b_log p) →
  no_impostor (vis (db_log (s_db s))) (b_log p) → is_union (vis (db_log (s_db s))) (b_log p) c → edit_after_delete c d x →
  ∃ r, sync P w name psh s inp = (caught_up s, [], r).
Proof. exact sync_stuck. Qed.
Print Assumptions C60_conflict_refuted.

Example C60_conflict_refuted_ex :
  let a := sy_log ++ [mk_tx 20 "del" "s2" "" ""] in let b := sy_log ++ [mk_tx 21 "setk" "s2" "user" "root"] in
  let c := sy_log ++ [mk_tx 20 "del" "s2" "" ""; mk_tx 21 "setk" "s2" "user" "root"] in
  valid_log a ∧ valid_log b ∧ compatible a b ∧ no_impostor a b ∧ is_union a b c ∧ edit_after_delete c (mk_tx 20 "del" "s2" "" "") (mk_tx 21 "setk" "s2" "user" "root").
Proof.
  cbv zeta. split; [by apply valid_b_ok; vm_compute|]. split; [by apply valid_b_ok; vm_compute|]. split; [by apply compat_b_ok; vm_compute|].
  split; [intros (_ & _ & (x & y & Hx & Hy & He)); injection Hx as <-; injection Hy as <-; done|]. split; [by apply union_b_ok; vm_compute|].
  assert (∀ (P : tx → Prop) l, Forall P l → ∀ x, x ∈ l → P x) as HF by (intros P l H; by apply Forall_forall).
  split; [split; [set_solver|split; [done|]]|split; [set_solver|split; [done|split; [done|]]]].
  - apply (HF (λ d', tx_kind d' = "del" → tx_uuid d' = tx_uuid (mk_tx 20 "del" "s2" "" "") → (20 ≤ tx_time d')%Z)).
    repeat (constructor; [done|]). constructor.
  - apply (HF (λ y, tx_uuid y = "s2" → (20 < tx_time y)%Z → (21 ≤ tx_time y)%Z)). 
    repeat (constructor; [done|]). constructor.
Qed.


(** The named entry's file is shorter than eight bytes, its url is not a url, or
    has another scheme: the program crashes.  For all sessions. *)
Theorem C60_short_refuted : ∀ P w name psh s inp m u url f n,
  holds (s_db s) m → well_named m → fair (y_env w 0) → name ≠ "" → u ≠ "" → called m u name → at_file w m u url →
  y_read w 0 url = Pulled (mk_slice f (zeroes n)) → length f < 8 → sync P w name psh s inp = (caught_up s, [], UPanic).
Proof.
  intros P w name psh s inp m u url f n Hh Hw Hf Hn Hu Hc ((b & Hb & Hurl) & Hs) Hr Hl. apply (sync_crash _ _ _ _ _ _ u []).
  - by rewrite (targets_named w name (s_db s) m u) by done.
  - apply (pull_short _ _ _ _ _ _ f n); [| |done]; rewrite (entry_caught_up s m u b) by done; unfold key_of_entry; change KeyURL with "url"; by rewrite Hurl.
Qed.
Print Assumptions C60_short_refuted.
Example C60_short_refuted_ex : sync toy (sy_world (λ _, Pulled (mk_slice (str_bytes "hello") []))) "first" true (sy_session sy_log) [] = (caught_up (sy_session sy_log), [], UPanic).
Proof.
  apply (C60_short_refuted _ _ _ _ _ _ sy_m "s1" "file:///a" (str_bytes "hello") 0); try done; try apply sy_good_0; try apply sy_named; try apply se_fair; try (cbn; lia).
  - exists sy_b1. split; [apply sy_s1|done].
  - split; [|done]. exists sy_b1. split; [apply sy_s1|done].
Qed.
Theorem C60_url_refuted : ∀ P w name psh s inp m u b,
  holds (s_db s) m → well_named m → fair (y_env w 0) → name ≠ "" → u ≠ "" → called m u name → m !! u = Some b →
  y_scheme w (default "" (b !! "url")) = None → sync P w name psh s inp = (caught_up s, [], UPanic).
Proof.
  intros P w name psh s inp m u b Hh Hw Hf Hn Hu Hc Hb Hs. apply (sync_crash _ _ _ _ _ _ u []).
  - by rewrite (targets_named w name (s_db s) m u) by done.
  - apply pull_url. by rewrite (entry_caught_up s m u b) by done.
Qed.
Print Assumptions C60_url_refuted.
Theorem C60_scheme_refuted : ∀ P w name psh s inp m u b sch,
  holds (s_db s) m → well_named m → fair (y_env w 0) → name ≠ "" → u ≠ "" → called m u name → m !! u = Some b →
  y_scheme w (default "" (b !! "url")) = Some sch → sch ≠ "scp" → sch ≠ "file" → sync P w name psh s inp = (caught_up s, [], UPanic).
Proof.
  intros P w name psh s inp m u b sch Hh Hw Hf Hn Hu Hc Hb Hs H1 H2. apply (sync_crash _ _ _ _ _ _ u []).
  - by rewrite (targets_named w name (s_db s) m u) by done.
  - apply (pull_other _ _ _ _ _ _ sch); [|done|done]. by rewrite (entry_caught_up s m u b) by done.
Qed.
Print Assumptions C60_scheme_refuted.
Example C60_scheme_refuted_ex :
  let w := mk_sync_world (λ _, se_env) (λ _, Some "https") (λ _ _ _, UWait) (λ _ _, NotFound) (λ _ _ _ _, UWait) (λ _ _ _, None) (λ _, map_to_list) map_to_list (Some se_iv) in
  sync toy w "first" true (sy_session sy_log) [] = (caught_up (sy_session sy_log), [], UPanic).
Proof.
  cbv zeta. apply (C60_scheme_refuted _ _ _ _ _ _ sy_m "s1" sy_b1 "https"); try done; try apply sy_good_0; try apply sy_named; try apply se_fair.
  exists sy_b1. split; [apply sy_s1|done].
Qed.

(** A remote without transactions and with another key crashes the merge. *)
Theorem C60_empty_remote_refuted : ∀ e s p l inp key,
  s_master s = [] → single_part key p → key ≠ s_key s → b_log p = [] → mergeBlobs e s (p :: l) inp = UPanic.
Proof. exact key_empty. Qed.
Print Assumptions C60_empty_remote_refuted.

Example C60_empty_remote_refuted_ex : mergeBlobs se_env (sy_key "k0") [sy_part "k1" None []] [] = UPanic.
Proof. apply (C60_empty_remote_refuted _ _ _ _ _ (str_bytes "k1")); [done|by split|done|done]. Qed.

(** With more than one remote it is not the latest log that decides: the first
    remote's key replaces ours, and ours does not come back with the second remote,
    which has it and whose log ends last. *)
Theorem C60_latest_refuted : ∃ mr, 
  mergeBlobs se_env (sy_key "k0") [sy_part "k1" None sy_late1; sy_part "k0" None sy_late2] [] = UOk mr [] ∧
  (∃ t1 t2, tx_time <$> last sy_late1 = Some t1 ∧ tx_time <$> last sy_late2 = Some t2 ∧ (t1 < t2)%Z) ∧ m_key mr = str_bytes "k1".
Proof.
  destruct latest_run as (mr & E & Hk & _). exists mr. split; [done|]. split; [|done]. by exists 20%Z, 30%Z.
Qed.
Print Assumptions C60_latest_refuted.

(** With two remotes the mode can be the wrong one: the merged log has a user, and
    the credentials kept have no master key. *)
Theorem C60_mode_refuted : ∃ mr m,
  mergeBlobs se_env (sy_key "k0") [sy_part "alice" (Some (str_bytes "m")) sy_users; sy_part "k2" None sy_late2] [] = UOk mr [] ∧
  m_master mr = [] ∧ replays (m_log mr) m ∧ is_user m "alice".
Proof. exact mode_run. Qed.
Print Assumptions C60_mode_refuted.

(** ** C61: all or nothing *)

(** In every run, however it ends: either the logs of all remotes that could be opened were merged, or nothing was pushed and the session is as before, only its snapshot is up to date. *)
Theorem C61_all_or_nothing : ∀ P w name psh s inp s' ps r m,
  holds (s_db s) m → all_named m → fair (y_env w 0) →
  sync P w name psh s inp = (s', ps, r) →
  (ps = [] ∧ same_session s s' ∧ holds (s_db s') m) ∨
  ∃ us rs inp1 mr inp2, about_remotes w name m us ∧ pulls P w (caught_up s) 0 us inp rs inp1 ∧
    mergeBlobs (y_env w 4) (caught_up s) (opened_parts rs) inp1 = UOk mr inp2.
Proof. exact sync_or_nothing. Qed.
Print Assumptions C61_all_or_nothing.

Example C61_all_or_nothing_ex : mergeBlobs se_env (sy_session sy_log) [mk_part "" se_pass (single_params (key_of toy (str_bytes se_pass) se_salt) se_salt se_iv) sy_other] [ILine "no"] = UErr (EMsg "sync target was a total fork") [].
Proof. exact fork_run. Qed.

(** Merging fails or is refused: the command ends, nothing is pushed. *)
Theorem C61_aborted : ∀ P w name psh s inp m us rs inp1 e rest,
  holds (s_db s) m →
  targets w name (s_db s) = (s_db (caught_up s), Ok (Some us)) → about_remotes w name m us →
  pulls P w (caught_up s) 0 us inp rs inp1 →
  mergeBlobs (y_env w 4) (caught_up s) (opened_parts rs) inp1 = UErr e rest →
  sync P w name psh s inp = (caught_up s, [], UOk tt rest).
Proof. exact sync_aborted. Qed.
Print Assumptions C61_aborted.

Example C61_aborted_ex : sync toy (sy_world (λ _, Pulled (mk_slice (sy_file sy_other) []))) "first" true (sy_session sy_log) [ILine "no"] =
  (caught_up (sy_session sy_log), [], UOk tt []).
Proof. exact refused_run. Qed.

(** ... and the same if merging crashes or waits for an answer. *)
Theorem C61_no_merge : ∀ P w name psh s inp m us rs inp1,
  holds (s_db s) m →
  targets w name (s_db s) = (s_db (caught_up s), Ok (Some us)) → about_remotes w name m us →
  pulls P w (caught_up s) 0 us inp rs inp1 →
  (∀ mr rest, mergeBlobs (y_env w 4) (caught_up s) (opened_parts rs) inp1 ≠ UOk mr rest) →
  ∃ r, sync P w name psh s inp = (caught_up s, [], r).
Proof. exact sync_no_merge. Qed.
Print Assumptions C61_no_merge.

(** Bringing the snapshot up to date changes neither log nor credentials. *)
Theorem C61_same : ∀ s,
  same_session s (caught_up s).
Proof. exact caught_up_same. Qed.
Print Assumptions C61_same.
