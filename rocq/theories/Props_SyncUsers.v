(** C60 and C84 for stores with several users: syncing two machines of the same users, and
    whole sessions with syncing in them.  Continues Props_Sync and Props_Syncing. *)
From Verif Require Import Proof_TxLog Proof_Blobs Proof_Utf8 Proof_SessionEx Proof_Session3 Proof_Repl5 Proof_Repl6 Proof_Repl7 Proof_Text3 Proof_Main Proof_Sync5 Proof_Merge4 Proof_Runs Proof_Multi Props_Text Proof_Syncing5 Spec_SyncUsers Proof_SyncUsers Proof_SyncUsers2 Proof_SyncUsers3.
From Coq Require Import Lia.
From stdpp Require Import options.
Import Model_GoStr Proof_Utf8.
#[local] Open Scope nat_scope.

(** ** One sync *)

(** A file saved in a session with several users can be pulled by each of them: whatever
    salt the session doing so has, the passphrase it was opened with is enough, and what
    comes out is the history that was saved and the common master key. *)
Theorem C60_users_opened : ∀ P sr mr e ord riv sa f sp x pass salt, prims_ok P → serves P sr mr → s_readOnly sr = false → fair e → fair_results ord →
  (∀ b, riv = Some b → length b = 40) → saveBlob P e ord riv sr = (sa, Ok (Some f)) → unlocks P mr (s_master sr) x pass →
  ∃ params pt log, (∀ inp, decryptBlob P (key_of P (str_bytes pass) salt) salt (mk_slice f sp) x pass inp = UOk (Some (params, x, pass, pt)) inp) ∧
    Master params = Some (s_master sr) ∧ NewLog pt = Ok log ∧ vis log = vis (db_log (s_db sr)).
Proof.
  intros P sr mr e ord riv sa f sp x pass salt HP Hs Hro He Ho Hr Es Hu.
  destruct (users_opened P sr mr e ord riv sa f sp x pass _ salt HP Hs Hro He Ho Hr Es Hu eq_refl) as (params & pt & log & D & H1 & _ & H2 & H3).
  exists params, pt, log. split; [|done]. intros inp. destruct inp as [|i inp]; cbn [decryptBlob]; rewrite D; reflexivity.
Qed.
Print Assumptions C60_users_opened.

(** Merging files with the session's own master key leaves its user, passphrase and keys as
    they are, however often the users' own keys were changed elsewhere. *)
Theorem C60_users_keys : ∀ e s l inp mr rest, s_master s ≠ [] → (∀ p, p ∈ l → Master (b_params p) = Some (s_master s)) →
  mergeBlobs e s l inp = UOk mr rest → creds_of_session s mr.
Proof. intros e s l inp mr rest Hm Hl. apply merge_same_master; [done|]. by apply Forall_forall. Qed.
Print Assumptions C60_users_keys.

(** Two machines of the same users share a file: one sync brings the union of both histories
    to this session and to the file, and the file then opens for every user of the union.
    Partial like [C60_shared_partial]: the histories do not conflict, the url is a file, and
    the merged store must be one with distinct names and a sound table of users. *)
Theorem C60_users_shared_partial : ∀ P w name s sr sa inp m mr u url f sp e ord riv0 x pass c m2 url2,
  prims_ok P → serves P s m → s_readOnly s = false → s_user s = x → s_pass s = pass → s_key s = key_of P (str_bytes pass) (s_salt s) →
  fair (y_env w 0) → fair (y_env w 3) → fair_results (y_ord w) → fair_hosts w → (∀ b, y_iv w = Some b → length b = 40) →
  name ≠ "" → u ≠ "" → called m u name → at_file w m u url →
  serves P sr mr → s_readOnly sr = false → s_master sr = s_master s → unlocks P mr (s_master s) x pass → fair e → fair_results ord →
  (∀ b, riv0 = Some b → length b = 40) → saveBlob P e ord riv0 sr = (sa, Ok (Some f)) → y_read w 0 url = Pulled (mk_slice f sp) →
  valid_log (vis (db_log (s_db s))) → valid_log (vis (db_log (s_db sr))) → compatible (vis (db_log (s_db s))) (vis (db_log (s_db sr))) →
  is_union (vis (db_log (s_db s))) (vis (db_log (s_db sr))) c → conflict_free c → same_root (vis (db_log (s_db s))) (vis (db_log (s_db sr))) →
  vis (db_log (s_db sr)) ≠ [] → ¬ alike (vis (db_log (s_db sr))) (vis (db_log (s_db s))) →
  replays c m2 → (Z.of_nat (length c) < 2 ^ 64)%Z → at_file w m2 u url2 → well_named m2 → table_ok P m2 → unlocks P m2 (s_master s) x pass →
  ∃ s' ct, sync P w name true s inp = (s', [mk_push u url2 ct (y_write w 0 url2 ct)], UOk tt inp) ∧
    has_merged (with_log (merge_start s) c) [] s s' ∧ serves P s' m2 ∧ saveBlob P (y_env w 3) (y_ord w) (y_iv w) s' = (s', Ok (Some ct)) ∧
    ∀ z pw, unlocks P m2 (s_master s) z pw → ∀ sp rsalt r, ∃ s3, loadBlob P (Found (mk_slice ct sp)) None rsalt (ILine z :: ILine pw :: r) = UOk s3 r ∧
      vis (db_log (s_db s3)) = c ∧ serves P s3 m2 ∧ s_master s3 = s_master s ∧ s_user s3 = z.
Proof. exact shared_users. Qed.
Print Assumptions C60_users_shared_partial.

(** Alice's machines: one has added an entry called mail, the other, from which the file
    comes, one called bank.  Bob can open what is pushed, too. *)
Example C60_users_example : ∀ inp, ∃ s' ct, sync clear cu_sync "first" true (cu_session cu_a) inp = (s', [mk_push "s1" "file:///a" ct None], UOk tt inp) ∧
  vis (db_log (s_db s')) = cu_c ∧ serves clear s' cu_mc ∧ s_master s' = se_master ∧ s_readOnly s' = false ∧
  ∀ z pw, (z, pw) ∈ [("alice", se_pass); ("bob", se_pass2)] → ∀ sp rsalt r, ∃ s3, loadBlob clear (Found (mk_slice ct sp)) None rsalt (ILine z :: ILine pw :: r) = UOk s3 r ∧
    vis (db_log (s_db s3)) = cu_c ∧ s_user s3 = z.
Proof. exact cu_run. Qed.

(** ** Sessions with syncing in them *)

(** A sync with copies of the same store, opened with the same master key, leaves the keys,
    the user and their passphrase alone. *)
Theorem C84_users_keys : ∀ P y name s inp s' rest m M I K, holds (s_db s) m → fair (y_env y 0) → remotes_share P y M → M ≠ [] →
  holds_keys M I K s → sync_cmd P y name s inp = (s', UOk tt rest) → holds_keys M I K s' ∧ s_user s' = s_user s ∧ s_pass s' = s_pass s ∧ s_salt s' = s_salt s.
Proof. exact sync_keys. Qed.
Print Assumptions C84_users_keys.

(** A session of several users that ends without an error has the same keys at its end, and
    a history that can be replayed.  If names are still distinct and the table of users is
    sound, a file is written that opens, with exactly that store, for every user who is in
    the table then.  What is missing for all sessions: the commands that change keys or users,
    and remotes with another master key; and names need not stay distinct
    ([C84_names_refuted]). *)
Theorem C84_users_saved_partial : ∀ P (U R : string → Prop) w w0 w1 y y0 y1 b e ord riv s m0 inp s' out rest,
  (∀ n k, w_sync (w n) k = sync_cmd P (y n) k) → (∀ k, w_sync w0 k = sync_cmd P y0 k) → (∀ k, w_sync w1 k = sync_cmd P y1 k) →
  (∀ n, tame_users P R (s_master s) (y n)) → tame_users P R (s_master s) y0 → tame_users P R (s_master s) y1 → (∀ u, R u → U u) →
  (∀ n, tame U (w n)) → (∀ i j, drawn (w i) = drawn (w j) → i = j) → (∀ n, text_world (w n)) →
  prims_ok P → length riv = 40 → fair e → fair_results ord →
  serves P s m0 → (∀ t, t ∈ vis (db_log (s_db s)) → U (tx_uuid t)) → s_readOnly s = false →
  (∀ cmd, cmd ∈ changing_words → cmd ≠ "sync" → never_typed cmd inp) → typed_text inp →
  session_main P b w0 w1 w e ord (Some riv) s inp = (s', UOk out rest) →
  ∃ s3 m3, saveBlob P e ord (Some riv) s3 = (s', Ok out) ∧ holds (s_db s3) m3 ∧ holds_keys (s_master s) (s_ivm s) (s_key s) s3 ∧
    (∃ k, ∀ t, t ∈ vis (db_log (s_db s3)) → upto U w k (tx_uuid t)) ∧
    ((Z.of_nat (length (vis (db_log (s_db s3)))) < 2 ^ 64)%Z → well_named m3 → table_ok P m3 → serves P s3 m3 ∧
     ∀ x pass, unlocks P m3 (s_master s) x pass → ∃ f, out = Some f ∧
     ∀ sp rsalt r, ∃ s2, loadBlob P (Found (mk_slice f sp)) None rsalt (ILine x :: ILine pass :: r) = UOk s2 r ∧ same_store (s_db s3) (s_db s2) ∧ serves P s2 m3 ∧
       s_master s2 = s_master s ∧ s_user s2 = x).
Proof.
  intros P U R w w0 w1 y y0 y1 b e ord riv s m0 inp s' out rest Hs Hs0 Hs1 Hy Hy0 Hy1 HRU Ht Hd Hw HP Hl He Ho (Hg & Hwn & Lm & Li & Lk & _) HU Hro Hsp Hi E.
  apply (main_users P U R (s_master s) (s_ivm s) (s_key s) w w0 w1 y y0 y1) with (b := b) (s := s) (inp := inp) (rest := rest); try done.
  - intros H. by rewrite H in Lm.
  - split; [split; [apply Hg|]; split; [exists m0; apply Hg|done]|]. split; [done|]. split; [done|]. split; [by eapply good_clean|done].
Qed.
Print Assumptions C84_users_saved_partial.

(** If such a session ends with an error, it is from one of the syncs, from a command, or
    from writing the file, and the last one only if by then there are entries of the same
    name, an unsound table of users, or nobody who could log in. *)
Theorem C84_users_failed_partial : ∀ P (U R : string → Prop) w w0 w1 y y0 y1 b e ord riv s m0 inp s' x rest,
  (∀ n k, w_sync (w n) k = sync_cmd P (y n) k) → (∀ k, w_sync w0 k = sync_cmd P y0 k) → (∀ k, w_sync w1 k = sync_cmd P y1 k) →
  (∀ n, tame_users P R (s_master s) (y n)) → tame_users P R (s_master s) y0 → tame_users P R (s_master s) y1 → (∀ u, R u → U u) →
  (∀ n, tame U (w n)) → (∀ i j, drawn (w i) = drawn (w j) → i = j) → (∀ n, text_world (w n)) →
  prims_ok P → length riv = 40 → fair e → fair_results ord →
  serves P s m0 → (∀ t, t ∈ vis (db_log (s_db s)) → U (tx_uuid t)) → s_readOnly s = false →
  (∀ cmd, cmd ∈ changing_words → cmd ≠ "sync" → never_typed cmd inp) → typed_text inp →
  session_main P b w0 w1 w e ord (Some riv) s inp = (s', UErr x rest) →
  auto_sync b w0 s inp = (s', UErr x rest) ∨ ∃ s1 inp1, auto_sync b w0 s inp = (s1, UOk tt inp1) ∧
    ((∃ o, run_repl w s1 inp1 = (s', o, UErr x rest)) ∨
     ∃ s2 o inp2, run_repl w s1 inp1 = (s2, o, UOk tt inp2) ∧
       (auto_sync true w1 s2 inp2 = (s', UErr x rest) ∨
        ∃ s3 m3, holds (s_db s3) m3 ∧ holds_keys (s_master s) (s_ivm s) (s_key s) s3 ∧ saveBlob P e ord (Some riv) s3 = (s', Fail x) ∧
          ¬ ((Z.of_nat (length (vis (db_log (s_db s3)))) < 2 ^ 64)%Z ∧ well_named m3 ∧ table_ok P m3 ∧ ∃ z pw, unlocks P m3 (s_master s) z pw))).
Proof.
  intros P U R w w0 w1 y y0 y1 b e ord riv s m0 inp s' x rest Hs Hs0 Hs1 Hy Hy0 Hy1 HRU Ht Hd Hw HP Hl He Ho (Hg & Hwn & Lm & Li & Lk & _) HU Hro Hsp Hi E.
  apply (main_users_failed P U R (s_master s) (s_ivm s) (s_key s) w w0 w1 y y0 y1); try done.
  - intros H. by rewrite H in Lm.
  - split; [split; [apply Hg|]; split; [exists m0; apply Hg|done]|]. split; [done|]. split; [done|]. split; [by eapply good_clean|done].
Qed.
Print Assumptions C84_users_failed_partial.

(** Alice types "sync first". *)
Definition cu_w (n : nat) : world := let w := tw n in {|
  w_P := clear; w_env := w_env w; w_rand := w_rand w; w_lower := w_lower w; w_upper := w_upper w; w_url := w_url w; w_coerce := w_coerce w; w_uri_ok := w_uri_ok w;
  w_totp := w_totp w; w_time := w_time w; w_keys := w_keys w; w_editor := w_editor w; w_abs := w_abs w; w_file_url := w_file_url w; w_scp_url := w_scp_url w;
  w_sshkey := w_sshkey w; w_sync := sync_cmd clear cu_sync |}.
Definition cu_typed : list input := [ILine "sync first"; IErr EEnd].
#[local] Opaque saveBlob cu_file key_of.
Example C84_users_example :
  (∀ n k, w_sync (cu_w n) k = sync_cmd clear cu_sync k) ∧ tame_users clear cu_U se_master cu_sync ∧ (∀ n, tame cu_U (cu_w n)) ∧
  (∀ i j, drawn (cu_w i) = drawn (cu_w j) → i = j) ∧ (∀ n, text_world (cu_w n)) ∧
  serves clear (cu_session cu_a) cu_ma ∧ (∀ t, t ∈ cu_a → cu_U (tx_uuid t)) ∧
  (∀ cmd, cmd ∈ changing_words → cmd ≠ "sync" → never_typed cmd cu_typed) ∧ typed_text cu_typed ∧
  ∃ s' f, session_main clear false (cu_w 0) (cu_w 1) cu_w se_env map_to_list (Some se_iv) (cu_session cu_a) cu_typed = (s', UOk (Some f) []) ∧
    ∀ x pass, (x, pass) ∈ [("alice", se_pass); ("bob", se_pass2)] →
    ∀ sp rsalt r, ∃ s2, loadBlob clear (Found (mk_slice f sp)) None rsalt (ILine x :: ILine pass :: r) = UOk s2 r ∧ vis (db_log (s_db s2)) = cu_c ∧ s_user s2 = x.
Proof.
  split; [done|]. split; [apply cu_tame|].
  split; [intros n; split; [intros i j m; reflexivity|]; split; [exact se_ord|]; unfold cu_U; cbn; intros H; repeat (apply elem_of_cons in H as [H|H]; [discriminate H|]); by apply elem_of_nil in H|].
  split; [intros i j E; unfold drawn in E; cbn in E; injection E as E; apply (f_equal String.length) in E; by rewrite !ones_length in E|].
  split; [intros n; exact (tw_text n)|]. split; [apply cu_serves_a|]. split; [apply cu_within; compute_dec|].
  assert (∀ line, ILine line ∈ cu_typed → line = "sync first") as Hl.
  { intros line H. apply elem_of_cons in H as [[= ->]|H]; [done|]. apply elem_of_cons in H as [H|H]; [discriminate H|]. by apply elem_of_nil in H. }
  split; [|split].
  - intros cmd _ Hc line ->%Hl H. vm_compute in H. congruence.
  - intros line ->%Hl. utf8_lit.
  - destruct (cu_run [IErr EEnd]) as (s' & ct & E & Hv & Hsv & Hma & Hro & _).
    assert (unlocks clear cu_mc (s_master s') "alice" se_pass) as Hal by (rewrite Hma; eapply same_unlocks; [apply cu_same_c|apply cu_alice]).
    destruct (multi_saves clear s' cu_mc se_env map_to_list (Some se_iv) "alice" se_pass clear_ok Hsv se_fair se_ord Hro cu_iv Hal) as (sa & f & Ef).
    exists sa, f. split.
    + unfold session_main, auto_sync, mbind, C_bind, state. rewrite !andb_false_r. unfold mret, C_ret.
      assert (run_repl cu_w (cu_session cu_a) cu_typed = (s', [], UOk tt [])) as Hrun.
      { with_strategy transparent [run_repl] unfold run_repl. unfold cu_typed. cbn [length].
        rewrite (loop_step _ cu_w 0 "" [] (cu_session cu_a) _ _ (KSync "first") s' "" [] [IErr EEnd]).
        - cbn [run_loop app]. exact eq_refl.
        - change (s_readOnly (cu_session cu_a)) with false. vm_compute. reflexivity.
        - discriminate.
        - cbn [exec]. unfold silent, mbind, C_bind. change (w_sync (cu_w 0) "first") with (sync_cmd clear cu_sync "first"). unfold sync_cmd. rewrite E. reflexivity. }
      rewrite Hrun. cbn [negb andb]. rewrite !andb_false_r. cbv iota. rewrite Ef. reflexivity.
    + intros x pass Hx sp rsalt r. destruct (multi_saved clear s' cu_mc se_env map_to_list (Some se_iv) sa f clear_ok Hsv se_fair se_ord Hro cu_iv Ef x pass) with (sp := sp) (rsalt := rsalt) (r := r) as (s2 & H1 & (H2 & _) & _ & _ & _ & _ & H3).
      { rewrite Hma. eapply same_unlocks; [apply cu_same_c|]. apply elem_of_cons in Hx as [[= -> ->]|[[= -> ->]|Hx%elem_of_nil]%elem_of_cons]; [apply cu_alice|apply cu_bob|destruct Hx]. }
      exists s2. split; [exact H1|]. split; [by rewrite H2|exact H3].
Qed.

(** Alice syncs and presses Ctrl-C: what was pulled is in the session, and never written. *)
Example C84_users_failed_example : ∃ s', session_main clear false (cu_w 0) (cu_w 1) cu_w se_env map_to_list (Some se_iv) (cu_session cu_a) [ILine "sync first"; IErr EInterrupt] = (s', UErr EInterrupt []) ∧
  vis (db_log (s_db s')) = cu_c ∧ (∀ cmd, cmd ∈ changing_words → cmd ≠ "sync" → never_typed cmd [ILine "sync first"; IErr EInterrupt]) ∧ typed_text [ILine "sync first"; IErr EInterrupt].
Proof.
  assert (∀ line, ILine line ∈ [ILine "sync first"; IErr EInterrupt] → line = "sync first") as Hl.
  { intros line H. apply elem_of_cons in H as [[= ->]|H]; [done|]. apply elem_of_cons in H as [H|H]; [discriminate H|]. by apply elem_of_nil in H. }
  destruct (cu_run [IErr EInterrupt]) as (s' & ct & E & Hv & _). exists s'.
  assert (run_repl cu_w (cu_session cu_a) [ILine "sync first"; IErr EInterrupt] = (s', [], UErr EInterrupt [])) as Hrun.
  { with_strategy transparent [run_repl] unfold run_repl. cbn [length].
    rewrite (loop_step _ cu_w 0 "" [] (cu_session cu_a) _ _ (KSync "first") s' "" [] [IErr EInterrupt]).
    - cbn [run_loop app]. exact eq_refl.
    - change (s_readOnly (cu_session cu_a)) with false. vm_compute. reflexivity.
    - discriminate.
    - cbn [exec]. unfold silent, mbind, C_bind. change (w_sync (cu_w 0) "first") with (sync_cmd clear cu_sync "first"). unfold sync_cmd. rewrite E. reflexivity. }
  split; [|split; [exact Hv|split]].
  - exact (main_err clear (cu_w 0) (cu_w 1) cu_w se_env map_to_list (Some se_iv) (cu_session cu_a) [ILine "sync first"; IErr EInterrupt] s' [] EInterrupt [] Hrun).
  - intros cmd _ Hc line ->%Hl H. vm_compute in H. congruence.
  - intros line ->%Hl. utf8_lit.
Qed.
