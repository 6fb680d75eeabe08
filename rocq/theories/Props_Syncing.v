(** C84: sessions with syncing in them.  Continues C79 and C80. *)
From Verif Require Import Proof_TxLog Proof_Blobs Proof_Session Proof_Session3 Proof_Session5 Proof_Session6 Proof_SessionEx Proof_Repl6 Proof_Repl7 Proof_Main Proof_Text3 Proof_Sync5 Spec_Syncing.
From Verif Require Import Proof_Syncing Proof_Syncing2 Proof_Syncing3 Proof_Syncing4 Proof_Syncing5 Props_Text.
From Coq Require Import Lia.
From stdpp Require Import options.
Import Model_GoStr.
#[local] Open Scope nat_scope.
#[local] Opaque saveBlob cs_file key_of.

(** The worlds of a concrete session that syncs *)
Definition cs_w (n : nat) : world := let w := tw n in {|
  w_P := clear; w_env := w_env w; w_rand := w_rand w; w_lower := w_lower w; w_upper := w_upper w; w_url := w_url w; w_coerce := w_coerce w; w_uri_ok := w_uri_ok w;
  w_totp := w_totp w; w_time := w_time w; w_keys := w_keys w; w_editor := w_editor w; w_abs := w_abs w; w_file_url := w_file_url w; w_scp_url := w_scp_url w;
  w_sshkey := w_sshkey w; w_sync := sync_cmd clear cs_sync |}.
Definition cs_typed : list input := [ILine "sync first"; IErr EEnd].

(** ** The order of the input *)

(** A sync asks in order if the servers do, and over ssh they do: the only question is
    whether a new host is to be trusted. *)
Theorem C84_reads : ∀ P y name, ssh_in_order y → reads (sync_cmd P y name).
Proof. exact reads_sync. Qed.
Print Assumptions C84_reads.
Theorem C84_ssh_order : ∀ h y, ssh_in_order (over_ssh h y).
Proof. exact over_ssh_in_order. Qed.
Print Assumptions C84_ssh_order.

(** So the loop does exactly its turns also when it syncs, without any assumption. *)
Theorem C84_turns : ∀ P (h : nat → ssh_world) (y : nat → sync_world) (w : nat → world) s inp s' o r,
  (∀ n k, w_sync (w n) k = sync_cmd P (over_ssh (h n) (y n)) k) →
  (run_repl w s inp = (s', o, r) ↔ turns w 0 "" s inp o s' r) ∧ (run_repl w s inp = (s', o, r) → in_order r inp).
Proof.
  intros P h y w s inp s' o r Hw. assert (∀ n k, reads (w_sync (w n) k)) as Hr by (intros n k; rewrite Hw; apply reads_sync, over_ssh_in_order).
  split; [by apply repl_turns|]. intros H. apply repl_turns in H; [|done]. by eapply turns_reads.
Qed.
Print Assumptions C84_turns.
Example C84_turns_example : ∃ (h : nat → ssh_world) (w : nat → world), ∀ n k, w_sync (w n) k = sync_cmd toy (over_ssh (h n) cs_sync) k.
Proof. set (h := mk_ssh_world (λ _, None) id (λ _ _ _, NoDial EEnd)). by exists (λ _, h), (λ n, with_sync (over_ssh h cs_sync) (tw n)). Qed.

(** ** What a sync leaves *)

(** Every transaction in the log after a sync was there before, is from a remote file, or
    remembers a host for an entry that there was. *)
Theorem C84_origin : ∀ P y name s inp s' rest m, holds (s_db s) m → fair (y_env y 0) → fair_hosts y → sync_cmd P y name s inp = (s', UOk tt rest) →
  ∀ t, t ∈ vis (db_log (s_db s')) → t ∈ vis (db_log (s_db s)) ∨ (∃ log, remote_log P y log ∧ t ∈ log) ∨
    (tx_kind t = "setk" ∧ tx_key t = "knownhosts" ∧ is_Some (m !! tx_uuid t)).
Proof. exact sync_origin. Qed.
Print Assumptions C84_origin.

(** The history can be replayed afterwards and no transaction is open. *)
Theorem C84_settled : ∀ P y name s inp s' rest (U R : string → Prop), fair (y_env y 0) → fair_hosts y → remotes_within P y R →
  settled U s → sync_cmd P y name s inp = (s', UOk tt rest) → settled (λ u, U u ∨ R u) s'.
Proof. exact sync_steady. Qed.
Print Assumptions C84_settled.

(** A store of text stays one: what is read from a remote file is UTF-8 whatever its
    bytes are. *)
Theorem C84_text : ∀ P y name s inp s' rest m, holds (s_db s) m → fair (y_env y 0) → fair_hosts y → text_sync y →
  db_txpoint (s_db s) = 0 → clean (s_db s) → typed_text inp → sync_cmd P y name s inp = (s', UOk tt rest) → clean (s_db s').
Proof. exact sync_text. Qed.
Print Assumptions C84_text.
Theorem C84_ssh_text : ∀ h y, (∀ k, clock_ok (y_env y k)) → text_hosts h → text_sync (over_ssh h y).
Proof. exact over_ssh_text. Qed.
Print Assumptions C84_ssh_text.

(** A single-user session stays one, and its password is the one it had or one that was
    typed. *)
Theorem C84_key_partial : ∀ P (Q : string → Prop) y name s inp s' rest m pass, holds (s_db s) m → fair (y_env y 0) → fair_hosts y → ssh_in_order y → remotes_single P y →
  s_readOnly s = false → single_session P s pass → Q pass → (s_pass s = "" ∨ Q (s_pass s)) → (∀ p, ILine p ∈ inp → Q p) →
  sync_cmd P y name s inp = (s', UOk tt rest) →
  s_readOnly s' = false ∧ (s_pass s' = "" ∨ Q (s_pass s')) ∧ ∃ pass', Q pass' ∧ single_session P s' pass'.
Proof.
  intros P Q y name s inp s' rest m pass Hh Hf Hfh Hy Hsi Hro Hss Hq Hsp Hp E.
  destruct (sync_JQ P Q y name s inp s' rest m Hh Hf Hfh Hy Hsi Hp) as [[H1 H2] H3]; [|exact E|done]. split; [done|]. by exists pass.
Qed.
Print Assumptions C84_key_partial.

Example C84_example : tame_sync clear cs_U cs_sync ∧ settled cs_U (cs_session cs_a) ∧ clean (s_db (cs_session cs_a)) ∧
  ∃ s', sync_cmd clear cs_sync "first" (cs_session cs_a) [] = (s', UOk tt []) ∧ vis (db_log (s_db s')) = cs_c.
Proof.
  split; [apply cs_tame|]. split; [split; [done|]; split; [exists cs_ma; apply cs_good_a|]; apply cs_within; compute_dec|]. split; [eapply good_clean, cs_good_a|].
  destruct (cs_run []) as (s' & E & Hv & _). exists s'. split; [exact E|exact Hv].
Qed.

(** ** A whole session that syncs: at its start, by command and at its end *)

(** Of a single-user session that ends without an error the file is written; it opens with
    a password that was the session's or was typed, and gives exactly the store at the
    end.  What is missing for all sessions: adduser, passwd next to the passwords asked for
    by the sync, and more than one user. *)
Theorem C84_saved_partial : ∀ P (Q U R : string → Prop) w w0 w1 y y0 y1 b e ord riv s pass m0 inp s' out rest,
  (∀ n k, w_sync (w n) k = sync_cmd P (y n) k) → (∀ k, w_sync w0 k = sync_cmd P y0 k) → (∀ k, w_sync w1 k = sync_cmd P y1 k) →
  (∀ n, tame_sync P R (y n)) → tame_sync P R y0 → tame_sync P R y1 → (∀ u, R u → U u) →
  (∀ n, tame U (w n)) → (∀ i j, drawn (w i) = drawn (w j) → i = j) → (∀ n, w_P (w n) = P) → (∀ n, rand_ok (w_rand (w n))) → (∀ n, text_world (w n)) →
  prims_ok P → length riv = 40 →
  good (s_db s) m0 → (∀ t, t ∈ vis (db_log (s_db s)) → U (tx_uuid t)) →
  s_readOnly s = false → single_session P s pass → Q pass → (s_pass s = "" ∨ Q (s_pass s)) → may_open Q inp → typed_text inp →
  session_main P b w0 w1 w e ord (Some riv) s inp = (s', UOk out rest) → (Z.of_nat (length (vis (db_log (s_db s')))) < 2 ^ 64)%Z →
  ∃ f pass' m, out = Some f ∧ Q pass' ∧ good (s_db s') m ∧
    ∀ sp rsalt r, ∃ s2, loadBlob P (Found (mk_slice f sp)) None rsalt (ILine pass' :: r) = UOk s2 r ∧ same_store (s_db s') (s_db s2) ∧ good (s_db s2) m.
Proof.
  intros P Q U R w w0 w1 y y0 y1 b e ord riv s pass m0 inp s' out rest Hs Hs0 Hs1 Hy Hy0 Hy1 HRU Ht Hd HP Hr Hw HPo Hl Hg HU Hro Hss Hq Hsp Hm Hi E Hn.
  destruct (main_synced P Q U R w w0 w1 y y0 y1 Hs Hs0 Hs1 Hy Hy0 Hy1 HRU Ht Hd HP Hr Hw b e ord riv s inp s' out rest HPo Hl) as (f & p & m & H1 & H2 & H3 & _ & H4); [|exact E|exact Hn|by exists f, p, m].
  split; [split; [apply Hg|]; split; [exists m0; apply Hg|done]|]. split; [split; [done|]; by exists pass|]. split; [done|]. split; [by eapply good_clean|done].
Qed.
Print Assumptions C84_saved_partial.

(** If such a session ends with an error it is from one of the syncs or from a command:
    a session that has come to its end is always saved. *)
Theorem C84_failed_partial : ∀ P (Q U R : string → Prop) w w0 w1 y y0 y1 b e ord riv s pass m0 inp s' x rest,
  (∀ n k, w_sync (w n) k = sync_cmd P (y n) k) → (∀ k, w_sync w0 k = sync_cmd P y0 k) → (∀ k, w_sync w1 k = sync_cmd P y1 k) →
  (∀ n, tame_sync P R (y n)) → tame_sync P R y0 → tame_sync P R y1 → (∀ u, R u → U u) →
  (∀ n, tame U (w n)) → (∀ i j, drawn (w i) = drawn (w j) → i = j) → (∀ n, w_P (w n) = P) → (∀ n, rand_ok (w_rand (w n))) → (∀ n, text_world (w n)) →
  prims_ok P → length riv = 40 →
  good (s_db s) m0 → (∀ t, t ∈ vis (db_log (s_db s)) → U (tx_uuid t)) →
  s_readOnly s = false → single_session P s pass → Q pass → (s_pass s = "" ∨ Q (s_pass s)) → may_open Q inp → typed_text inp →
  session_main P b w0 w1 w e ord (Some riv) s inp = (s', UErr x rest) →
  auto_sync b w0 s inp = (s', UErr x rest) ∨ ∃ s1 inp1, auto_sync b w0 s inp = (s1, UOk tt inp1) ∧
    ((∃ o, run_repl w s1 inp1 = (s', o, UErr x rest)) ∨
     ∃ s2 o inp2, run_repl w s1 inp1 = (s2, o, UOk tt inp2) ∧ auto_sync true w1 s2 inp2 = (s', UErr x rest)).
Proof.
  intros P Q U R w w0 w1 y y0 y1 b e ord riv s pass m0 inp s' x rest Hs Hs0 Hs1 Hy Hy0 Hy1 HRU Ht Hd HP Hr Hw HPo Hl Hg HU Hro Hss Hq Hsp Hm Hi E.
  apply (main_failed P Q U R w w0 w1 y y0 y1 Hs Hs0 Hs1 Hy Hy0 Hy1 HRU Ht Hd HP Hr Hw b e ord riv s inp s' x rest HPo Hl); [|exact E].
  split; [split; [apply Hg|]; split; [exists m0; apply Hg|done]|]. split; [split; [done|]; by exists pass|]. split; [done|]. split; [by eapply good_clean|done].
Qed.
Print Assumptions C84_failed_partial.

(** A session of somebody who types "sync first" while another machine has saved an entry
    of its own in the file that is synced with. *)
Example C84_saved_example :
  (∀ n k, w_sync (cs_w n) k = sync_cmd clear cs_sync k) ∧ tame_sync clear cs_U cs_sync ∧ (∀ n, tame cs_U (cs_w n)) ∧
  (∀ i j, drawn (cs_w i) = drawn (cs_w j) → i = j) ∧ (∀ n, w_P (cs_w n) = clear) ∧ (∀ n, rand_ok (w_rand (cs_w n))) ∧ (∀ n, text_world (cs_w n)) ∧
  good (s_db (cs_session cs_a)) cs_ma ∧ (∀ t, t ∈ cs_a → cs_U (tx_uuid t)) ∧ single_session clear (cs_session cs_a) se_pass ∧
  may_open (λ p, p ∈ [se_pass; "sync first"]) cs_typed ∧ typed_text cs_typed ∧
  ∃ s' f, session_main clear false (cs_w 0) (cs_w 1) cs_w se_env map_to_list (Some se_iv) (cs_session cs_a) cs_typed = (s', UOk (Some f) []) ∧
    vis (db_log (s_db s')) = cs_c.
Proof.
  split; [done|]. split; [apply cs_tame|].
  split; [intros n; split; [intros i j m; reflexivity|]; split; [exact se_ord|]; unfold cs_U; cbn; intros H; repeat (apply elem_of_cons in H as [H|H]; [discriminate H|]); by apply elem_of_nil in H|].
  split; [intros i j E; unfold drawn in E; cbn in E; injection E as E; apply (f_equal String.length) in E; by rewrite !ones_length in E|].
  split; [done|]. split; [intros n; apply se_rand_ok|]. split; [intros n; exact (tw_text n)|]. split; [apply cs_good_a|]. split; [apply cs_within; compute_dec|].
  split; [apply cs_single|].
  assert (∀ line, ILine line ∈ cs_typed → line = "sync first") as Hl.
  { intros line H. apply elem_of_cons in H as [[= ->]|H]; [done|]. apply elem_of_cons in H as [H|H]; [discriminate H|]. by apply elem_of_nil in H. }
  split; [|split].
  - split; [intros line ->%Hl H; vm_compute in H; discriminate|]. split; [left; intros line ->%Hl H; vm_compute in H; discriminate|]. intros p ->%Hl. right. by left.
  - intros line ->%Hl. utf8_lit.
  - destruct (cs_run [IErr EEnd]) as (s' & E & Hv & Hg & Hss & Hro).
    destruct (single_reopen clear s' se_pass cs_mc se_env map_to_list se_iv [] None [] clear_ok Hg Hro Hss eq_refl) as (f & _ & Ef & _).
    exists s', f. split; [|exact Hv]. unfold session_main, auto_sync, mbind, C_bind, state. rewrite !andb_false_r. unfold mret, C_ret.
    assert (run_repl cs_w (cs_session cs_a) cs_typed = (s', [], UOk tt [])) as Hrun.
    { unfold run_repl, cs_typed. cbn [length run_loop]. change (s_readOnly (cs_session cs_a)) with false.
      replace (parse_line false "" "sync first") with (Run (KSync "first")) by (vm_compute; reflexivity). cbn [exec]. unfold silent, mbind, C_bind.
      change (w_sync (cs_w 0) "first") with (sync_cmd clear cs_sync "first"). rewrite E. reflexivity. }
    rewrite Hrun. cbn [negb andb]. rewrite !andb_false_r. cbv iota. rewrite Ef. reflexivity.
Qed.

(** ** Names *)

(** Names do not stay unique: two machines that have each added an entry called mail have
    two after a sync, as the entries are told apart by their uuids only. *)
Theorem C84_names_refuted : ¬ ∀ P y name s inp s' rest m m',
  prims_ok P → good (s_db s) m → well_named m → s_readOnly s = false → (∃ R, tame_sync P R y) →
  sync_cmd P y name s inp = (s', UOk tt rest) → good (s_db s') m' → well_named m'.
Proof.
  intros H. destruct (cs_run []) as (s' & E & _ & Hg & _).
  destruct (H clear cs_sync "first" (cs_session cs_a) [] s' [] cs_ma cs_mc clear_ok cs_good_a cs_named eq_refl (ex_intro _ cs_U cs_tame) E Hg) as [_ Hu].
  specialize (Hu "a1" "b1" "mail"). assert ("a1" = "b1") as Hx; [|discriminate Hx]. apply Hu.
  - exists cs_mail. split; [|done]. unfold cs_mc, cs_ma. rewrite lookup_insert_ne by done. by rewrite lookup_insert.
  - exists cs_mail. split; [|done]. unfold cs_mc. by rewrite lookup_insert.
Qed.
Print Assumptions C84_names_refuted.
