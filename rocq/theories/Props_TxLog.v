(** Properties C01-C10: the transactional key-value store. *)
From Verif Require Import Spec_TxLog Proof_TxLog.
From Coq Require Import Lia.
From stdpp Require Import options.

(** A history used in the examples: two entries, an overwritten key, a failed
    transaction after reads, an undo. *)
Definition ex_ops : list op :=
  [OAdd 0 1 "u1"; OSet 1 2 "u1" "k" "v"; OUpdate; OAdd 3 3 "u2"; OSet 0 4 "u1" "k" "w";
   OBegin; OSet 0 5 "u2" "a" "b"; OSet 0 6 "u2" "c" "d"; OUpdate; ODelete 0 7 "u1"; ORollback;
   OSet 0 8 "u2" "x" "y"; ORollbackN 1; OSet 0 9 "u2" "z" "z"]%Z.

(** ** C01 *)

(** Reads after any sequence of calls show the replay of the whole log.
    Missing from the full property: the sequences [lucky] excludes, for which it
    is false (next theorem). *)
Theorem C01_reads_are_replay_partial : ∀ ops d d',
  lucky db_new ops →
  run db_new ops = Ok d →
  UpdateSnapshot d = (d', Ok tt) →
  replays (vis (db_log d)) (snap_of d') ∧
  db_version d' = length (vis (db_log d)) ∧
  vis (db_log d') = vis (db_log d).
Proof. exact C01_snapshot_coherent_lemma. Qed.
Print Assumptions C01_reads_are_replay_partial.

Example C01_reads_are_replay_example :
  lucky db_new ex_ops ∧
  ∃ d d', run db_new ex_ops = Ok d ∧ UpdateSnapshot d = (d', Ok tt) ∧
    snap_of d' = {[ "u1" := {[ "k" := "w" ]}; "u2" := {[ "z" := "z" ]} ]}.
Proof.
  split; [apply lucky_b_ok; vm_compute; reflexivity|].
  pose (d := ok_or db_new (run db_new ex_ops)).
  exists d, (UpdateSnapshot d).1. split; [compute_dec|]. split; compute_dec.
Qed.

(** ... and UpdateSnapshot succeeds exactly when the log can be replayed. *)
Theorem C01_update_succeeds_partial : ∀ ops d,
  lucky db_new ops →
  run db_new ops = Ok d →
  (replayable (vis (db_log d)) ↔ ∃ d', UpdateSnapshot d = (d', Ok tt)).
Proof. exact C01_update_succeeds_lemma. Qed.
Print Assumptions C01_update_succeeds_partial.

(** The same from any coherent store, e.g. one loaded from a file. *)
Theorem C01_coherence_preserved_partial : ∀ d ops d',
  coherent d → db_txpoint d = 0%nat → lucky d ops → run d ops = Ok d' → coherent d'.
Proof. exact run_coherent. Qed.
Print Assumptions C01_coherence_preserved_partial.

(** Without the guard the property is false: roll back after the snapshot has
    absorbed exactly one transaction of the aborted transaction. *)
Definition C01_bad_ops : list op :=
  [OAdd 0 1 "u"; OBegin; OSet 0 2 "u" "k" "aborted"; OUpdate; ORollback]%Z.

Theorem C01_reads_are_replay_refuted :
  ∃ ops d d', run db_new ops = Ok d ∧ UpdateSnapshot d = (d', Ok tt) ∧
    ¬ replays (vis (db_log d)) (snap_of d') ∧
    db_version d' ≠ length (vis (db_log d)).
Proof.
  pose (d := ok_or db_new (run db_new C01_bad_ops)).
  exists C01_bad_ops, d, (UpdateSnapshot d).1. split; [compute_dec|]. split; [compute_dec|].
  split; [|compute_dec]. intros H. apply replay_fn_ok in H. revert H.
  change (replay_fn ∅ (vis (db_log d)) ≠ Some (snap_of (UpdateSnapshot d).1)). compute_dec.
Qed.
Print Assumptions C01_reads_are_replay_refuted.

(** Moreover the next change made after such a rollback is invisible. *)
Theorem C01_lost_update_refuted :
  ∃ ops d d', run db_new ops = Ok d ∧ UpdateSnapshot d = (d', Ok tt) ∧
    last_written (vis (db_log d)) "u" "k" "kept" ∧
    (snap_of d' !! "u" ≫= lookup "k") = Some "aborted".
Proof.
  pose (ops := C01_bad_ops ++ [OSet 0 3 "u" "k" "kept"]%Z).
  pose (d := ok_or db_new (run db_new ops)).
  exists ops, d, (UpdateSnapshot d).1.
  split; [compute_dec|]. split; [compute_dec|]. split; [|compute_dec].
  exists 1%nat, (mk_tx 3 "setk" "u" "k" "kept"). split; [compute_dec|]. split; [done|]. split; [done|].
  intros j t Hj Hl. exfalso. apply lookup_lt_Some in Hl.
  assert (length (vis (db_log d)) = 2%nat) as E by compute_dec. rewrite E in Hl. lia.
Qed.
Print Assumptions C01_lost_update_refuted.

(** ** C02 *)

(** A failed [Do] restores the log and the reads.  Guards: the body does not use
    RollbackN to go below where it began, and the snapshot was not brought to
    exactly one transaction past the begin point. *)
Theorem C02_failed_do_no_trace_partial : ∀ d body err d1 d2 m,
  coherent d →
  Forall body_op body →
  run (Begin d) body = Ok d1 →
  stays_above (Begin d) (length (vis (db_log d))) body →
  db_version d1 ≠ (length (vis (db_log d)) + 1)%nat →
  Do d body (Some err) = Ok (d2, Some err) →
  replays (vis (db_log d)) m →
  ∃ d3, UpdateSnapshot d2 = (d3, Ok tt) ∧ snap_of d3 = m ∧ vis (db_log d3) = vis (db_log d).
Proof. exact C02_reads_lemma. Qed.
Print Assumptions C02_failed_do_no_trace_partial.

(** Such a [Do] always returns (no panic), with the log as before. *)
Theorem C02_failed_do_returns_partial : ∀ d body err d1,
  coherent d →
  Forall body_op body →
  run (Begin d) body = Ok d1 →
  stays_above (Begin d) (length (vis (db_log d))) body →
  db_version d1 ≠ (length (vis (db_log d)) + 1)%nat →
  ∃ d2, Do d body (Some err) = Ok (d2, Some err) ∧ vis (db_log d2) = vis (db_log d) ∧
    coherent d2 ∧ db_txpoint d2 = 0%nat.
Proof. exact C02_lemma. Qed.
Print Assumptions C02_failed_do_returns_partial.

Example C02_example :
  ∃ d d1 d2, run db_new [OAdd 0 1 "u"; OUpdate]%Z = Ok d ∧
    let body := [OSet 0 2 "u" "a" "b"; OSet 2 3 "u" "c" "d"; OUpdate; ODelete 0 4 "u"]%Z in
    coherent d ∧ Forall body_op body ∧
    run (Begin d) body = Ok d1 ∧ stays_above (Begin d) (length (vis (db_log d))) body ∧
    db_version d1 ≠ (length (vis (db_log d)) + 1)%nat ∧
    Do d body (Some (EMsg "x")) = Ok (d2, Some (EMsg "x")) ∧
    replays (vis (db_log d)) {[ "u" := ∅ ]}.
Proof.
  pose (d := ok_or db_new (run db_new [OAdd 0 1 "u"; OUpdate]%Z)).
  pose (body := [OSet 0 2 "u" "a" "b"; OSet 2 3 "u" "c" "d"; OUpdate; ODelete 0 4 "u"]%Z).
  exists d, (ok_or db_new (run (Begin d) body)), (ok_or (db_new, None) (Do d body (Some (EMsg "x")))).1.
  split; [compute_dec|]. cbv zeta. fold body. split.
  { split; [compute_dec|]. apply replay_fn_ok. compute_dec. }
  split; [repeat constructor|]. split; [compute_dec|].
  split; [apply stays_above_b_ok; compute_dec|].
  split; [compute_dec|]. split; [compute_dec|].
  apply replay_fn_ok. compute_dec.
Qed.

(** A successful [Do] keeps everything the body did. *)
Theorem C02_successful_do_keeps_all : ∀ d body d1,
  coherent d → Forall body_op body → run (Begin d) body = Ok d1 →
  ∃ d2, Do d body None = Ok (d2, None) ∧ vis (db_log d2) = vis (db_log d1) ∧
    db_snapshot d2 = db_snapshot d1 ∧ db_version d2 = db_version d1 ∧ db_txpoint d2 = 0%nat.
Proof. exact C02_commit_lemma. Qed.
Print Assumptions C02_successful_do_keeps_all.

(** The full property is false: a body that sets one key, reads, and fails
    leaves the aborted value visible. *)
Theorem C02_failed_do_no_trace_refuted :
  ∃ d body e d2 d3, coherent d ∧ Forall body_op body ∧
    Do d body (Some e) = Ok (d2, Some e) ∧ UpdateSnapshot d2 = (d3, Ok tt) ∧
    replays (vis (db_log d)) {[ "u" := ∅ ]} ∧ snap_of d3 = {[ "u" := {[ "k" := "aborted" ]} ]}.
Proof.
  pose (d := mk_db 0 None (slice_of [mk_tx 1 "add" "u" "" ""]) 0).
  pose (body := [OSet 0 2 "u" "k" "aborted"; OUpdate]%Z).
  pose (d2 := (ok_or (db_new, None) (Do d body (Some (EMsg "x")))).1).
  exists d, body, (EMsg "x").
  exists d2, (UpdateSnapshot d2).1. split.
  { split; [simpl; lia|]. constructor. }
  split; [repeat constructor|]. split; [compute_dec|]. split; [compute_dec|].
  split; [|compute_dec]. apply replay_fn_ok. compute_dec.
Qed.
Print Assumptions C02_failed_do_no_trace_refuted.

(** Also false if the body undoes past its beginning and writes again: the
    rollback then brings back a mixture of old and aborted transactions. *)
Theorem C02_undo_inside_do_refuted :
  ∃ d body e d2, coherent d ∧ Forall body_op body ∧
    Do d body (Some e) = Ok (d2, Some e) ∧ vis (db_log d2) ≠ vis (db_log d) ∧
    ∃ t, t ∈ vis (db_log d2) ∧ t ∉ vis (db_log d).
Proof.
  exists (mk_db 0 None (slice_of [mk_tx 1 "add" "u" "" ""; mk_tx 2 "setk" "u" "k" "v"]%Z) 0),
    [ORollbackN 1; OSet 0 3 "u" "k" "aborted"]%Z, (EMsg "x").
  eexists. split.
  { split; [simpl; lia|]. constructor. }
  split; [repeat constructor|]. split; [vm_compute; reflexivity|].
  split; [vm_compute; discriminate|].
  exists (mk_tx 3 "setk" "u" "k" "aborted"). simpl. split; set_solver.
Qed.
Print Assumptions C02_undo_inside_do_refuted.

(** ** C03 *)
Theorem C03_rollbackn_undoes_exactly_n : ∀ n d,
  coherent d →
  (n ≤ length (vis (db_log d)))%nat →
  ∃ d', RollbackN n d = (d', Ok tt) ∧ coherent d' ∧
    vis (db_log d') = take (length (vis (db_log d)) - n) (vis (db_log d)) ∧
    vis (db_log d') ++ spare (db_log d') = vis (db_log d) ++ spare (db_log d) ∧
    db_txpoint d' = db_txpoint d.
Proof. exact RollbackN_spec. Qed.
Print Assumptions C03_rollbackn_undoes_exactly_n.

Theorem C03_rollbackn_too_many : ∀ n d,
  (length (vis (db_log d)) < n)%nat → ∃ e, RollbackN n d = (d, Fail e).
Proof. exact RollbackN_too_many. Qed.
Print Assumptions C03_rollbackn_too_many.

Theorem C03_rollback_zero : ∀ d, RollbackN 0 d = (d, Ok tt).
Proof. exact (λ d, eq_refl). Qed.
Print Assumptions C03_rollback_zero.

Example C03_example :
  ∃ d d' d'', run db_new ex_ops = Ok d ∧ RollbackN 2 d = (d', Ok tt) ∧ UpdateSnapshot d' = (d'', Ok tt) ∧
    snap_of d'' = {[ "u1" := {[ "k" := "v" ]}; "u2" := ∅ ]}.
Proof.
  pose (d := ok_or db_new (run db_new ex_ops)).
  exists d, (RollbackN 2 d).1, (UpdateSnapshot (RollbackN 2 d).1).1. repeat split; compute_dec.
Qed.

(** ** C04 *)
Theorem C04_history_append_only : ∀ d ops d',
  Forall not_undo ops → run d ops = Ok d' →
  vis (db_log d') = vis (db_log d) ++ concat (map written ops).
Proof. exact run_append_only. Qed.
Print Assumptions C04_history_append_only.

Example C04_example :
  ∃ d', run db_new (take 10 ex_ops) = Ok d' ∧ Forall not_undo (take 10 ex_ops) ∧
    length (vis (db_log d')) = 7%nat.
Proof.
  exists (ok_or db_new (run db_new (take 10 ex_ops))).
  split; [compute_dec|]. split; [repeat constructor|compute_dec].
Qed.

(** ** C05 *)
Theorem C05_last_writer_wins : ∀ log m, replays log m →
  ∀ u, (is_Some (m !! u) ↔ visible log u) ∧
       ∀ k v, (m !! u ≫= lookup k) = Some v ↔ last_written log u k v.
Proof. exact last_writer. Qed.
Print Assumptions C05_last_writer_wins.

Definition ex_log : list tx :=
  [mk_tx 1 "add" "u1" "" ""; mk_tx 2 "setk" "u1" "k" "v"; mk_tx 3 "add" "u2" "" "";
   mk_tx 4 "setk" "u1" "k" "w"; mk_tx 5 "del" "u2" "" ""; mk_tx 6 "delk" "u1" "k" "";
   mk_tx 7 "setk" "u1" "j" "x"]%Z.

Example C05_example : replays ex_log {[ "u1" := {[ "j" := "x" ]} ]}.
Proof. apply replay_fn_ok. compute_dec. Qed.

(** ** C06 *)

(** For 0 <= n: cutting the log just after the transaction on [u] that has
    exactly n younger ones gives the entry that is returned. *)
Theorem C06_entry_history_exact_partial : ∀ d u pre t post m,
  vis (db_log d) = pre ++ t :: post →
  tx_uuid t = u →
  replays (pre ++ [t]) m →
  EntrySnapshotAt d u (Z.of_nat (length (entry_txs u post))) =
    match m !! u with Some e => Ok e | None => Fail (EKeyNotFound u "" "") end.
Proof. exact EntrySnapshotAt_in_range. Qed.
Print Assumptions C06_entry_history_exact_partial.

(** Every version number below NVersions is such a cut point. *)
Theorem C06_every_version_has_a_cut : ∀ u log n,
  (n < length (entry_txs u log))%nat →
  ∃ pre t post, log = pre ++ t :: post ∧ tx_uuid t = u ∧ length (entry_txs u post) = n.
Proof. exact entry_cut. Qed.
Print Assumptions C06_every_version_has_a_cut.

Theorem C06_too_old_is_an_error : ∀ d u n,
  (Z.of_nat (length (entry_txs u (vis (db_log d)))) ≤ n)%Z →
  ∃ e, EntrySnapshotAt d u n = Fail e.
Proof. exact EntrySnapshotAt_too_far. Qed.
Print Assumptions C06_too_old_is_an_error.

Example C06_example : ∃ d, vis (db_log d) = ex_log ∧
  EntrySnapshotAt d "u1" 2 = Ok {[ "k" := "w" ]} ∧ EntrySnapshotAt d "u1" 3 = Ok {[ "k" := "v" ]} ∧
  EntrySnapshotAt d "u2" 0 = Fail (EKeyNotFound "u2" "" "") ∧ EntrySnapshotAt d "u2" 1 = Ok ∅.
Proof. exists (mk_db 0 None (slice_of ex_log) 0). repeat split; compute_dec. Qed.

(** "It never crashes" is false: every negative version number crashes
    (reachable as [show <entry> -1]). *)
Theorem C06_negative_version_crashes_refuted : ∀ d u n,
  replayable (vis (db_log d)) → (n < 0)%Z → EntrySnapshotAt d u n = Panic.
Proof. exact EntrySnapshotAt_negative. Qed.
Print Assumptions C06_negative_version_crashes_refuted.

(** ** C07 *)
Theorem C07_store_history_exact_partial : ∀ d n,
  replayable (vis (db_log d)) →
  (n ≤ length (vis (db_log d)))%nat →
  ∃ m, SnapshotAt d (Z.of_nat n) = Ok m ∧
    replays (take (length (vis (db_log d)) - n) (vis (db_log d))) m.
Proof. exact SnapshotAt_in_range. Qed.
Print Assumptions C07_store_history_exact_partial.

Theorem C07_too_old_is_an_error : ∀ d n,
  (Z.of_nat (length (vis (db_log d))) < n)%Z → ∃ e, SnapshotAt d n = Fail e.
Proof. exact SnapshotAt_too_far. Qed.
Print Assumptions C07_too_old_is_an_error.

Theorem C07_negative_version_crashes_refuted : ∀ d n,
  replayable (vis (db_log d)) → (n < 0)%Z → SnapshotAt d n = Panic.
Proof. exact SnapshotAt_negative. Qed.
Print Assumptions C07_negative_version_crashes_refuted.

Example C07_example : replayable ex_log ∧
  SnapshotAt (mk_db 0 None (slice_of ex_log) 0) 3 =
    Ok {[ "u1" := {[ "k" := "w" ]}; "u2" := ∅ ]}.
Proof. split; [|compute_dec]. apply replayable_fn. compute_dec. Qed.

(** ** C08 *)
Theorem C08_bad_transaction_reported : ∀ d l1 t l2 m,
  coherent d →
  vis (db_log d) = l1 ++ t :: l2 →
  replays l1 m →
  (∀ m', ¬ tx_step m t m') →
  ∃ d' e, UpdateSnapshot d = (d', Fail e) ∧ snap_of d' = m ∧ db_version d' = length l1 ∧
    db_log d' = db_log d ∧ UpdateSnapshot d' = (d', Fail e).
Proof. exact bad_tx_reported. Qed.
Print Assumptions C08_bad_transaction_reported.

Example C08_example :
  let d := mk_db 0 None (slice_of (ex_log ++ mk_tx 8 "setk" "u2" "a" "b" :: [mk_tx 9 "del" "u1" "" ""])%Z) 0 in
  coherent d ∧ (∀ m', ¬ tx_step {[ "u1" := {[ "j" := "x" ]} ]} (mk_tx 8 "setk" "u2" "a" "b") m').
Proof.
  split.
  - split; [simpl; lia|constructor].
  - intros m' H. apply applyTx_step in H. revert H. match goal with |- ?a = ?b → _ => change (a ≠ b) end. compute_dec.
Qed.

(** ** C09 *)
Theorem C09_nversions_counts : ∀ d u, NVersions d u = length (entry_txs u (vis (db_log d))).
Proof. exact NVersions_spec. Qed.
Print Assumptions C09_nversions_counts.

Theorem C09_last_updated : ∀ d u,
  LastUpdated d u = match last (entry_txs u (vis (db_log d))) with Some t => tx_time t | None => (-1)%Z end.
Proof. exact LastUpdated_spec. Qed.
Print Assumptions C09_last_updated.

Example C09_example : let d := mk_db 0 None (slice_of ex_log) 0 in
  NVersions d "u1" = 5%nat ∧ LastUpdated d "u2" = 5%Z ∧ LastUpdated d "nope" = (-1)%Z.
Proof. repeat split. Qed.

(** ** C10 *)
Theorem C10_save_iff_no_transaction : ∀ d,
  (db_txpoint d = 0%nat → save_guard d = Ok tt) ∧
  (db_txpoint d ≠ 0%nat → ∃ e, save_guard d = Fail e).
Proof. exact save_guard_spec. Qed.
Print Assumptions C10_save_iff_no_transaction.

Theorem C10_save_refused_inside_transaction : ∀ ops d,
  run db_new ops = Ok d →
  (open_tx ops = true → ∃ e, save_guard d = Fail e) ∧ (open_tx ops = false → save_guard d = Ok tt).
Proof. exact save_refused_inside. Qed.
Print Assumptions C10_save_refused_inside_transaction.

Theorem C10_commit_rollback_need_begin : ∀ ops d,
  run db_new ops = Ok d → open_tx ops = false → Commit d = Panic ∧ Rollback d = Panic.
Proof. exact commit_rollback_need_begin. Qed.
Print Assumptions C10_commit_rollback_need_begin.

(** The documented panic of a nested Begin does not exist: the outer begin
    point is silently forgotten and a rollback keeps the outer changes. *)
Theorem C10_nested_begin_refuted :
  ∃ ops d, run db_new ops = Ok d ∧
    ops = [OBegin; OAdd 0 1 "outer"; OBegin; OAdd 0 2 "inner"; ORollback]%Z ∧
    vis (db_log d) = [mk_tx 1 "add" "outer" "" ""].
Proof. eexists _, _. split; [|split; [vm_compute; reflexivity|]]; reflexivity. Qed.
Print Assumptions C10_nested_begin_refuted.

Example C10_example : open_tx (take 8 ex_ops) = true ∧ open_tx ex_ops = false.
Proof. split; reflexivity. Qed.
