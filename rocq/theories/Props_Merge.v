(** Properties C11-C22: merging histories. *)
From Verif Require Import Spec_Merge Proof_Merge4.
From Coq Require Import Lia.
From stdpp Require Import options.

(** Logs used in the examples.  [base] is a shared history with two entries. *)
Definition tadd t u := mk_tx t "add" u "" "".
Definition tset t u k v := mk_tx t "setk" u k v.
Definition tdel t u := mk_tx t "del" u "" "".
Definition base : list tx := [tadd 1 "u"; tset 2 "u" "name" "mail"; tadd 3 "w"; tset 4 "w" "name" "bank"]%Z.
(** edits on both sides, no conflict *)
Definition repA : list tx := base ++ [tset 10 "u" "pass" "x"; tdel 14 "w"]%Z.
Definition repB : list tx := base ++ [tadd 11 "z"; tset 12 "u" "pass" "y"; tset 13 "w" "k" "v"]%Z.
Definition repAB : list tx :=
  base ++ [tset 10 "u" "pass" "x"; tadd 11 "z"; tset 12 "u" "pass" "y"; tset 13 "w" "k" "v"; tdel 14 "w"]%Z.
(** one side deletes [u], the other goes on editing it *)
Definition repD : list tx := base ++ [tdel 10 "u"; tset 20 "w" "k" "v"]%Z.
Definition repE : list tx := base ++ [tset 11 "u" "pass" "x"; tset 12 "u" "pass" "y"; tset 13 "w" "k" "v"]%Z.
Definition repDE : list tx :=
  base ++ [tdel 10 "u"; tset 11 "u" "pass" "x"; tset 12 "u" "pass" "y"; tset 13 "w" "k" "v"; tset 20 "w" "k" "v"]%Z.

Lemma repA_valid : valid_log repA. Proof. apply valid_b_ok. vm_compute. reflexivity. Qed.
Lemma repB_valid : valid_log repB. Proof. apply valid_b_ok. vm_compute. reflexivity. Qed.
Lemma repD_valid : valid_log repD. Proof. apply valid_b_ok. vm_compute. reflexivity. Qed.
Lemma repE_valid : valid_log repE. Proof. apply valid_b_ok. vm_compute. reflexivity. Qed.
Lemma repAB_compat : compatible repA repB. Proof. apply compat_b_ok. vm_compute. reflexivity. Qed.
Lemma repDE_compat : compatible repD repE. Proof. apply compat_b_ok. vm_compute. reflexivity. Qed.
Lemma repAB_ni : no_impostor repA repB. Proof. by apply not_alike_ni. Qed.
Lemma repDE_ni : no_impostor repD repE. Proof. by apply not_alike_ni. Qed.
Lemma repAB_merge : TxMerge repA repB [] = Ok (Merged repAB). Proof. compute_dec. Qed.
Lemma repDE_union : is_union repD repE repDE. Proof. apply union_b_ok. vm_compute. reflexivity. Qed.
Lemma repDE_merge : TxMerge repD repE [] =
  Ok (Conflicts [mk_conflict ConflictKindDeleteSet (tdel 10 "u") (tset 11 "u" "pass" "x") resolveNone]).
Proof. compute_dec. Qed.

(** ** C11 *)

(** A merge without conflicts is the time-ordered union.  Missing from the full
    property: logs that look alike (C16) and logs in which different
    transactions carry the same time; for both it is false. *)
Theorem C11_merge_is_union_partial : ∀ a b c,
  time_sorted a → time_sorted b → time_ids (a ++ b) → no_impostor a b →
  TxMerge a b [] = Ok (Merged c) →
  is_union a b c.
Proof. exact Merge_is_union. Qed.
Print Assumptions C11_merge_is_union_partial.

(** Exactly when a merge succeeds, for replayable logs. *)
Theorem C11_merge_succeeds_iff_partial : ∀ a b c,
  valid_log a → valid_log b → compatible a b → no_impostor a b → ¬ (a = [] ∧ b = []) →
  TxMerge a b [] = Ok (Merged c) ↔ is_union a b c ∧ conflict_free c ∧ same_root a b.
Proof. exact Merge_merged_iff. Qed.
Print Assumptions C11_merge_succeeds_iff_partial.

Example C11_example :
  valid_log repA ∧ valid_log repB ∧ compatible repA repB ∧ no_impostor repA repB ∧
  TxMerge repA repB [] = Ok (Merged repAB).
Proof. eauto using repA_valid, repB_valid, repAB_compat, repAB_ni, repAB_merge. Qed.

(** Two changes made at the same nanosecond on two machines: one is dropped
    silently. *)
Theorem C11_same_time_refuted :
  ∃ a b c x, time_sorted a ∧ time_sorted b ∧ TxMerge a b [] = Ok (Merged c) ∧ x ∈ b ∧ x ∉ c.
Proof.
  exists (base ++ [tset 10 "u" "pass" "x"]%Z), (base ++ [tset 10 "w" "pass" "y"; tset 11 "w" "k" "v"]%Z).
  eexists _, (tset 10 "w" "pass" "y"). split; [by apply sorted_b_ok|]. split; [by apply sorted_b_ok|].
  split; [vm_compute; reflexivity|]. split; compute_dec.
Qed.
Print Assumptions C11_same_time_refuted.

(** ** C12 *)

(** Whoever pulls first, the merged log is the same.  Guard: not the look-alike
    case of C16. *)
Theorem C12_replicas_converge_partial : ∀ a b c,
  valid_log a → valid_log b → compatible a b → no_impostor a b →
  TxMerge a b [] = Ok (Merged c) → TxMerge b a [] = Ok (Merged c).
Proof. exact Merge_comm. Qed.
Print Assumptions C12_replicas_converge_partial.

(** Both sides report the same delete/set conflicts. *)
Theorem C12_same_conflicts_partial : ∀ a b cs,
  valid_log a → valid_log b → compatible a b → no_impostor a b →
  TxMerge a b [] = Ok (Conflicts cs) →
  ∃ cs', TxMerge b a [] = Ok (Conflicts cs') ∧
    ∀ k, cf_kind k = ConflictKindDeleteSet → k ∈ cs ↔ k ∈ cs'.
Proof. exact Merge_comm_conflicts. Qed.
Print Assumptions C12_same_conflicts_partial.

(** The same answers on both sides give the same log. *)
Theorem C12_answers_converge : ∀ a b f cs cs',
  valid_log a → valid_log b → compatible a b → two_choices f →
  TxMerge a b [] = Ok (Conflicts cs) → TxMerge b a [] = Ok (Conflicts cs') →
  ∃ c, TxMerge a b (answer f <$> cs) = Ok (Merged c) ∧ TxMerge b a (answer f <$> cs') = Ok (Merged c).
Proof. exact Merge_comm_answered. Qed.
Print Assumptions C12_answers_converge.

Example C12_example :
  TxMerge repB repA [] = Ok (Merged repAB) ∧
  ∃ cs cs', TxMerge repD repE [] = Ok (Conflicts cs) ∧ TxMerge repE repD [] = Ok (Conflicts cs') ∧
    valid_log repD ∧ valid_log repE ∧ compatible repD repE ∧ no_impostor repD repE.
Proof.
  split; [compute_dec|]. eexists _, _. split; [exact repDE_merge|]. split; [vm_compute; reflexivity|].
  eauto using repD_valid, repE_valid, repDE_compat, repDE_ni.
Qed.

(** In the look-alike case the two replicas keep different logs for good. *)
Theorem C12_replicas_diverge_refuted :
  ∃ a b, valid_log a ∧ valid_log b ∧ compatible a b ∧ a ≠ b ∧
    TxMerge a b [] = Ok (Merged a) ∧ TxMerge b a [] = Ok (Merged b).
Proof.
  exists (base ++ [tset 10 "u" "pass" "x"; tset 12 "w" "k" "v"]%Z), (base ++ [tset 11 "u" "pass" "y"; tset 12 "w" "k" "v"]%Z).
  split; [apply valid_b_ok; vm_compute; reflexivity|]. split; [apply valid_b_ok; vm_compute; reflexivity|].
  split; [apply compat_b_ok; vm_compute; reflexivity|]. split; [done|]. split; compute_dec.
Qed.
Print Assumptions C12_replicas_diverge_refuted.

(** ** C13 *)

Theorem C13_merge_idempotent : ∀ a, a ≠ [] → TxMerge a a [] = Ok (Merged a).
Proof. exact Merge_idem. Qed.
Print Assumptions C13_merge_idempotent.

(** Merging again with either side changes nothing. *)
Theorem C13_resync_changes_nothing_partial : ∀ a b c,
  valid_log a → valid_log b → compatible a b → no_impostor a b →
  TxMerge a b [] = Ok (Merged c) →
  TxMerge c b [] = Ok (Merged c) ∧ TxMerge b c [] = Ok (Merged c) ∧
  TxMerge c a [] = Ok (Merged c) ∧ TxMerge a c [] = Ok (Merged c).
Proof. exact Merge_absorb. Qed.
Print Assumptions C13_resync_changes_nothing_partial.

(** Grouping does not matter: if one grouping merges, so does the other, with
    the same result. *)
Theorem C13_grouping_partial : ∀ a b c ab abc,
  valid_log a → valid_log b → valid_log c →
  time_ids (a ++ b ++ c) → unique_adds (a ++ b ++ c) → b ≠ [] →
  no_impostor a b → no_impostor ab c → no_impostor b c →
  (∀ bc, is_union b c bc → no_impostor a bc) →
  TxMerge a b [] = Ok (Merged ab) → TxMerge ab c [] = Ok (Merged abc) →
  ∃ bc, TxMerge b c [] = Ok (Merged bc) ∧ TxMerge a bc [] = Ok (Merged abc).
Proof. exact Merge_assoc. Qed.
Print Assumptions C13_grouping_partial.

Definition repC : list tx := base ++ [tset 9 "w" "k" "c"]%Z.
Example C13_example :
  valid_log repC ∧ time_ids (repA ++ repB ++ repC) ∧ unique_adds (repA ++ repB ++ repC) ∧
  no_impostor repAB repC ∧ no_impostor repB repC ∧ (∀ bc, is_union repB repC bc → no_impostor repA bc) ∧
  ∃ abc, TxMerge repAB repC [] = Ok (Merged abc).
Proof.
  destruct (compat_b_ok repA (repB ++ repC)) as [H1 H2]; [vm_compute; reflexivity|].
  split; [apply valid_b_ok; vm_compute; reflexivity|]. split; [done|]. split; [done|].
  split; [by apply not_alike_ni|]. split; [by apply not_alike_ni|]. split.
  - intros bc Hu. apply not_alike_ni.
    assert (bc = base ++ [tset 9 "w" "k" "c"; tadd 11 "z"; tset 12 "u" "pass" "y"; tset 13 "w" "k" "v"]%Z) as ->; [|done].
    apply (is_union_unique repB repC); [done|]. apply union_b_ok. vm_compute. reflexivity.
  - eexists. vm_compute. reflexivity.
Qed.

(** Grouping does matter when two of the logs only look alike (C16). *)
Theorem C13_grouping_refuted :
  ∃ a b c ab abc bc abc', valid_log a ∧ valid_log b ∧ valid_log c ∧ time_ids (a ++ b ++ c) ∧ unique_adds (a ++ b ++ c) ∧
    TxMerge a b [] = Ok (Merged ab) ∧ TxMerge ab c [] = Ok (Merged abc) ∧
    TxMerge b c [] = Ok (Merged bc) ∧ TxMerge a bc [] = Ok (Merged abc') ∧ ∃ t, t ∈ abc' ∧ t ∉ abc.
Proof.
  set (a := base ++ [tset 10 "u" "pass" "x"; tset 12 "w" "k" "v"]%Z). set (b := base ++ [tset 11 "u" "pass" "y"; tset 12 "w" "k" "v"]%Z).
  set (c := base ++ [tset 13 "w" "k" "c"]%Z).
  exists a, b, c, a, (a ++ [tset 13 "w" "k" "c"]%Z), (b ++ [tset 13 "w" "k" "c"]%Z),
    (base ++ [tset 10 "u" "pass" "x"; tset 11 "u" "pass" "y"; tset 12 "w" "k" "v"; tset 13 "w" "k" "c"]%Z).
  destruct (compat_b_ok a (b ++ c)) as [H1 H2]; [vm_compute; reflexivity|].
  split; [apply valid_b_ok; vm_compute; reflexivity|]. split; [apply valid_b_ok; vm_compute; reflexivity|]. split; [apply valid_b_ok; vm_compute; reflexivity|].
  split; [done|]. split; [done|]. split; [compute_dec|]. split; [compute_dec|]. split; [compute_dec|]. split; [compute_dec|].
  exists (tset 11 "u" "pass" "y")%Z. split; [compute_dec|]. compute_dec.
Qed.
Print Assumptions C13_grouping_refuted.

(** ** C14 *)

(** The look-alike case of C16 is included. *)
Theorem C14_merge_never_poisons : ∀ a b c,
  valid_log a → valid_log b → compatible a b →
  TxMerge a b [] = Ok (Merged c) → replayable c.
Proof. exact Merge_replayable_all. Qed.
Print Assumptions C14_merge_never_poisons.

(** The same after conflicts have been answered. *)
Theorem C14_resolved_merge_never_poisons : ∀ a b f cs c,
  valid_log a → valid_log b → compatible a b → two_choices f →
  TxMerge a b [] = Ok (Conflicts cs) →
  TxMerge a b (answer f <$> cs) = Ok (Merged c) → replayable c.
Proof. exact Merge_answered_replayable. Qed.
Print Assumptions C14_resolved_merge_never_poisons.

Example C14_example : replayable repAB ∧
  replayable (base ++ [tset 11 "u" "pass" "x"; tset 12 "u" "pass" "y"; tset 13 "w" "k" "v"; tset 20 "w" "k" "v"]%Z).
Proof. split; apply valid_b_ok; vm_compute; reflexivity. Qed.

(** ** C15 *)

Theorem C15_conflicts_exact : ∀ a b c cs,
  valid_log a → valid_log b → compatible a b → is_union a b c →
  TxMerge a b [] = Ok (Conflicts cs) →
  (∀ k, k ∈ cs → cf_kind k = ConflictKindDeleteSet ∨ cf_kind k = ConflictKindRoot ∧ ¬ same_root a b) ∧
  (∀ d x, mk_conflict ConflictKindDeleteSet d x resolveNone ∈ cs ↔ edit_after_delete c d x) ∧
  (∀ k, k ∈ cs → cf_res k = resolveNone) ∧
  NoDup cs.
Proof. exact Merge_conflicts_exact. Qed.
Print Assumptions C15_conflicts_exact.

(** A conflict is reported whenever there is an edit after a delete. *)
Theorem C15_conflict_reported_partial : ∀ a b c d x,
  valid_log a → valid_log b → compatible a b → no_impostor a b → is_union a b c →
  edit_after_delete c d x →
  ∃ cs, TxMerge a b [] = Ok (Conflicts cs) ∧ mk_conflict ConflictKindDeleteSet d x resolveNone ∈ cs.
Proof. exact Merge_conflict_reported. Qed.
Print Assumptions C15_conflict_reported_partial.

Example C15_example :
  valid_log repD ∧ valid_log repE ∧ compatible repD repE ∧ is_union repD repE repDE ∧ no_impostor repD repE ∧
  TxMerge repD repE [] =
    Ok (Conflicts [mk_conflict ConflictKindDeleteSet (tdel 10 "u") (tset 11 "u" "pass" "x") resolveNone]).
Proof. eauto 10 using repD_valid, repE_valid, repDE_compat, repDE_ni, repDE_union, repDE_merge. Qed.

(** In the look-alike case a conflict goes unreported. *)
Theorem C15_conflict_missed_refuted :
  ∃ a b c d x, valid_log a ∧ valid_log b ∧ compatible a b ∧ is_union a b c ∧
    edit_after_delete c d x ∧ TxMerge a b [] = Ok (Merged a).
Proof. exact conflict_missed. Qed.
Print Assumptions C15_conflict_missed_refuted.

(** ** C16 *)

(** Two machines that forked once are safe. *)
Theorem C16_fast_path_sound_partial : ∀ a b,
  time_sorted a → time_sorted b → forked a b → look_alike a b → a = b.
Proof. exact forked_no_impostor. Qed.
Print Assumptions C16_fast_path_sound_partial.

(** ... and so is any pair of which one contains the other. *)
Theorem C16_fast_path_sound_subset_partial : ∀ a b,
  time_sorted a → time_sorted b → (∀ x, x ∈ a → x ∈ b) → look_alike a b → a = b.
Proof. exact subset_no_impostor. Qed.
Print Assumptions C16_fast_path_sound_subset_partial.

Example C16_example : time_sorted repA ∧ time_sorted repB ∧ forked repA repB.
Proof.
  split; [apply repA_valid|]. split; [apply repB_valid|].
  exists base, (drop 4 repA), (drop 4 repB). split; [done|]. split; [done|].
  intros t t' Ht Ht'. unfold repA, repB, base in Ht, Ht'. simpl in Ht, Ht'.
  repeat (apply elem_of_cons in Ht as [->|Ht]); [..|by apply elem_of_nil in Ht];
  repeat (apply elem_of_cons in Ht' as [->|Ht']); try done; by apply elem_of_nil in Ht'.
Qed.

(** With three machines it is false: machines 1 and 2 each make a change and
    each pull the change of machine 3.  When 1 then pulls from 2, the logs have
    the same length, first and last time, and 2's change is dropped. *)
Theorem C16_fast_path_loses_data_refuted :
  ∃ p x1 x2 x3 m1 m2 r,
    valid_log (p ++ [x1]) ∧ valid_log (p ++ [x2]) ∧ valid_log (p ++ [x3]) ∧
    time_ids (p ++ [x1; x2; x3]) ∧
    TxMerge (p ++ [x1]) (p ++ [x3]) [] = Ok (Merged m1) ∧
    TxMerge (p ++ [x2]) (p ++ [x3]) [] = Ok (Merged m2) ∧
    TxMerge m1 m2 [] = Ok (Merged r) ∧
    x2 ∈ m2 ∧ x2 ∉ r.
Proof. exact fast_path_loses. Qed.
Print Assumptions C16_fast_path_loses_data_refuted.

(** ** C17 *)

Theorem C17_choose_delete : ∀ a b c cs,
  valid_log a → valid_log b → compatible a b → is_union a b c →
  TxMerge a b [] = Ok (Conflicts cs) →
  let r := filter (λ x, ¬ after_delete c x) c in
  TxMerge a b (answer (λ _, resolveDiscardConflict) <$> cs) = Ok (Merged r) ∧
  replayable r ∧
  ∀ d x, edit_after_delete c d x → ¬ visible r (tx_uuid d).
Proof. exact all_delete. Qed.
Print Assumptions C17_choose_delete.

(** ** C18 *)

(** Restoring drops exactly the conflicting deletes.  The entry is visible
    again, with all its other transactions, if that was its only delete. *)
Theorem C18_choose_restore_partial : ∀ a b c cs,
  valid_log a → valid_log b → compatible a b → is_union a b c →
  TxMerge a b [] = Ok (Conflicts cs) →
  let r := filter (λ x, ¬ conflicting_delete c x) c in
  TxMerge a b (answer (λ _, resolveDiscardInitial) <$> cs) = Ok (Merged r) ∧
  replayable r ∧
  ∀ d x, edit_after_delete c d x →
    (∀ d', d' ∈ c → tx_kind d' = "del" → tx_uuid d' = tx_uuid d → d' = d) →
    visible r (tx_uuid d) ∧ entry_txs (tx_uuid d) r = filter (λ t, t ≠ d) (entry_txs (tx_uuid d) c).
Proof. exact all_restore. Qed.
Print Assumptions C18_choose_restore_partial.

(** Any mix of choices: exactly what they ask for. *)
Theorem C18_mixed_choices : ∀ a b c f cs,
  valid_log a → valid_log b → compatible a b → is_union a b c → two_choices f →
  TxMerge a b [] = Ok (Conflicts cs) →
  TxMerge a b (answer f <$> cs) = Ok (Merged (filter (kept_by f c) c)).
Proof. exact Merge_answered. Qed.
Print Assumptions C18_mixed_choices.

Example C17_C18_example :
  TxMerge repD repE (answer (λ _, resolveDiscardConflict) <$>
      [mk_conflict ConflictKindDeleteSet (tdel 10 "u") (tset 11 "u" "pass" "x") resolveNone])
    = Ok (Merged (base ++ [tdel 10 "u"; tset 13 "w" "k" "v"; tset 20 "w" "k" "v"]%Z)) ∧
  TxMerge repD repE (answer (λ _, resolveDiscardInitial) <$>
      [mk_conflict ConflictKindDeleteSet (tdel 10 "u") (tset 11 "u" "pass" "x") resolveNone])
    = Ok (Merged (base ++ [tset 11 "u" "pass" "x"; tset 12 "u" "pass" "y"; tset 13 "w" "k" "v"; tset 20 "w" "k" "v"]%Z)).
Proof. split; compute_dec. Qed.

(** Both machines deleted the entry: the conflict is reported, "restore" is
    offered and accepted, and the entry is still deleted. *)
Theorem C18_restore_leaves_deleted_refuted :
  ∃ a b cs d x r, valid_log a ∧ valid_log b ∧ compatible a b ∧
    TxMerge a b [] = Ok (Conflicts cs) ∧ mk_conflict ConflictKindDeleteSet d x resolveNone ∈ cs ∧
    TxMerge a b (answer (λ _, resolveDiscardInitial) <$> cs) = Ok (Merged r) ∧
    ¬ visible r (tx_uuid d).
Proof. exact restore_leaves_deleted. Qed.
Print Assumptions C18_restore_leaves_deleted_refuted.

(** ** C19 *)

Theorem C19_resolution_settles : ∀ a b f,
  valid_log a → valid_log b → compatible a b → ¬ (a = [] ∧ b = []) → two_choices f →
  settles a b f [].
Proof. exact settles_all. Qed.
Print Assumptions C19_resolution_settles.

Example C19_example :
  valid_log repD ∧ valid_log repE ∧ compatible repD repE ∧ two_choices (λ d, if (tx_time d =? 10)%Z then resolveDiscardInitial else resolveDiscardConflict).
Proof.
  split; [apply repD_valid|]. split; [apply repE_valid|]. split; [apply repDE_compat|].
  intros d. simpl. destruct (tx_time d =? 10)%Z; auto.
Qed.

(** For logs that do not replay (an edit after a delete within one log) it is
    false: two deletes of one entry are reported in turns for ever. *)
Theorem C19_corrupt_log_never_settles_refuted :
  ∃ a b f, time_sorted a ∧ time_sorted b ∧ compatible a b ∧ two_choices f ∧ ¬ settles a b f [].
Proof. exact never_settles. Qed.
Print Assumptions C19_corrupt_log_never_settles_refuted.

(** ** C20 *)

(** What holds: without delete/set conflicts mergeLogs asks nothing, or only
    about the roots, and returns the union. *)
Theorem C20_clean_merge_completes_partial : ∀ local remote inp c,
  valid_log local → valid_log remote → compatible local remote → no_impostor local remote →
  is_union local remote c → conflict_free c → same_root local remote → remote ≠ [] →
  mergeLogs local remote inp = UOk c inp.
Proof. exact mergeLogs_clean_spec. Qed.
Print Assumptions C20_clean_merge_completes_partial.

Theorem C20_forced_merge_completes_partial : ∀ local remote c s inp,
  valid_log local → valid_log remote → compatible local remote →
  is_union local remote c → conflict_free c → local ≠ [] → remote ≠ [] → ¬ same_root local remote →
  s ∈ ["y"; "Y"; "yes"; "YES"] →
  mergeLogs local remote (ILine s :: inp) = UOk c inp.
Proof. exact mergeLogs_forced_spec. Qed.
Print Assumptions C20_forced_merge_completes_partial.

Example C20_example :
  conflict_free repAB ∧ same_root repA repB ∧ mergeLogs repA repB [ILine "d"] = UOk repAB [ILine "d"].
Proof.
  split; [|split; [by intros x y [= <-] [= <-]|compute_dec]].
  apply (C11_merge_succeeds_iff_partial repA repB repAB); eauto using repA_valid, repB_valid, repAB_compat, repAB_ni, repAB_merge.
  by intros [? _].
Qed.

(** The property itself is false for every conflict and every input: once
    there is an edit after a delete, no answer makes mergeLogs return. *)
Theorem C20_conflict_prompt_never_completes_refuted : ∀ local remote c d x inp r rest,
  valid_log local → valid_log remote → compatible local remote → no_impostor local remote →
  is_union local remote c → edit_after_delete c d x →
  mergeLogs local remote inp ≠ UOk r rest.
Proof. exact mergeLogs_stuck_spec. Qed.
Print Assumptions C20_conflict_prompt_never_completes_refuted.

Example C20_refuted_example :
  edit_after_delete repDE (tdel 10 "u") (tset 11 "u" "pass" "x") ∧
  mergeLogs repD repE [ILine "d"; ILine "D"; ILine "r"; ILine "R"] = UWait ∧
  mergeLogs repD repE [ILine "d"; IErr EInterrupt] = UErr EInterrupt [].
Proof.
  split; [|split; compute_dec].
  apply (C15_conflicts_exact repD repE repDE _ repD_valid repE_valid repDE_compat repDE_union repDE_merge).
  by left.
Qed.

(** ** C21 *)

Theorem C21_merge_never_crashes_partial : ∀ a b res,
  valid_log a → valid_log b → compatible a b → ¬ (a = [] ∧ b = []) →
  asked a b res →
  ∃ r, TxMerge a b res = Ok r.
Proof. exact asked_total. Qed.
Print Assumptions C21_merge_never_crashes_partial.

(** The first call never crashes, whatever the logs, unless both are empty. *)
Theorem C21_first_merge_partial : ∀ a b, (∃ r, TxMerge a b [] = Ok r) ↔ ¬ (a = [] ∧ b = []).
Proof. exact Merge_first_total. Qed.
Print Assumptions C21_first_merge_partial.

Example C21_example :
  asked repD repE [mk_conflict ConflictKindDeleteSet (tdel 10 "u") (tset 11 "u" "pass" "x") resolveDiscardInitial].
Proof.
  eapply asked_next; [apply asked_start|exact repDE_merge|]. repeat constructor. done.
Qed.

(** Two empty logs crash it, and so does answering a delete/set conflict with
    Force. *)
Theorem C21_empty_logs_crash_refuted : TxMerge [] [] [] = Panic.
Proof. reflexivity. Qed.
Print Assumptions C21_empty_logs_crash_refuted.

Theorem C21_force_crashes_refuted :
  ∃ a b cs, valid_log a ∧ valid_log b ∧ compatible a b ∧
    TxMerge a b [] = Ok (Conflicts cs) ∧ TxMerge a b (Force <$> cs) = Panic.
Proof.
  eexists repD, repE, _. split; [apply repD_valid|]. split; [apply repE_valid|]. split; [apply repDE_compat|].
  split; [apply repDE_merge|]. compute_dec.
Qed.
Print Assumptions C21_force_crashes_refuted.

(** ** C22 *)

Theorem C22_unrelated_never_merged : ∀ local remote inp c rest x y,
  head local = Some x → head remote = Some y → tx_time x ≠ tx_time y →
  mergeLogs local remote inp = UOk c rest →
  ∃ pre s post, inp = pre ++ ILine s :: post ∧ s ∈ ["y"; "Y"; "yes"; "YES"].
Proof. exact mergeLogs_root_spec. Qed.
Print Assumptions C22_unrelated_never_merged.

(** The same one level down: Merge itself needs the first conflict forced. *)
Theorem C22_merge_needs_force : ∀ a b res c x y,
  head a = Some x → head b = Some y → tx_time x ≠ tx_time y →
  TxMerge a b res = Ok (Merged c) →
  ∃ k res', res = k :: res' ∧ cf_res k = resolveForce.
Proof. exact Merge_root_needs_force. Qed.
Print Assumptions C22_merge_needs_force.

Example C22_example :
  mergeLogs [tadd 1 "u"] [tadd 2 "w"]%Z [ILine "what"; ILine "y"] = UOk [tadd 1 "u"; tadd 2 "w"]%Z [] ∧
  mergeLogs [tadd 1 "u"] [tadd 2 "w"]%Z [ILine "what"; ILine "n"] = UErr (EMsg "sync target was a total fork") [].
Proof. split; compute_dec. Qed.
