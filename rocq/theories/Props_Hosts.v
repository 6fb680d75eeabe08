(** C59: a known host with a changed key is refused. *)
From Verif Require Import Spec_Hosts Spec_Blobs Proof_Hosts Proof_Blobs.
From stdpp Require Import options.

(** Every text of known hosts is in one of four cases for a host and a key. *)
Theorem C59_cases known hostname keyType keyHash :
  (∃ l, first_for known hostname l ∧
    (same_key hostname keyType keyHash l ∨ other_key hostname keyType keyHash l ∨ no_key hostname keyType l)) ∨
  unknown_host known hostname.
Proof. exact (host_cases known hostname keyType keyHash). Qed.
Print Assumptions C59_cases.

(** Accepted without asking exactly if the first line for this host has the same
    kind of key and the same hash. *)
Theorem C59_accepted known hostname addr keyType keyHash inp :
  (∃ rest, host_callback known hostname addr keyType keyHash inp = UOk None rest) ↔
  ∃ l, first_for known hostname l ∧ same_key hostname keyType keyHash l.
Proof.
  split.
  - intros [rest H]. destruct (host_cases known hostname keyType keyHash) as [(l & Hf & [Hs|[Ho|Hn]])|Hu].
    + by exists l.
    + destruct (other_refused known hostname addr keyType keyHash inp l Hf Ho) as [e E]. by rewrite E in H.
    + by rewrite (short_panics known hostname addr keyType keyHash inp l Hf Hn) in H.
    + rewrite unknown_asks in H by done. destruct inp as [|[s|e] r]; [done| |done]. by destruct (_ || _).
  - intros (l & Hf & Hs). exists inp. exact (same_accepted known hostname addr keyType keyHash inp l Hf Hs).
Qed.
Print Assumptions C59_accepted.
Theorem C59_accepted_unasked known hostname addr keyType keyHash l inp :
  first_for known hostname l → same_key hostname keyType keyHash l →
  host_callback known hostname addr keyType keyHash inp = UOk None inp.
Proof. exact (same_accepted known hostname addr keyType keyHash inp l). Qed.
Print Assumptions C59_accepted_unasked.

(** Another kind of key or another hash is refused, and no answer is read. *)
Theorem C59_refused known hostname addr keyType keyHash l inp :
  first_for known hostname l → other_key hostname keyType keyHash l →
  ∃ e, host_callback known hostname addr keyType keyHash inp = UErr e inp.
Proof. exact (other_refused known hostname addr keyType keyHash inp l). Qed.
Print Assumptions C59_refused.

Definition two_hosts : string := "a:22 1.1.1.1:22 ssh-rsa aa" +:+ String (Zbyte 10) "b:22 2.2.2.2:22 ssh-ed25519 bb".
Example C59_ex :
  ∃ l, first_for two_hosts "b:22" l ∧ same_key "b:22" "ssh-ed25519" "bb" l ∧ other_key "b:22" "ssh-ed25519" "cc" l ∧
    other_key "b:22" "ssh-rsa" "bb" l.
Proof.
  exists "b:22 2.2.2.2:22 ssh-ed25519 bb".
  assert (words_of "b:22 2.2.2.2:22 ssh-ed25519 bb" ["b:22"; "2.2.2.2:22"; "ssh-ed25519"; "bb"]) as H by by apply parts_split.
  split; [|split; [|split]].
  - exists ["a:22 1.1.1.1:22 ssh-rsa aa"], []. split; [by apply parts_split|]. split; [by eexists|].
    intros x ->%elem_of_list_singleton Hw%for_host_split. vm_compute in Hw. discriminate.
  - by eexists _, _.
  - eexists _, _, _. split; [exact H|]. right. by eexists _, _.
  - eexists _, _, _. split; [exact H|]. by left.
Qed.

(** The check does not always end with an answer: a line for the host with less
    than four words is a crash, unless the third says another kind. *)
Theorem C59_short_line_refuted known hostname addr keyType keyHash l inp :
  first_for known hostname l → no_key hostname keyType l →
  host_callback known hostname addr keyType keyHash inp = UPanic.
Proof. exact (short_panics known hostname addr keyType keyHash inp l). Qed.
Print Assumptions C59_short_line_refuted.
Example C59_short_line_ex : host_callback "a:22 1.1.1.1:22 ssh-rsa" "a:22" "1.1.1.1:22" "ssh-rsa" "aa" [] = UPanic.
Proof. reflexivity. Qed.

(** An unknown host: the user is asked once, and only y or Y accepts it; only
    then there is something to remember, and it has this host's name and key. *)
Theorem C59_unknown known hostname addr keyType keyHash inp :
  unknown_host known hostname →
  host_callback known hostname addr keyType keyHash inp =
  match inp with
  | [] => UWait
  | IErr e :: rest => UErr e rest
  | ILine s :: rest =>
      if String.eqb s "y" || String.eqb s "Y" then UOk (Some (hostname +:+ " " +:+ addr +:+ " " +:+ keyType +:+ " " +:+ keyHash)) rest
      else UErr (EMsg "user rejected host") rest
  end.
Proof. exact (unknown_asks known hostname addr keyType keyHash inp). Qed.
Print Assumptions C59_unknown.
Example C59_unknown_ex : unknown_host two_hosts "c:22" ∧ unknown_host "" "c:22".
Proof.
  split.
  - exists ["a:22 1.1.1.1:22 ssh-rsa aa"; "b:22 2.2.2.2:22 ssh-ed25519 bb"]. split; [by apply parts_split|].
    intros l Hl Hw%for_host_split. apply elem_of_cons in Hl as [->|Hl%elem_of_list_singleton]; [|subst l]; vm_compute in Hw; discriminate.
  - exists [""]. split; [by apply parts_split|]. intros l ->%elem_of_list_singleton Hw%for_host_split. vm_compute in Hw. discriminate.
Qed.

(** Once remembered, the same key is accepted without asking, and another one is
    refused; what was known about other hosts is still known. *)
Theorem C59_remembered known hostname addr keyType keyHash :
  a_word hostname → a_word addr → a_word keyType → a_word keyHash → unknown_host known hostname →
  let known' := add_line known (hostLine hostname addr keyType keyHash) in
  (∀ addr' inp, host_callback known' hostname addr' keyType keyHash inp = UOk None inp) ∧
  (∀ addr' keyType' keyHash' inp, (keyType', keyHash') ≠ (keyType, keyHash) →
     ∃ e, host_callback known' hostname addr' keyType' keyHash' inp = UErr e inp) ∧
  (∀ h2 addr2 ty2 hash2 inp, h2 ≠ "" → h2 ≠ hostname →
     host_callback known' h2 addr2 ty2 hash2 inp = host_callback known h2 addr2 ty2 hash2 inp).
Proof.
  intros H1 H2 H3 H4 Hu. cbv zeta. pose proof (remembered_first known hostname addr keyType keyHash H1 H2 H3 H4 Hu) as Hf.
  assert (words_of (hostLine hostname addr keyType keyHash) [hostname; addr; keyType; keyHash]) as Hw
    by (apply hostLine_words; [apply H1|apply H2|apply H3|apply H4]).
  split; [|split].
  - intros addr' inp. eapply same_accepted; [exact Hf|]. by eexists _, _.
  - intros addr' t h inp Hne. eapply other_refused; [exact Hf|]. eexists _, _, _. split; [exact Hw|].
    destruct (decide (keyType = t)) as [->|]; [|by left]. right. eexists _, _. split; [done|]. congruence.
  - intros. by apply others_kept.
Qed.
Print Assumptions C59_remembered.
Example C59_remembered_ex : a_word "c:22" ∧ a_word "3.3.3.3:22" ∧ a_word "ssh-rsa" ∧ a_word "cc".
Proof. repeat split; discriminate. Qed.

(** saveHosts writes exactly the new lines: the contents are those with the lines
    added, and nothing but known hosts of these entries is written. *)
Theorem C59_saved e l d m :
  NoDup l.*1 → holds d m → snap_of d = m → (∀ u, u ∈ l.*1 → is_Some (m !! u)) →
  ∃ d', saveHosts e l d = (d', Ok tt) ∧ holds d' (remember l m) ∧ snap_of d' = remember l m ∧ db_txpoint d' = db_txpoint d ∧
    ∃ txs, vis (db_log d') = vis (db_log d) ++ txs ∧ length txs = length l ∧
      ∀ t, t ∈ txs → tx_kind t = "setk" ∧ tx_key t = "knownhosts" ∧ tx_uuid t ∈ l.*1.
Proof. exact (saveHosts_ok e l d m). Qed.
Print Assumptions C59_saved.
Theorem C59_saved_text l m u : NoDup l.*1 →
  remember l m !! u = match (list_to_map l : gmap string string) !! u with
    | Some line => (λ b : entry, <["knownhosts" := add_line (default "" (b !! "knownhosts")) line]> b) <$> m !! u
    | None => m !! u
    end.
Proof. exact (remember_lookup l m u). Qed.
Print Assumptions C59_saved_text.

(** An entry that is gone: the host check of a deleted sync entry leaves a log
    that cannot be replayed. *)
Theorem C59_saved_gone_refuted e u line d m :
  holds d m → snap_of d = m → m !! u = None →
  ∃ d' err, saveHosts e [(u, line)] d = (d', Fail err) ∧ ¬ replayable (vis (db_log d')).
Proof. exact (saveHosts_gone e u line d m). Qed.
Print Assumptions C59_saved_gone_refuted.

(** A store with a sync entry *)
Definition hosts_env : env := mk_env (λ _, 7%Z) (λ _, 0%nat) "s" (λ _ m, map_to_list m).
Example C59_saved_ex : ∃ d m, holds d m ∧ snap_of d = m ∧ is_Some (m !! "s") ∧ m !! "t" = None.
Proof.
  assert (fair hosts_env) as Hf by by intros j m.
  destruct (holds_update _ _ (holds_add 0 7 db_new "s" ∅ holds_new eq_refl)) as (d & _ & Hs & _ & _ & Hh).
  exists d, (<["s" := ∅]> ∅). split; [done|]. split; [done|]. rewrite lookup_insert. split; [by eexists|].
  by rewrite lookup_insert_ne.
Qed.
