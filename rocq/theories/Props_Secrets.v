(** C98: which commands give out stored values. *)
From Verif Require Import Model_Conflict Spec_Merge Spec_Secrets Spec_Main Proof_SessionEx Proof_Repl Proof_Repl2 Proof_Repl6 Proof_Main Proof_Secrets Props_Merge Props_Repl.
Import Spec_Secrets.
From Coq Require Import Lia.
From stdpp Require Import options.
Import Model_GoStr.
#[local] Open Scope nat_scope.

(** A command that is not for giving out values shows names, at most, and the url that is
    opened: in any state of the store, with any clock, random bytes and answers. *)
Theorem C98_quiet_partial : ∀ w ctx c s inp s' ctx' o rest, ¬ telling c → exec w ctx c s inp = (s', UOk (ctx', o) rest) → Forall quiet o.
Proof. intros w ctx c s inp s' ctx' o rest Hc E. exact (exec_quiet w ctx c Hc s inp s' (ctx', o) rest E). Qed.
Print Assumptions C98_quiet_partial.

(** cp, user, pass, email, totp and login bring values to the clipboard only. *)
Theorem C98_copy : ∀ w ctx c s inp s' ctx' o rest, copying c → exec w ctx c s inp = (s', UOk (ctx', o) rest) → Forall copied o.
Proof. intros w ctx c s inp s' ctx' o rest Hc E. exact (exec_copied w ctx c Hc s inp s' (ctx', o) rest E). Qed.
Print Assumptions C98_copy.

(** set shows what it has just stored, and nothing that was stored before. *)
Theorem C98_set : ∀ w q k v s inp s' o rest, set_cmd w q k v s inp = (s', UOk o rest) →
  o = [Note] ∨ o = [Report k v] ∨
  v = "" ∧ ∃ v', o = [Report k v'] ∧ ((k = "pass" ∧ newPassword (w_rand w) inp = UOk v' rest) ∨ (k ≠ "pass" ∧ promptMultiline inp = UOk v' rest)).
Proof. exact set_shows. Qed.
Print Assumptions C98_set.

(** The passphrase may be one that was typed without an echo, or a generated one: it is
    printed. *)
Theorem C98_set_refuted : ∀ w s m q u inp v rest, ready w s m → picks (w_lower w) m q u → newPassword (w_rand w) inp = UOk v rest →
  ∃ s', exec w "" (KSet q "pass" "") s inp = (s', UOk ("", [Report "pass" v]) rest).
Proof.
  intros w s m q u inp v rest Hr Hp E. destruct (picks_entry _ m q u Hp) as (b & n & Hb & _).
  destruct (set_pass_asked w s m q u b inp v rest Hr Hp Hb E) as (s' & H & _). exists s'. cbn [exec]. unfold showing.
  by rewrite (C_ok _ _ _ _ _ _ _ H).
Qed.
Print Assumptions C98_set_refuted.

(** A whole session in which no line starts with the word of a command that gives out values *)
Theorem C98_session : ∀ w s inp s' o r, (∀ cmd, cmd ∈ telling_words → never_typed cmd inp) → run_repl w s inp = (s', o, r) → Forall quiet o.
Proof. exact session_quiet. Qed.
Print Assumptions C98_session.

(** ... or of one that prints them *)
Theorem C98_session_copy : ∀ w s inp s' o r, (∀ cmd, cmd ∈ printing_words → never_typed cmd inp) → run_repl w s inp = (s', o, r) →
  Forall (λ x, quiet x ∨ copied x) o.
Proof. exact session_unprinted. Qed.
Print Assumptions C98_session_copy.

(** The words are the ones of the commands. *)
Theorem C98_words : ∀ ro ctx line c, parse_line ro ctx line = Run c →
  (telling c → ∃ cmd, head (Fields (TrimSpace line)) = Some cmd ∧ cmd ∈ telling_words) ∧
  (telling c → ¬ copying c → ∃ cmd, head (Fields (TrimSpace line)) = Some cmd ∧ cmd ∈ printing_words).
Proof. intros ro ctx line c E. split; [by apply (telling_word ro ctx)|by apply (printing_word ro ctx)]. Qed.
Print Assumptions C98_words.

(** The question about a conflict is meant to tell what happened to the entry after it was
    deleted, with the value.  It never does, so that no value is printed, and the person
    asked has to decide without: the kind looked at is the one of the delete. *)
Theorem C98_conflict_refuted : ∀ a b cs, valid_log a → valid_log b → compatible a b → TxMerge a b [] = Ok (Conflicts cs) →
  ∀ k, k ∈ cs → conflict_tells k = "".
Proof. exact conflict_untold. Qed.
Print Assumptions C98_conflict_refuted.

Example C98_example :
  ready ex_world se_single se_m ∧ picks toy_lower se_m "mail" "u1" ∧
  newPassword (w_rand ex_world) [ILine "m"; ILine "s3cret"; ILine "s3cret"] = UOk "s3cret" [] ∧
  (∀ cmd, cmd ∈ telling_words → never_typed cmd [ILine "ls"; ILine "rm mail"; ILine "cd mail"; IErr EEnd]) ∧
  match run_repl (λ _, ex_world) se_single [ILine "ls"; ILine "cd mail"; IErr EEnd] with (_, o, UOk _ []) => bool_decide (length o = 1) | _ => false end = true ∧
  TxMerge repD repE [] = Ok (Conflicts [mk_conflict ConflictKindDeleteSet (tdel 10 "u") (tset 11 "u" "pass" "x") resolveNone]) ∧
  conflict_tells (mk_conflict ConflictKindDeleteSet (tset 10 "u" "user" "bob") (tset 11 "u" "pass" "x") resolveNone) ≠ "".
Proof.
  split; [apply ex_ready|]. split; [apply ex_picks|]. split; [vm_compute; reflexivity|]. split.
  { intros cmd Hc line Hl. apply elem_of_list_In in Hl. cbn in Hl. apply elem_of_list_In in Hc. cbn in Hc.
    destruct Hl as [[= <-]|[[= <-]|[[= <-]|[[=]|[]]]]]; intros [= <-]; vm_compute in Hc; intuition discriminate. }
  split; [vm_compute; reflexivity|]. split; [exact repDE_merge|]. intros H. vm_compute in H. discriminate.
Qed.
