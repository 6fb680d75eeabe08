(** C94: the help. C95: the lines remembered. *)
From Verif Require Import Proof_Crypt7 Spec_History Spec_Lines Proof_Lines Proof_SessionEx Proof_Session Proof_Repl Proof_Repl5 Proof_Repl6 Proof_Repl7 Proof_Main Proof_Blobs Proof_History.
From Coq Require Import Lia.
From stdpp Require Import options.
Import Model_GoStr.
#[local] Open Scope nat_scope.

(** ** C94: the help names the commands there are, with what they need *)

(** The topics: without a word the whole of the commands, and three more. *)
Theorem C94_topics : ∀ more, help_text [] = replHelp ∧ help_text ("sync" :: more) = syncHelp ∧
  help_text ("users" :: more) = usersHelp ∧ help_text ("other" :: more) = otherHelp.
Proof. done. Qed.
Print Assumptions C94_topics.

(** On any other topic nothing is printed, not even that there is no such topic. *)
Theorem C94_topic_refuted : ∀ topic more, topic ∉ ["sync"; "users"; "other"] → help_text (topic :: more) = "".
Proof.
  intros topic more H. unfold help_text. rewrite !elem_of_cons in H.
  destruct (String.eqb_spec topic "sync") as [->|_]; [tauto|]. destruct (String.eqb_spec topic "users") as [->|_]; [tauto|].
  destruct (String.eqb_spec topic "other") as [->|_]; [tauto|]. done.
Qed.
Print Assumptions C94_topic_refuted.

(** The usages in the texts are these. *)
Theorem C94_usages : ∀ u, advertised u ↔ u ∈ all_usages.
Proof. exact advertised_iff. Qed.
Print Assumptions C94_usages.

(** Every command is in the help, and every command in the help is one. *)
Theorem C94_commands : ∀ cmd, is_command cmd ↔ ∃ sig, advertised (cmd :: sig).
Proof. exact advertised_commands. Qed.
Print Assumptions C94_commands.

(** So a word is unknown to the command loop exactly if the help has no such command. *)
Theorem C94_unknown : ∀ ro ctx line cmd ws, Fields (TrimSpace line) = cmd :: ws →
  parse_line ro ctx line = Unknown ↔ ¬ ∃ sig, advertised (cmd :: sig).
Proof. exact unknown_help. Qed.
Print Assumptions C94_unknown.

(** Outside of an entry: with fewer arguments than the help says are needed there is
    a message about the syntax; *)
Theorem C94_too_few : ∀ cmd sig args, advertised (cmd :: sig) → length args < needs sig → run_of "" cmd args = Usage.
Proof. exact too_few. Qed.
Print Assumptions C94_too_few.
(** with those needed, and any number of those that are not, the command is run. *)
Theorem C94_taken : ∀ cmd sig args, advertised (cmd :: sig) → Forall (λ a, a ≠ "") args → needs sig ≤ length args ≤ length sig →
  ∃ c, run_of "" cmd args = Run c.
Proof. exact taken. Qed.
Print Assumptions C94_taken.
(** The same for what is typed, words with one blank between them, and for what it
    means; missing are lines with more blanks, which set does not take. *)
Theorem C94_typed_partial : ∀ ctx cmd sig args, advertised (cmd :: sig) → Forall typed (cmd :: args) → ctx = "" → needs sig ≤ length args ≤ length sig →
  ∃ c, parse_line false ctx (go_join " " (cmd :: args)) = Run c ∧ means ctx cmd args c.
Proof. exact typed_help. Qed.
Print Assumptions C94_typed_partial.

(** Inside of an entry, "use cd to omit query": the commands that take a query take
    the entry for it, and the arguments after it. *)
Theorem C94_inside : ∀ cmd sig ctx args, advertised (cmd :: "<query>" :: sig) → ctx ≠ "" → length args ≤ length sig →
  run_of ctx cmd args = run_of "" cmd (ctx :: args).
Proof. exact inside. Qed.
Print Assumptions C94_inside.

(** But set, typed as the help has it, with two blanks after it, is not taken: its
    words are cut at single blanks and the first one is empty. *)
Theorem C94_set_refuted : ∀ ctx q more, Forall typed (q :: more) → parse_line false ctx ("set " +:+ " " +:+ go_join " " (q :: more)) = Usage.
Proof. exact set_two. Qed.
Print Assumptions C94_set_refuted.

Example C94_example : advertised ["set"; "<query>"; "<key>"; "[value]"] ∧ needs ["<query>"; "<key>"; "[value]"] = 2 ∧
  ¬ advertised ["quit"] ∧ is_command "totp" ∧
  run_of "" "set" ["github"] = Usage ∧ run_of "" "set" ["github"; "user"] = Run (KSet "github" "user" "") ∧
  run_of "github" "set" ["user"] = Run (KSet "github" "user" "") ∧
  " set  <query> <key> [value] - Set a value on an entry (omit value for multi-line or password gen)" ∈ split_on (Zbyte 10) (help_text []) ∧
  parse_line false "" "set  github user me" = Usage ∧ parse_line false "" "rm  github" = Run (KRm "github").
Proof.
  split; [apply advertised_iff; compute_dec|]. split; [done|]. split; [rewrite advertised_iff; compute_dec|].
  split; [left; compute_dec|]. do 3 (split; [exact eq_refl|]). split; [compute_dec|]. split; exact eq_refl.
Qed.

(** ** C95: the lines remembered *)

(** Exactly the lines of the turns whose command came to its end, and those answered
    with a message about the syntax, in order. *)
Theorem C95_exact : ∀ w s inp h, (∀ n k, reads (w_sync (w n) k)) → recalled w s inp = h ↔ remembers w 0 "" s inp h.
Proof. exact recalled_exact. Qed.
Print Assumptions C95_exact.

(** Nothing is remembered that was not typed, none twice and none out of order. *)
Theorem C95_in_order : ∀ w s inp, (∀ n k, reads (w_sync (w n) k)) → recalled w s inp `sublist_of` trimmed inp.
Proof. intros w s inp Hw. eapply remembers_sublist; [done|]. by apply recalled_exact. Qed.
Print Assumptions C95_in_order.

(** Each starts with the name of a command, and none is exit; missing is that the
    command was given all it needs. *)
Theorem C95_commands_partial : ∀ w s inp l, (∀ n k, reads (w_sync (w n) k)) → l ∈ recalled w s inp →
  ∃ line cmd ws, ILine line ∈ inp ∧ l = TrimSpace line ∧ Fields l = cmd :: ws ∧ is_command cmd ∧ cmd ≠ "exit".
Proof. intros w s inp l Hw H. eapply remembers_commands; [done| |done]. by apply recalled_exact. Qed.
Print Assumptions C95_commands_partial.

(** In a read-only session only commands for reading are. *)
Theorem C95_reading : ∀ w s inp l, (∀ n k, reads (w_sync (w n) k)) → s_readOnly s = true → l ∈ recalled w s inp →
  ∃ cmd ws, Fields l = cmd :: ws ∧ cmd ∈ read_cmds.
Proof. intros w s inp l Hw Hro H. eapply remembers_read; [done| |done]. by apply recalled_exact. Qed.
Print Assumptions C95_reading.

(** What a command asks for, passphrases among it, is not remembered: the next line
    looked at is the first one that the command has not read. *)
Theorem C95_answers : ∀ w s line answers rest c s1 ctx1 o1 h, (∀ n k, reads (w_sync (w n) k)) →
  parse_line (s_readOnly s) "" line = Run c → c ≠ KExit → exec (w 0) "" c s (answers ++ rest) = (s1, UOk (ctx1, o1) rest) →
  remembers w 1 ctx1 s1 rest h → recalled w s (ILine line :: answers ++ rest) = TrimSpace line :: h.
Proof. intros. apply recalled_exact; [done|]. by eapply rem_done. Qed.
Print Assumptions C95_answers.

(** If all lines after the first are asked for by its command, only the first can be
    remembered. *)
Theorem C95_one : ∀ w s line answers c s1 r, (∀ n k, reads (w_sync (w n) k)) →
  parse_line (s_readOnly s) "" line = Run c → exec (w 0) "" c s answers = (s1, r) → (∀ a rest, r = UOk a rest → rest = []) →
  recalled w s (ILine line :: answers) = [] ∨ recalled w s (ILine line :: answers) = [TrimSpace line].
Proof. exact recalled_one. Qed.
Print Assumptions C95_one.

(** The lines are for "when a valid command has occurred" (line_editing.go:23-24);
    but so are commands that lack an argument. *)
Theorem C95_valid_refuted : ∀ w s line rest h, (∀ n k, reads (w_sync (w n) k)) → parse_line (s_readOnly s) "" line = Usage →
  remembers w 0 "" s rest h → recalled w s (ILine line :: rest) = TrimSpace line :: h.
Proof. intros. apply recalled_exact; [done|]. by apply rem_usage. Qed.
Print Assumptions C95_valid_refuted.

(** A secret given on the line of set is remembered with it. *)
Theorem C95_secret_refuted : ∀ w s m q k secret u b rest, (∀ n k, reads (w_sync (w n) k)) → s_readOnly s = false → ready (w 0) s m →
  picks (w_lower (w 0)) m q u → m !! u = Some b → Forall typed [q; k; secret] → ¬ protected_key k → (k = "url" → w_url (w 0) secret = GoodUrl) →
  ∃ h, recalled w s (ILine (go_join " " ["set"; q; k; secret]) :: rest) = go_join " " ["set"; q; k; secret] :: h.
Proof. exact recalled_set. Qed.
Print Assumptions C95_secret_refuted.

Example C95_example : (∀ n k, reads (w_sync (ex_ws n) k)) ∧
  recalled ex_ws se_single [ILine ""; ILine " help  me "; ILine "bogus"; ILine "rm"; ILine "cd mail"; ILine "dumpall"; ILine "exit"; ILine "ls"] =
    ["help  me"; "rm"; "cd mail"; "dumpall"] ∧
  ready (ex_ws 0) se_single se_m ∧ picks (w_lower (ex_ws 0)) se_m "mail" "u1" ∧ se_m !! "u1" = Some se_mail ∧ ¬ protected_key "pass" ∧
  recalled ex_ws se_single [ILine "set mail pass hunter3"; ILine "passwd"] = ["set mail pass hunter3"].
Proof.
  split; [intros n k s inp s' r [= <- <-]; unfold in_order; done|]. split; [vm_compute; reflexivity|].
  split; [exact ex_ready|]. split; [apply ex_picks|]. split; [apply ex_m_u1|]. split; [rewrite <-protected_spec; by vm_compute|].
  vm_compute. reflexivity.
Qed.
