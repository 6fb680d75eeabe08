(** C88-C90: tab completion, lines typed on Windows, prompts and the programs started. *)
From Verif Require Import Spec_Editor Model_TxLog Proof_TxLog Proof_Trim Proof_Lines Proof_Repl6 Proof_SessionEx Proof_Editor Props_Main.
From Coq Require Import Lia Sorting.Sorted.
From stdpp Require Import options.
Import Model_GoStr.

(** ** C88: tab completion *)

(** Offered are the names of all entries, each as often as it occurs, in order. *)
Theorem C88_names : ∀ lower e ord d m, holds d m → all_named m → fair e → fair_results ord →
  ∃ d' l, entryCompleter lower e ord (Some d) = (Some d', Ok l) ∧ l ≡ₚ names_in m ∧ Sorted (λ a b, String.leb a b = true) l ∧
    holds d' m ∧ db_log d' = db_log d.
Proof. exact completer_spec. Qed.
Print Assumptions C88_names.
(** It changes nothing, whatever the store is, *)
Theorem C88_unchanged : ∀ lower e ord d d' r, entryCompleter lower e ord d = (d', r) → option_map db_log d' = option_map db_log d.
Proof. exact completer_log. Qed.
Print Assumptions C88_unchanged.
(** and before the file is opened there is nothing to offer. *)
Theorem C88_closed : ∀ lower e ord, entryCompleter lower e ord None = (None, Ok []).
Proof. done. Qed.
Print Assumptions C88_closed.
(** The names are those that ls lists. *)
Theorem C88_ls : ∀ w s inp s' l, list_cmd w "" s inp = (s', UOk [Names l] inp) →
  entryCompleter (w_lower w) (w_env w 0) (r_ord (w_rand w)) (Some (s_db s)) = (Some (s_db s'), Ok l).
Proof.
  intros w s inp s' l. unfold list_cmd, entryCompleter, mbind, C_bind, on_db. destruct (Search _ _ "" (s_db s)) as [d' [r|x|]]; cbn [of_outcome]; [|done|done].
  unfold mret, C_ret, names_of. destruct (r_ord (w_rand w) (res_map r)) as [|p q]; [done|]. by intros [= <- <-].
Qed.
Print Assumptions C88_ls.
(** With an entry that has no name (as the store of an earlier time can have, see
    [C55_unnamed_refuted]) the Tab key ends the program. *)
Theorem C88_unnamed_refuted : ∀ lower e ord d m u b, holds d m → fair e → m !! u = Some b → b !! "name" = None →
  (entryCompleter lower e ord (Some d)).2 = Panic.
Proof. exact completer_unnamed. Qed.
Print Assumptions C88_unnamed_refuted.

(** Every word offered first is a command, *)
Theorem C88_commands : ∀ c, c ∈ completions.*1 → c ∈ read_cmds ++ write_cmds.
Proof. apply Forall_forall. vm_compute. repeat constructor; set_solver. Qed.
Print Assumptions C88_commands.
(** but not every command is offered: these four are not, all others are. *)
Theorem C88_missing_refuted : ∀ c, c ∈ read_cmds ++ write_cmds → c ∉ completions.*1 ↔ c ∈ ["login"; "dump"; "dumpall"; "rekeyall"].
Proof.
  assert (Forall (λ c, bool_decide (c ∉ completions.*1) = bool_decide (c ∈ ["login"; "dump"; "dumpall"; "rekeyall"])) (read_cmds ++ write_cmds)) as H.
  { vm_compute. repeat constructor. }
  intros c Hc. rewrite Forall_forall in H. specialize (H c Hc). split; intros H'.
  - rewrite (bool_decide_eq_true_2 _ H') in H. symmetry in H. by apply bool_decide_eq_true_1 in H.
  - rewrite (bool_decide_eq_true_2 (c ∈ _) H') in H. by apply bool_decide_eq_true_1 in H.
Qed.
Print Assumptions C88_missing_refuted.
Lemma typed_b w : negb (String.eqb w "") && forallb (λ x, (32 <? byteZ x)%Z && (byteZ x <? 127)%Z) (str_bytes w) = true → typed w.
Proof.
  intros [H1 H2]%andb_true_iff. split; [intros ->; discriminate H1|]. intros x Hx. rewrite forallb_forall in H2. apply elem_of_list_In, H2 in Hx.
  apply andb_true_iff in Hx as [?%Z.ltb_lt ?%Z.ltb_lt]. done.
Qed.
(** Names of entries are offered after exactly those offered commands of which the next word
    is an entry, and keys after those of which the word after that is a key. *)
Theorem C88_next : ∀ cmd after name, (cmd, after) ∈ completions → typed name →
  (is_Some after ↔ ∃ rest c, Forall typed rest ∧ parse_line false "" (go_join " " (cmd :: name :: rest)) = Run c ∧ about_entry c = Some name) ∧
  ((∃ k ks, after = Some (k :: ks)) ↔ ∀ k, typed k → ∃ c, parse_line false "" (go_join " " [cmd; name; k]) = Run c ∧ about_entry c = Some name ∧ about_key c = Some k).
Proof.
  intros cmd after name H Hn. assert (name ≠ "") as Hn0 by apply Hn.
  assert (typed "x") as Hx by (apply typed_b; vm_compute; reflexivity).
  assert (typed cmd) as Hc.
  { assert (Forall typed completions.*1) as Hf by (cbn [fmap list_fmap completions fst]; repeat (constructor; [apply typed_b; vm_compute; reflexivity|]); constructor).
    rewrite Forall_forall in Hf. apply Hf. by apply (elem_of_list_fmap_1 fst) in H. }
  assert (∀ rest c, Forall typed rest → parse_line false "" (go_join " " (cmd :: name :: rest)) = Run c ↔ means "" cmd (name :: rest) c) as Hp.
  { intros rest c Hr. rewrite typed_means by (by constructor; [|constructor]). split; [by intros [? _]|done]. }
  assert (∀ rest, whose "" (name :: rest) name rest) as Hw by (intros rest; by left).
  assert ((is_Some after ↔ ∃ rest c, Forall typed rest ∧ means "" cmd (name :: rest) c ∧ about_entry c = Some name) ∧
    ((∃ k ks, after = Some (k :: ks)) ↔ ∀ k, typed k → ∃ c, means "" cmd [name; k] c ∧ about_entry c = Some name ∧ about_key c = Some k)) as [H1 H2].
  2:{ split.
      - rewrite H1. split; intros (rest & c & Hr & Hm & He); exists rest, c; (split; [done|]; split; [by apply Hp|done]).
      - rewrite H2. split; intros HH k Hk; destruct (HH k Hk) as (c & Hm & He); exists c; (split; [apply Hp; [by apply Forall_singleton|done]|done]). }
  clear Hp Hc. unfold completions in H.
  repeat (apply elem_of_cons in H as [[= -> ->]|H]; [split; split|]); [..|by apply elem_of_nil in H].
  all: lazymatch goal with
    | |- is_Some None → _ => by intros [? [=]]
    | |- _ → is_Some None => intros (rest & c & _ & Hm & He); inversion Hm; subst; first [discriminate He|by exfalso; set_solver]
    | |- _ → is_Some (Some _) => intros _; by eexists
    | |- (∃ _ _, None = _) → _ => by intros (? & ? & [=])
    | |- (∃ _ _, Some [] = _) → _ => by intros (? & ? & [=])
    | |- _ → ∃ _ _, Some some_keys = _ => intros _; by do 2 eexists
    | |- (∃ _ _, Some some_keys = _) → _ => intros _ k Hk; assert (k ≠ "") as Hk0 by apply Hk
    | |- is_Some (Some _) → _ => intros _
    | |- (∀ _, _) → _ => intros HH; exfalso; destruct (HH "x" Hx) as (c & Hm & He & Hk); inversion Hm; subst; first [discriminate He|discriminate Hk|by set_solver]
    end.
  all: assert ("x" ≠ "") as Hx0 by discriminate.
  all: try (eexists; split; [first [by apply (means_set "" _ name k [])|by apply means_get|by apply means_cp|by eapply means_edit|by eapply means_rmk]|split; reflexivity]; fail).
  all: first [
    exists [], (KRm name); split; [constructor|]; split; [by constructor|done]
  | exists ["x"], (KMv name "x"); split; [by apply Forall_singleton|]; split; [by constructor|done]
  | exists [], (KCd (Some name)); split; [constructor|]; split; [by constructor|done]
  | exists [], (KShow name 0); split; [constructor|]; split; [by apply means_show|done]
  | exists ["x"], (KSet name "x" ""); split; [by apply Forall_singleton|]; split; [by apply (means_set "" _ name "x" [])|done]
  | exists ["x"], (KGet name "x" (-1) false); split; [by apply Forall_singleton|]; split; [by apply means_get|done]
  | exists ["x"], (KGet name "x" (-1) true); split; [by apply Forall_singleton|]; split; [by apply means_cp|done]
  | exists ["x"], (KEdit name "x"); split; [by apply Forall_singleton|]; split; [by eapply means_edit|done]
  | exists [], (KOpen name); split; [constructor|]; split; [by eapply means_open|done]
  | exists ["x"], (KRmk name "x"); split; [by apply Forall_singleton|]; split; [by eapply means_rmk|done]
  | exists [], (KLabel name); split; [constructor|]; split; [by eapply means_label|done]
  | exists ["x"], (KRmLabel name "x"); split; [by apply Forall_singleton|]; split; [by eapply means_rmlabel|done]
  | exists [], (KSync name); split; [constructor|]; split; [by constructor|done]
  | eexists [], _; split; [apply Forall_nil_2|]; split; [eapply means_quick; [apply elem_of_list_In; cbn [In]; tauto|by left]|done] ].
Qed.
Print Assumptions C88_next.
Example C88_next_example : ("rm", Some []) ∈ completions ∧ ("addsync", None) ∈ completions ∧ typed "mail" ∧
  parse_line false "" "rm mail" = Run (KRm "mail") ∧ parse_line false "" "addsync mail" = Run (KAddSync "mail").
Proof. split; [apply elem_of_list_In; cbn [In completions]; tauto|]. split; [apply elem_of_list_In; cbn [In completions]; tauto|]. split; [apply typed_b; vm_compute; reflexivity|]. split; vm_compute; reflexivity. Qed.
(** A line completed to a command, a name and a key is that command on that entry and
    key, if the name is a word and no entry is entered. *)
Theorem C88_line_partial : ∀ cmd keys k name, (cmd, Some keys) ∈ completions → k ∈ keys → typed name →
  parse_line false "" (go_join " " [cmd; name; k]) = Run (
    if String.eqb cmd "set" then KSet name k "" else if String.eqb cmd "edit" then KEdit name k else if String.eqb cmd "rmk" then KRmk name k
    else KGet name k (-1) (String.eqb cmd "cp")).
Proof.
  assert (Forall typed some_keys ∧ Forall typed ["set"; "get"; "cp"; "edit"; "rmk"]) as [Hk Hc].
  { split; (apply Forall_forall; intros w Hw; repeat (apply elem_of_cons in Hw as [-> |Hw]; [apply typed_b; vm_compute; reflexivity|]); by apply elem_of_nil in Hw). }
  assert (∀ cmd keys k, (cmd, Some keys) ∈ completions → k ∈ keys → cmd ∈ ["set"; "get"; "cp"; "edit"; "rmk"] ∧ keys = some_keys) as Hin.
  { intros cmd keys k H Hkk. unfold completions in H. repeat (apply elem_of_cons in H as [H|H]; [first [discriminate H|injection H as -> ->; first [by apply elem_of_nil in Hkk|split; [set_solver|reflexivity]]]|]). by apply elem_of_nil in H. }
  intros cmd keys k name H Hkk Hn. destruct (Hin _ _ _ H Hkk) as [Hcc ->]. clear H Hin. rewrite Forall_forall in Hk, Hc. specialize (Hk k Hkk).
  assert (name ≠ "" ∧ k ≠ "") as [Hn0 Hk0] by (by destruct Hn, Hk).
  apply typed_means; [by constructor; [apply Hc|constructor; [|constructor]]|]. split; [|done].
  assert (whose "" [name; k] name [k]) as Hw by (by left).
  repeat (apply elem_of_cons in Hcc as [-> |Hcc]; [cbn [String.eqb Ascii.eqb Bool.eqb]|]); [..|by apply elem_of_nil in Hcc].
  - by apply (means_set _ _ name k []).
  - by apply means_get.
  - by apply means_cp.
  - by eapply means_edit.
  - by eapply means_rmk.
Qed.
Print Assumptions C88_line_partial.
(** Missing: once an entry is entered, names are still offered, where keys are expected; *)
Theorem C88_entered_refuted : ∀ ctx name, ctx ≠ "" → typed name → parse_line false ctx (go_join " " ["get"; name]) = Run (KGet ctx name (-1) false).
Proof.
  intros ctx name Hc Hn. apply typed_means; [constructor; [|by constructor]|].
  - apply typed_b. vm_compute. reflexivity.
  - split; [|done]. apply means_get. right. done.
Qed.
Print Assumptions C88_entered_refuted.
(** and a name with a blank, as an import can give it, makes another line. *)
Theorem C88_blank_refuted : parse_line false "" (go_join " " ["get"; "my bank"; "pass"]) = Usage ∧ parse_line false "" (go_join " " ["rmk"; "my notes"; "pass"]) = Run (KRmk "my" "notes").
Proof. vm_compute. done. Qed.
Print Assumptions C88_blank_refuted.

Example C88_example : holds se_db se_m ∧ all_named se_m ∧ fair se_env ∧ names_in se_m = ["mail"] ∧ typed "mail" ∧
  (entryCompleter (λ z, z) se_env (λ m, map_to_list m) (Some se_db)).2 = Ok ["mail"].
Proof.
  split; [apply se_good|]. split; [apply se_named|]. split; [apply se_fair|]. split; [vm_compute; reflexivity|]. split; [|vm_compute; reflexivity].
  apply typed_b. vm_compute. reflexivity.
Qed.
Example C88_unnamed_ex : ∃ d m, holds d m ∧ m !! "u1" = Some (∅ : entry).
Proof.
  exists (mk_db 0 None (mk_slice [mk_tx 10 "add" "u1" "" ""] []) 0), {["u1" := ∅]}. split; [|by rewrite lookup_singleton].
  split; [split; [compute_dec|apply replay_fn_ok; compute_dec]|apply replay_fn_ok; compute_dec].
Qed.

(** ** C89: lines typed on Windows *)

(** What is typed or pasted (in pieces that do not tear a character) without Backspace,
    and ended with Enter, is read, without the white space around it. *)
Theorem C89_typed_partial : ∀ rss rs nl more rest, Forall (Forall character) rss → Forall character rs → nl = 13%Z ∨ nl = 10%Z →
  LineHidden None (map (λ l, Chunk (utf16 l)) rss ++ Chunk (utf16 rs ++ nl :: more) :: rest) = TLine (TrimSpace (encode (concat rss ++ rs))).
Proof. intros rss rs nl more rest H1 H2 H3. by apply hidden_runes. Qed.
Print Assumptions C89_typed_partial.
(** Key by key, Backspace takes back the character before it, for ASCII. *)
Theorem C89_keys_partial : ∀ ks line nl more rest, Forall ascii_key ks → line_after [] ks = Some line → nl = 13%Z ∨ nl = 10%Z →
  LineHidden None (map (λ k, Chunk (key_units k)) ks ++ Chunk (nl :: more) :: rest) = TLine (TrimSpace (encode line)).
Proof. intros ks line nl more rest. apply hidden_keys. Qed.
Print Assumptions C89_keys_partial.
(** Without Backspace the line is text, whatever is typed. *)
Theorem C89_text : ∀ setup reads s, Forall (λ r, match r with Chunk l => ¬ (8%Z ∈ l) | _ => True end) reads → LineHidden setup reads = TLine s → utf8 s.
Proof.
  intros setup reads s H. unfold LineHidden. destruct setup; [done|]. destruct (hidden_loop _ _ _) as [t| | |] eqn:E; [|done..]. intros [= <-].
  apply Proof_Text.utf8_TrimSpace. eapply hidden_utf8; [exact H| | |exact E].
  - intros Hin. apply elem_of_replicate in Hin as [Hin _]. discriminate.
  - by exists [].
Qed.
Print Assumptions C89_text.
(** Ctrl-D and Ctrl-C on an empty line *)
Theorem C89_ended : ∀ rest, LineHidden None (Chunk [4%Z] :: rest) = TErr EEnd ∧ LineHidden None (Chunk [3%Z] :: rest) = TErr EInterrupt.
Proof. done. Qed.
Print Assumptions C89_ended.
(** An error of the console is reported. *)
Theorem C89_broken : ∀ x chunks rest, Forall (Forall (λ c, special_unit c = false)) chunks →
  LineHidden (Some x) (map Chunk chunks ++ rest) = TErr x ∧ LineHidden None (map Chunk chunks ++ Broken x :: rest) = TErr x.
Proof.
  intros x chunks rest H. split; [done|]. unfold LineHidden. by destruct (chunks_loop chunks H (replicate 256 0%Z) "" (Broken x :: rest) quiet_zeros) as (buf & _ & ->).
Qed.
Print Assumptions C89_broken.
(** Missing: a passphrase with white space at an end can never be typed, *)
Theorem C89_space_refuted : ∀ p setup reads, TrimSpace p ≠ p → LineHidden setup reads ≠ TLine p.
Proof. intros p setup reads H E. by apply hidden_tight in E. Qed.
Print Assumptions C89_space_refuted.
(** Backspace on an empty line ends the program, *)
Theorem C89_empty_refuted : ∀ rest, LineHidden None (Chunk [8%Z] :: rest) = TPanic.
Proof. done. Qed.
Print Assumptions C89_empty_refuted.
(** Backspace takes back a byte, not a character: é and Backspace leave a byte that is
    not text, *)
Theorem C89_byte_refuted : LineHidden None [Chunk [233%Z]; Chunk [8%Z]; Chunk [13%Z]] = TLine (String (Zbyte 195) "") ∧
  line_after [] [Press 233; Erase] = Some [].
Proof. vm_compute. done. Qed.
Print Assumptions C89_byte_refuted.
(** a Backspace that arrives together with other keys takes them with it, and all keys
    after it too, each with one more of what was typed before: here "pass", "wx" and
    Backspace at once, "y", "z" and Enter, *)
Theorem C89_stale_refuted : LineHidden None [Chunk [112; 97; 115; 115]%Z; Chunk [119; 120; 8]%Z; Chunk [121%Z]; Chunk [122%Z]; Chunk [13%Z]] = TLine "p" ∧
  line_after [] (map Press [112; 97; 115; 115; 119; 120]%Z ++ [Erase] ++ map Press [121; 122]%Z) = Some (map byteZ (str_bytes "passwyz")).
Proof. vm_compute. done. Qed.
Print Assumptions C89_stale_refuted.
(** and a character outside the first plane that arrives in two pieces is lost. *)
Theorem C89_torn_refuted : LineHidden None [Chunk [55357%Z]; Chunk [56832%Z]; Chunk [13%Z]] = TLine (encode [65533%Z; 65533%Z]) ∧ utf16 [128512%Z] = [55357; 56832]%Z.
Proof. vm_compute. done. Qed.
Print Assumptions C89_torn_refuted.

(** Visible lines: each line is read without its end (LF or CR LF); then comes an
    interrupt. *)
Theorem C89_lines : ∀ ps, Forall ends_well ps → stdin_inputs (go_join "" (map ended ps)) = map (λ p, ILine p.1) ps ++ [IErr EInterrupt].
Proof. exact stdin_lines. Qed.
Print Assumptions C89_lines.
(** So the end of the input is not the end of a session as elsewhere (where it is saved):
    the session ends with an error and nothing is saved. *)
Theorem C89_end_refuted : ∀ P w0 w1 w e ord riv s, session_main P false w0 w1 w e ord riv s (stdin_inputs "") = (s, UErr EInterrupt []).
Proof. intros P w0 w1 w e ord riv s. by apply C79_broken. Qed.
Print Assumptions C89_end_refuted.

Example C89_example : Forall (Forall character) [[112; 233]; [128512]]%Z ∧ Forall character [33%Z] ∧
  LineHidden None [Chunk (utf16 [112; 233]%Z); Chunk (utf16 [128512%Z]); Chunk [33; 13]%Z] = TLine (encode [112; 233; 128512; 33]%Z) ∧
  Forall ascii_key [Press 97; Press 98; Erase; Press 99] ∧ line_after [] [Press 97; Press 98; Erase; Press 99] = Some [97; 99]%Z ∧
  TrimSpace "pass " ≠ "pass ".
Proof.
  assert (∀ r, valid_rune r && negb (special_unit r) = true → character r) as H. { intros r [H1 H2%negb_true_iff]%andb_true_iff. done. }
  split; [constructor; [|constructor; [|constructor]]; repeat (constructor; [apply H; reflexivity|]); constructor|].
  split; [constructor; [apply H; reflexivity|constructor]|]. split; [vm_compute; reflexivity|].
  split; [repeat (constructor; [first [exact Logic.I|split; [split; vm_compute; congruence|reflexivity]]|]); constructor|]. split; [reflexivity|]. vm_compute. discriminate.
Qed.
Example C89_lines_ex : Forall ends_well [("ls", true); ("get mail pass", false)].
Proof.
  assert (∀ l b, (∀ t, l ≠ t +:+ String (Zbyte 13) "") → forallb (λ c, negb (Ascii.eqb c (Zbyte 10))) (str_bytes l) = true → (String.length l + 1 <? line_limit)%nat = true → ends_well (l, b)) as H.
  { intros l b Hc Hf Hl. split; [|split; [by intros|by apply Nat.ltb_lt]]. intros c Hin ->. rewrite forallb_forall in Hf. apply elem_of_list_In, Hf in Hin. discriminate Hin. }
  assert (∀ l, Model_GoStr.lacks (Zbyte 13) l → ∀ t, l ≠ t +:+ String (Zbyte 13) "") as Hcr.
  { induction l as [|c l IH]; intros Hl t E; [by destruct t|]. cbn in Hl. destruct Hl as [Hne Hl]. destruct t as [|c' t]; injection E as -> E; [done|]. by eapply IH. }
  constructor; [|constructor; [|constructor]]; (apply H; [|vm_compute; reflexivity|vm_compute; reflexivity]); apply Hcr; repeat (split; [vm_compute; discriminate|]); exact Logic.I.
Qed.

(** ** C90: prompts and programs *)

(** Each line is asked for with its own prompt, if that is not empty. *)
Theorem C90_prompts_partial : ∀ ps shown, Forall (λ p, p ≠ "") ps → prompts_shown new_editor shown ps = ps.
Proof. intros ps shown H. by apply prompts_ok. Qed.
Print Assumptions C90_prompts_partial.
(** An empty one shows the one before, as the editor does not remember what it shows. *)
Theorem C90_prompt_refuted : prompts_shown new_editor first_prompt [""; "user: "; ""] = ["> "; "user: "; "user: "].
Proof. done. Qed.
Print Assumptions C90_prompt_refuted.
(** The end of input and an interrupt are told apart, *)
Theorem C90_errors : ∀ r, (of_rl r = IErr EEnd ↔ r = REof ∨ r = RError EEnd) ∧ (of_rl r = IErr EInterrupt ↔ r = RInterrupt ∨ r = RError EInterrupt) ∧ (∀ s, of_rl r = ILine s ↔ r = RLine s).
Proof. intros [s| | |x]; (split; [|split]); cbn; try intros s'; split; try naive_solver. Qed.
Print Assumptions C90_errors.

(** The editor run is $EDITOR, or else the first one that is there; it gets the file and
    nothing else. *)
Theorem C90_editor : ∀ editors env found file p args,
  RunEditor editors env found file = Ok (p, args) ↔
  args = [file] ∧ found p = true ∧ ((env ≠ "" ∧ p = env) ∨
    (env = "" ∧ ((∃ before after, editors = before ++ p :: after ∧ Forall (λ q, found q = false) before) ∨ (p = "" ∧ Forall (λ q, found q = false) editors)))).
Proof.
  intros editors env found file p args. unfold RunEditor, start.
  assert (∀ l, (∃ q before after, List.find found l = Some q ∧ l = before ++ q :: after ∧ Forall (λ q, found q = false) before ∧ found q = true) ∨ (List.find found l = None ∧ Forall (λ q, found q = false) l)) as Hf.
  { induction l as [|x l IH]; [by right|]. cbn [List.find]. destruct (found x) eqn:E; [by left; exists x, [], l|].
    destruct IH as [(q & b & a & H1 & -> & H2 & H3)|[H1 H2]]; [left; exists q, (x :: b), a; split; [done|]; split; [done|]; split; [by constructor|done]|right; split; [done|by constructor]]. }
  destruct env as [|c env].
  - change (String.length "" =? 0)%nat with true. cbn iota. destruct (Hf editors) as [(q & b & a & -> & Ee & Hb & Hq)|[-> Hn]]; cbn [default].
    + cbn. rewrite Hq. split.
      * intros [= <- <-]. split; [done|]. split; [done|]. right. split; [done|]. left. by exists b, a.
      * intros (-> & Hp & [[? _]|[_ [(b' & a' & E' & Hb')|[-> Hall]]]]); [done| |].
        -- do 2 f_equal. rewrite Ee in E'. clear -E' Hb Hb' Hp Hq. revert b' E' Hb'. induction b as [|x b IH]; intros [|y b'] E' Hb'; cbn in E'; injection E' as -> E'.
           ++ done. ++ inversion Hb'. congruence. ++ inversion Hb. congruence. ++ inversion Hb; inversion Hb'; subst. by eapply IH.
        -- exfalso. rewrite Ee in Hall. apply Forall_app in Hall as [_ Hall]. inversion Hall. congruence.
    + cbn. destruct (found "") eqn:E0; split.
      * intros [= <- <-]. split; [done|]. split; [done|]. right. split; [done|]. by right.
      * intros (-> & Hp & [[? _]|[_ [(b' & a' & -> & Hb')|[-> Hall]]]]); [done| |done]. apply Forall_app in Hn as [_ Hn]. inversion Hn. congruence.
      * done.
      * intros (-> & Hp & [[? _]|[_ [(b' & a' & -> & Hb')|[-> Hall]]]]); [done| |congruence]. apply Forall_app in Hn as [_ Hn]. inversion Hn. congruence.
  - change (String.length (String c env) =? 0)%nat with false. cbn iota. destruct (found (String c env)) eqn:E; split.
    + intros [= <- <-]. split; [done|]. split; [done|]. by left.
    + intros (-> & _ & [[_ ->]|[? _]]); done.
    + done.
    + intros (_ & Hp & [[_ ->]|[? _]]); [congruence|done].
Qed.
Print Assumptions C90_editor.
(** On a Mac it is $EDITOR or open -W. *)
Theorem C90_editor_mac : ∀ env found file p args, RunEditor_darwin env found file = Ok (p, args) →
  found p = true ∧ ((env ≠ "" ∧ p = env ∧ args = [file]) ∨ (env = "" ∧ p = "open" ∧ args = ["-W"; file])).
Proof.
  intros env found file p args. unfold RunEditor_darwin, start. destruct env as [|c env]; cbn; [destruct (found "open") eqn:E|destruct (found (String c env)) eqn:E]; try done; intros [= <- <-]; (split; [done|]); [by right|by left].
Qed.
Print Assumptions C90_editor_mac.
(** The browser gets the url as one argument, no shell reads it. *)
Theorem C90_browser : ∀ program found uri p args, OpenURL program found uri = Ok (p, args) ↔ found program = true ∧ p = program ∧ args = [uri].
Proof. intros program found uri p args. unfold OpenURL, start. destruct (found program); split; [by intros [= <- <-]|by intros (_ & -> & ->)|done|by intros [? _]]. Qed.
Print Assumptions C90_browser.
(** $EDITOR with arguments is looked for under that whole name. *)
Theorem C90_arguments_refuted : ∀ editors found file, found "code --wait" = false → RunEditor editors "code --wait" found file = Fail (EMsg "executable file not found").
Proof. intros editors found file H. unfold RunEditor, start. cbn. by rewrite H. Qed.
Print Assumptions C90_arguments_refuted.

Example C90_example : RunEditor linux_editors "" (λ p, String.eqb p "emacs" || String.eqb p "nano") "/tmp/x" = Ok ("emacs", ["/tmp/x"]) ∧
  RunEditor windows_editors "vi" (λ p, String.eqb p "vi") "x" = Ok ("vi", ["x"]) ∧
  OpenURL "xdg-open" (λ _, true) "https://a; rm -rf b" = Ok ("xdg-open", ["https://a; rm -rf b"]) ∧ RunEditor_darwin "" (λ _, true) "x" = Ok ("open", ["-W"; "x"]).
Proof. vm_compute. done. Qed.
