(** Notions used to state the properties of the command loop. *)
From Verif Require Export Model_Repl Spec_Session.
From Coq Require Import Sorting.Sorted.
From stdpp Require Import options.

(** White space as a text: a concatenation of encoded white-space runes. *)
Definition blank (s : string) : Prop := ∃ rs, Forall (λ r, IsSpace r = true) rs ∧ s = encode rs.

(** Neither begins nor ends with white space. *)
Definition tight (s : string) : Prop :=
  ∀ r t, IsSpace r = true → s ≠ encode_rune r +:+ t ∧ s ≠ t +:+ encode_rune r.

(** The text does not end in white space. *)
Definition no_trailing (s : string) : Prop := ∀ r t, IsSpace r = true → s ≠ t +:+ encode_rune r.

(** A word: not empty and no white space in it (as a rune read anywhere). *)
Definition word (s : string) : Prop := s ≠ "" ∧ Forall (λ r, IsSpace r = false) (runes s).

(** ** What a command works on *)

(** The query chooses entry [u]: it is an entry's name, or matches the name of
    that entry only. *)
Definition picks (lower : Z → Z) (m : snapshot) (q u : string) : Prop :=
  called m u q ∨
  ∃ n, called m u n ∧ name_matches lower q n ∧ ∀ u' n', called m u' n' → name_matches lower q n' → u' = u.

(** The session's store holds [m] and what the command takes from outside is as
    it should be. *)
Definition ready (w : world) (s : session) (m : snapshot) : Prop :=
  holds (s_db s) m ∧ well_named m ∧ plain_names (w_lower w) m ∧ m !! "" = None ∧
  (∀ i, fair (w_env w i)) ∧ fair_results (r_ord (w_rand w)).

(** The session's store now holds [m'], nothing else about it changed. *)
Definition became (s s' : session) (m' : snapshot) : Prop :=
  holds (s_db s') m' ∧ db_txpoint (s_db s') = db_txpoint (s_db s) ∧ s' = set_db (s_db s') s.

(** Entry [b] with the stamp [t]. *)
Definition stamped (t : Z) (b : entry) : entry := <["updated" := FormatInt t]> b.

(** ** Labels *)

(** A label that may be typed: no white space and no capital letter in it. *)
Definition proper_label (upper : Z → bool) (x : string) : Prop :=
  Forall (λ r, IsSpace r = false ∧ upper r = false) (runes x).

(** The labels [new] taken from the lines typed, for an entry that has [old]:
    all proper ones not there yet, each once, in the order typed. *)
Definition taken_labels (upper : Z → bool) (old lines new : list string) : Prop :=
  new `sublist_of` lines ∧ NoDup new ∧
  (∀ x, x ∈ new → x ∉ old ∧ proper_label upper x) ∧
  (∀ x, x ∈ lines → proper_label upper x → x ∈ old ++ new).

(** What ends the typing of labels. *)
Definition label_end (i : input) : Prop := i = ILine "" ∨ i = ILine "." ∨ i = IErr EEnd.

(** ** What show prints for a key *)
Definition shown_as (w : world) (b : entry) (k v : string) (o : out) : Prop :=
  if decide (k = "pass") then o = Hidden k v
  else if decide (k = "labels") then o = Row k (go_join ", " (split_on (Zbyte 44) v))
  else if decide (k = "totp") then
    match w_totp w v with Ok t => v ≠ "" ∧ t ≠ "" ∧ o = Row k t | Fail _ => v ≠ "" ∧ o = Note | Panic => False end
  else if decide (Zbyte 10 ∈ str_bytes v) then o = Multi k v
  else o = Row k v.

(** ** What add and addsync add *)

(** A value given, or none if it was left empty. *)
Definition opt_key (k v : string) (b : entry) : entry := if decide (v = "") then b else <[k := v]> b.

(** The dialogue of addsync for scp: the url, and the key pair if one is made. *)
Definition scp_answers (w : world) (inp : list input) (url : string) (keys : option (string * string)) (rest : list input) : Prop :=
  ∃ user host port file choice r1 r2 r3 r4 r5,
    getString inp = UOk user r1 ∧ getString r1 = UOk host r2 ∧ askPort r2 = UOk port r3 ∧ getString r3 = UOk file r4 ∧
    getMenuChoice 3 r4 = UOk choice r5 ∧
    if decide (choice = 2%Z) then ∃ pass, newPassword (w_rand w) r5 = UOk pass rest ∧ keys = None ∧ url = w_scp_url w user host port file (Some pass)
    else rest = r5 ∧ keys = w_sshkey w choice ∧ url = w_scp_url w user host port file None.

(** The answers to addsync. *)
Definition sync_answers (w : world) (kind : string) (inp : list input) (url : string) (keys : option (string * string)) (rest : list input) : Prop :=
  (kind = "file" ∧ ∃ f abs, getString inp = UOk f rest ∧ w_abs w f = Some abs ∧ url = w_file_url w abs ∧ keys = None) ∨
  (kind = "scp" ∧ scp_answers w inp url keys rest).

(** A new sync entry. *)
Definition sync_entry (n url : string) (keys : option (string * string)) (b : entry) : Prop :=
  ∀ k, k ≠ "updated" → b !! k =
    if decide (k = "name") then Some n else if decide (k = "sync") then Some "true" else if decide (k = "url") then Some url
    else if decide (k = "privkey") then fst <$> keys else if decide (k = "pubkey") then snd <$> keys else None.

(** ** Sessions whatever is typed *)

(** The store is in good order: no transaction open, the log replays, every
    entry has a name and no two have the same, and only uuids in [U] occur. *)
Definition sound (U : string → Prop) (s : session) : Prop :=
  db_txpoint (s_db s) = 0%nat ∧ (∃ m, holds (s_db s) m ∧ well_named m) ∧ ∀ t, t ∈ vis (db_log (s_db s)) → U (tx_uuid t).

(** Ranging visits everything once and the uuid drawn is not in [U]. *)
Definition tame (U : string → Prop) (w : world) : Prop :=
  (∀ i, fair (w_env w i)) ∧ fair_results (r_ord (w_rand w)) ∧ ¬ U (e_uuid (w_env w 0)).

(** The uuid the command in [w] would draw. *)
Definition drawn (w : world) : string := e_uuid (w_env w 0).

(** A synchronisation that leaves the store in good order and brings no uuids
    but those in [R]. *)
Definition sync_sound (R : string → Prop) (w : world) : Prop :=
  ∀ (U : string → Prop) n s inp s' r, (∀ u, R u → U u) → sound U s → w_sync w n s inp = (s', r) →
    (∀ a rest, r = UOk a rest → sound U s') ∧ (∀ e rest, r = UErr e rest → sound U s').

(** The uuids in [U] and those drawn before turn [n]. *)
Definition upto (U : string → Prop) (w : nat → world) (n : nat) (u : string) : Prop := U u ∨ ∃ i, i < n ∧ u = drawn (w i).

(** The log of [s'] is that of [s] with something added. *)
Definition log_grew (s s' : session) : Prop := ∃ l, vis (db_log (s_db s')) = vis (db_log (s_db s)) ++ l.

(** ** Lists of names: what is shown are the names of the entries with [P], in
    order and each once; for no entry there is only a message. *)
Definition lists (m : snapshot) (P : entry → Prop) (o : list out) : Prop :=
  (o = [Note] ∧ ∀ u b n, m !! u = Some b → b !! "name" = Some n → ¬ P b) ∨
  ∃ l, o = [Names l] ∧ l ≠ [] ∧ Sorted (λ a b, String.leb a b = true) l ∧ NoDup l ∧
    ∀ n, n ∈ l ↔ ∃ u b, m !! u = Some b ∧ b !! "name" = Some n ∧ P b.

(** ** Commands broken off: add meets error [e] at one of its prompts *)
Definition add_breaks (w : world) (inp : list input) (e : error) (rest : list input) : Prop :=
  prompt inp = UErr e rest ∨
  ∃ email r1, prompt inp = UOk email r1 ∧
    (prompt r1 = UErr e rest ∨ ∃ user r2, prompt r1 = UOk user r2 ∧ newPassword (w_rand w) r2 = UErr e rest).
