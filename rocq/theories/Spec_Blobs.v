(** What the password-store operations should do, in terms of the contents of a
    store (uuid to entry to value). *)
From Verif Require Export Spec_TxLog Spec_Fuzzy Model_Blobs.
From stdpp Require Import options.

(** The store is in good order and its log says its contents are [m]. *)
Definition holds (d : db) (m : snapshot) : Prop :=
  coherent d ∧ replays (vis (db_log d)) m.

(** Entry [u] of [m] is called [n]. *)
Definition called (m : snapshot) (u n : string) : Prop :=
  ∃ b, m !! u = Some b ∧ b !! "name" = Some n.

Definition all_named (m : snapshot) : Prop := ∀ u b, m !! u = Some b → ∃ n, b !! "name" = Some n.
Definition names_unique (m : snapshot) : Prop :=
  ∀ u1 u2 n, called m u1 n → called m u2 n → u1 = u2.
Definition well_named (m : snapshot) : Prop := all_named m ∧ names_unique m.

(** A uuid the log has never mentioned (what a fresh random uuid is). *)
Definition unused (d : db) (u : string) : Prop := ∀ t, t ∈ vis (db_log d) → tx_uuid t ≠ u.

(** An entry that exists now. *)
Definition live (d : db) (u : string) : Prop :=
  ∃ m b, replays (vis (db_log d)) m ∧ m !! u = Some b.

(** ** Protected keys *)

(** [r] is [c] in some letter case, for a lower-case ASCII letter [c]: Unicode
    adds the Kelvin sign to k and the long s to s. *)
Definition case_of (c r : Z) : Prop :=
  r = c ∨ r = (c - 32)%Z ∨ (c = 107 ∧ r = 8490)%Z ∨ (c = 115 ∧ r = 383)%Z.
Definition same_but_case (p key : string) : Prop := Forall2 case_of (runes p) (runes key).
Definition protected_key (key : string) : Prop :=
  ∃ p, p ∈ ["totp"; "name"; "iv"; "salt"; "mkey"; "updated"] ∧ same_but_case p key.

(** ** Operations as the commands perform them *)

Inductive bop :=
| BNew (e : env) (name : string)
| BNewUser (e : env) (name : string)
| BNewSync (e : env) (kind : string)
| BRename (e : env) (u n : string)
| BSet (e : env) (u k v : string)
| BDeleteKey (e : env) (u k : string)
| BTwofactor (coerce : string → string → string) (uri_ok : string → bool) (e : env) (u v : string)
| BAddLabel (e : env) (u l : string)
| BRemoveLabel (e : env) (u : string) (i : Z)
| BDelete (e : env) (u : string)
| BRawSet (e : env) (u k v : string)     (* the DB.Set calls of commands.go *)
| BRead.

Definition ignore {A} (r : db * outcome A) : db * outcome unit :=
  match r with
  | (d, Ok _) => (d, Ok tt)
  | (d, Fail e) => (d, Fail e)
  | (d, Panic) => (d, Panic)
  end.

(** One operation; [NewSync] gets one iteration more than the log has
    transactions. *)
Definition bstep (d : db) (o : bop) : db * outcome unit :=
  match o with
  | BNew e n => ignore (New e 0 n d)
  | BNewUser e n => ignore (NewUser e n d)
  | BNewSync e k =>
      match NewSync (S (length (vis (db_log d)))) e k d with
      | Some r => ignore r
      | None => (d, Panic)
      end
  | BRename e u n => Rename e u n d
  | BSet e u k v => Set_key e 0 u k v d
  | BDeleteKey e u k => DeleteKey_key e u k d
  | BTwofactor c ok e u v => SetTwofactor c ok e u v d
  | BAddLabel e u l => AddLabel e u l d
  | BRemoveLabel e u i => RemoveLabel e u i d
  | BDelete e u => dbDelete e 0 u d
  | BRawSet e u k v => dbSet e 0 u k v d
  | BRead => UpdateSnapshot d
  end.

(** New entries get uuids never used before; other operations name an existing
    entry; the raw sets never touch the name. *)
Definition allowed (d : db) (o : bop) : Prop :=
  match o with
  | BNew e _ | BNewUser e _ | BNewSync e _ => fair e ∧ unused d (e_uuid e)
  | BRename e u _ => fair e ∧ live d u
  | BSet _ u _ _ | BDeleteKey _ u _ | BTwofactor _ _ _ u _ | BAddLabel _ u _ | BDelete _ u => live d u
  | BRemoveLabel _ u i => live d u ∧ (0 ≤ i)%Z
  | BRawSet _ u k _ => live d u ∧ k ≠ "name"
  | BRead => True
  end.

(** [reach d]: [d] is the result of allowed operations on the empty store,
    some of which may have returned an error. *)
Inductive reach : db → Prop :=
| reach_new : reach db_new
| reach_step d o d' r : reach d → allowed d o → bstep d o = (d', r) → reach d'.

(** ** Searching *)

(** The query's slash-separated parts match the first parts of the name, or,
    without a slash, the query matches the name. *)
Definition name_matches (lower : Z → Z) (q name : string) : Prop :=
  match split_on (Zbyte 47) q with
  | [q'] => embeds (stands_for lower) (runes q') (runes name)
  | qs => (length qs ≤ length (split_on (Zbyte 47) name))%nat ∧
          ∀ i f k, qs !! i = Some f → split_on (Zbyte 47) name !! i = Some k →
            embeds (stands_for lower) (runes f) (runes k)
  end.

(** All names are well-formed text whose lower case is not longer. *)
Definition plain_names (lower : Z → Z) (m : snapshot) : Prop :=
  ∀ u n, called m u n → valid_utf8 n ∧ lower_fits lower n.

(** The results are exactly the entries satisfying [P], with their names. *)
Definition exactly (m : snapshot) (P : entry → Prop) (r : results) : Prop :=
  ∀ u n, res_map r !! u = Some n ↔ ∃ b, m !! u = Some b ∧ b !! "name" = Some n ∧ P b.

Definition has_labels (ls : list string) (b : entry) : Prop := ∀ l, l ∈ ls → l ∈ Labels b.

(** Results of ranging over a result map visit every result once. *)
Definition fair_results (ord : gmap string string → list (string * string)) : Prop :=
  ∀ m, ord m ≡ₚ map_to_list m.

(** Two stores that differ in updated stamps only. *)
Definition same_but_stamps (m m' : snapshot) : Prop :=
  (∀ u, is_Some (m !! u) ↔ is_Some (m' !! u)) ∧
  ∀ u b b', m !! u = Some b → m' !! u = Some b' → ∀ k, k ≠ "updated" → b !! k = b' !! k.

(** No name was ever given to two different entries, in any of the logs. *)
Definition names_never_shared (l : list tx) : Prop :=
  ∀ x y, x ∈ l → y ∈ l → tx_kind x = "setk" → tx_kind y = "setk" → tx_key x = "name" → tx_key y = "name" →
    tx_value x = tx_value y → tx_uuid x = tx_uuid y.

(** Names are never taken away from an entry (Blobs.DeleteKey refuses to). *)
Definition names_kept (l : list tx) : Prop := ∀ x, x ∈ l → ¬ (tx_kind x = "delk" ∧ tx_key x = "name").

(** What New creates, and [k] ones. *)
Definition new_entry (e : env) (n : string) : entry :=
  <["name" := n]> (<["updated" := FormatInt (e_now e 1)]> ∅).
Fixpoint ones (k : nat) : string := match k with O => "" | S k' => String (Zbyte 49) (ones k') end.
