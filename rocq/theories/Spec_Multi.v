(** Sessions of any mode, single- or multi-user, and what it takes to save them. *)
From Verif Require Export Spec_Main.
From stdpp Require Import options.
Import Model_GoStr.
#[local] Open Scope nat_scope.

(** The session may write, its key is that of a passphrase in [Q], and it has no master
    key (single user) or one of the right size. *)
Definition keyed_session (P : prims) (Q : string → Prop) (s : session) : Prop :=
  (s_readOnly s = false ∧ (s_pass s = "" ∨ Q (s_pass s))) ∧
  (∃ pass, Q pass ∧ s_key s = key_of P (str_bytes pass) (s_salt s) ∧ length (s_salt s) = 32 ∧ pass ≠ "") ∧
  (s_master s = [] ∨ (length (s_master s) = 80 ∧ length (s_ivm s) = 40)).

(** The entries called user/… are the same in [m] and [m']. *)
Definition same_users (m m' : snapshot) : Prop :=
  ∀ u x, called m u ("user/" +:+ x) ∨ called m' u ("user/" +:+ x) → m' !! u = m !! u.

(** The words that start the commands which may change keys, users or the whole store. *)
Definition changing_words : list string := ["passwd"; "adduser"; "rekey"; "rekeyall"; "rm"; "sync"].

(** A transaction that does not touch the users of [m] and names nothing user/…. *)
Definition spares (m : snapshot) (t : tx) : Prop :=
  (∀ x, ¬ called m (tx_uuid t) ("user/" +:+ x)) ∧ ∀ x, is_set (tx_uuid t) "name" t → tx_value t ≠ "user/" +:+ x.
