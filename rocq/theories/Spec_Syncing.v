(** What a session with syncing in it may rely on, and what it should keep. *)
From Verif Require Export Model_Syncing Model_Ssh Spec_Main Spec_Sync.
From stdpp Require Import options.
Import Model_GoStr.
#[local] Open Scope nat_scope.

(** Talking to a server, the user is asked in order. *)
Definition ssh_in_order (y : sync_world) : Prop :=
  (∀ i b inp, in_order (y_ssh_pull y i b inp) inp) ∧ (∀ i b ct inp, in_order (y_ssh_push y i b ct inp) inp).

(** The files that may be pulled, the ways they open and the logs in them *)
Definition pullable (y : sync_world) (ct : slice byte) : Prop :=
  (∃ i b inp host rest, y_ssh_pull y i b inp = UOk (host, Pulled ct) rest) ∨ ∃ i url, y_read y i url = Pulled ct.
Definition opens (P : prims) (ct : slice byte) (params : Model_Crypt.Params) (pt : bytes) : Prop :=
  ∃ user pass key salt v, Decrypt P user pass key salt ct = Ok (v, params, pt).
Definition remote_log (P : prims) (y : sync_world) (log : list tx) : Prop :=
  ∃ ct params pt sl, pullable y ct ∧ opens P ct params pt ∧ NewLog pt = Ok sl ∧ log = vis sl.
(** The entries of the remotes are among [R]. *)
Definition remotes_within (P : prims) (y : sync_world) (R : string → Prop) : Prop :=
  ∀ log t, remote_log P y log → t ∈ log → R (tx_uuid t).
(** The remotes are for a single user. *)
Definition remotes_single (P : prims) (y : sync_world) : Prop :=
  ∀ ct params pt, pullable y ct → opens P ct params pt → Master params = None.

(** Servers that give text when given text, and clocks that fit *)
Definition text_ui {A} (x : ui (string * A)) : Prop :=
  match x with UOk (host, _) rest => utf8 host ∧ typed_text rest | UErr _ rest => typed_text rest | UPanic | UWait => True end.
Definition text_sync (y : sync_world) : Prop :=
  (∀ k, clock_ok (y_env y k)) ∧
  (∀ i b inp, entry_utf8 b → typed_text inp → text_ui (y_ssh_pull y i b inp)) ∧
  (∀ i b ct inp, entry_utf8 b → typed_text inp → text_ui (y_ssh_push y i b ct inp)).

(** Remotes that are read and asked as they should be: the maps are ranged over in
    some order, the user is asked in order, the remotes are single-user files of
    text about entries in [R]. *)
Definition tame_sync (P : prims) (R : string → Prop) (y : sync_world) : Prop :=
  (fair (y_env y 0) ∧ fair_hosts y) ∧ ssh_in_order y ∧ remotes_within P y R ∧ remotes_single P y ∧ text_sync y.

(** No user is added; the password is not changed, or may be anything; and
    whatever is typed may be the password. *)
Definition may_open (Q : string → Prop) (inp : list input) : Prop :=
  never_typed "adduser" inp ∧ (never_typed "passwd" inp ∨ ∀ pass, Q pass) ∧ ∀ pass, ILine pass ∈ inp → Q pass.

(** No transaction is open, the history can be replayed, and it is about entries
    in [U] only. *)
Definition settled (U : string → Prop) (s : session) : Prop :=
  db_txpoint (s_db s) = 0 ∧ (∃ m, holds (s_db s) m) ∧ ∀ t, t ∈ vis (db_log (s_db s)) → U (tx_uuid t).

(** Hosts that can be dialled have names, addresses and keys that are text. *)
Definition text_hosts (h : ssh_world) : Prop :=
  ∀ push i t addr ty hash chan, h_dial h push i t = Dialled addr ty hash chan → utf8 (t_address t) ∧ utf8 addr ∧ utf8 ty ∧ utf8 hash.
