(** Sessions with syncing in a store with several users. *)
From Verif Require Export Spec_Syncing Spec_Multi.
From stdpp Require Import options.
#[local] Open Scope nat_scope.

(** The remotes are copies of the same store: whoever opens one gets the same master key. *)
Definition remotes_share (P : prims) (y : sync_world) (master : bytes) : Prop :=
  ∀ ct params pt, pullable y ct → opens P ct params pt → Master params = Some master.

(** As [tame_sync], for remotes with the master key [master] *)
Definition tame_users (P : prims) (R : string → Prop) (master : bytes) (y : sync_world) : Prop :=
  (fair (y_env y 0) ∧ fair_hosts y) ∧ ssh_in_order y ∧ remotes_within P y R ∧ remotes_share P y master ∧ text_sync y.

(** A session that may write and has these keys *)
Definition holds_keys (master ivm key : bytes) (s : session) : Prop :=
  s_readOnly s = false ∧ s_master s = master ∧ s_ivm s = ivm ∧ s_key s = key.
