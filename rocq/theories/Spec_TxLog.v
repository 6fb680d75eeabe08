(** What a transaction log means, stated without reference to the model's
    functions: only the record types are shared. *)
From Verif Require Export Model_TxLog.
From stdpp Require Import options.

(** [tx_step m t m']: transaction [t] turns store [m] into [m'].  An add needs
    an absent entry, everything else a present one; other kinds are ignored. *)
Inductive tx_step : snapshot → tx → snapshot → Prop :=
| step_add m ti u k v :
    m !! u = None →
    tx_step m (mk_tx ti "add" u k v) (<[u := ∅]> m)
| step_del m ti u k v e :
    m !! u = Some e →
    tx_step m (mk_tx ti "del" u k v) (delete u m)
| step_setk m ti u k v e :
    m !! u = Some e →
    tx_step m (mk_tx ti "setk" u k v) (<[u := <[k := v]> e]> m)
| step_delk m ti u k v e :
    m !! u = Some e →
    tx_step m (mk_tx ti "delk" u k v) (<[u := delete k e]> m)
| step_other m ti kd u k v :
    kd ≠ "add" → kd ≠ "del" → kd ≠ "setk" → kd ≠ "delk" →
    tx_step m (mk_tx ti kd u k v) m.

(** [replays m0 log m]: applying [log] in order to [m0] gives [m]. *)
Inductive replays_from : snapshot → list tx → snapshot → Prop :=
| replays_nil m : replays_from m [] m
| replays_cons m1 t m2 log m3 :
    tx_step m1 t m2 → replays_from m2 log m3 → replays_from m1 (t :: log) m3.

Definition replays (log : list tx) (m : snapshot) : Prop := replays_from ∅ log m.
Definition replayable (log : list tx) : Prop := ∃ m, replays log m.

(** Declarative reading of a log: which entries are visible, what value a key
    has. *)
Definition is_add (u : string) (t : tx) : Prop := tx_kind t = "add" ∧ tx_uuid t = u.
Definition is_del (u : string) (t : tx) : Prop := tx_kind t = "del" ∧ tx_uuid t = u.
Definition is_set (u k : string) (t : tx) : Prop := tx_kind t = "setk" ∧ tx_uuid t = u ∧ tx_key t = k.
Definition is_delk (u k : string) (t : tx) : Prop := tx_kind t = "delk" ∧ tx_uuid t = u ∧ tx_key t = k.

(** An add of [u] with no delete of [u] after it. *)
Definition visible (log : list tx) (u : string) : Prop :=
  ∃ i t, log !! i = Some t ∧ is_add u t ∧
    ∀ j t', (i < j)%nat → log !! j = Some t' → ¬ is_del u t'.

(** A set of [u]'s key [k] to [v], after which nothing removes or overwrites it. *)
Definition last_written (log : list tx) (u k v : string) : Prop :=
  ∃ i t, log !! i = Some t ∧ is_set u k t ∧ tx_value t = v ∧
    ∀ j t', (i < j)%nat → log !! j = Some t' →
      ¬ is_set u k t' ∧ ¬ is_delk u k t' ∧ ¬ is_del u t'.

(** The transactions on one entry, in order. *)
Definition on_entry (u : string) (t : tx) : Prop := tx_uuid t = u.
#[global] Instance on_entry_dec u t : Decision (on_entry u t).
Proof. unfold on_entry. apply _. Defined.
Definition entry_txs (u : string) (log : list tx) : list tx := filter (on_entry u) log.

(** ** Executions of the store *)

(** The cached snapshot is the replay of the first [Version] transactions.  All
    stores a program can build satisfy this (Props_TxLog.C01) as do stores
    loaded from a file written by Save. *)
Definition coherent (d : db) : Prop :=
  (db_version d ≤ length (vis (db_log d)))%nat ∧
  replays (take (db_version d) (vis (db_log d))) (snap_of d).

(** At no rollback has the snapshot been brought up to exactly one
    transaction past the begin point. *)
Definition lucky (d0 : db) (ops : list op) : Prop :=
  ∀ pre post d, ops = pre ++ ORollback :: post → run d0 pre = Ok d → db_version d ≠ db_txpoint d.

(** Calls a transaction body may make: everything but transaction control. *)
Definition body_op (o : op) : Prop :=
  match o with OBegin | OCommit | ORollback => False | _ => True end.

(** The body never undoes (RollbackN) past the point where it began. *)
Definition stays_above (d0 : db) (n : nat) (body : list op) : Prop :=
  ∀ pre post d, body = pre ++ post → run d0 pre = Ok d → (n ≤ length (vis (db_log d)))%nat.

(** What each call appends to the log. *)
Definition written (o : op) : list tx :=
  match o with
  | OAdd _ now u => [mk_tx now "add" u "" ""]
  | OSet _ now u k v => [mk_tx now "setk" u k v]
  | ODelete _ now u => [mk_tx now "del" u "" ""]
  | ODeleteKey _ now u k => [mk_tx now "delk" u k ""]
  | _ => []
  end.
Definition not_undo (o : op) : Prop :=
  match o with ORollback | ORollbackN _ => False | _ => True end.

(** A transaction is open between Begin and the next Commit or Rollback, for
    every execution: [open_tx] reads it off the calls alone. *)
Definition open_tx (ops : list op) : bool :=
  fold_left (λ b o, match o with OBegin => true | OCommit | ORollback => false | _ => b end) ops false.
