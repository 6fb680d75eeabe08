(** Model of txlogs/tx.go and of txlogs/txlogs.go except Merge (Model_Merge.v)
    and the JSON encoding (Model_Json.v). *)
From Verif Require Export Base.
From stdpp Require Import options.

(** txlogs/tx.go:7-15 *)
Definition TxAdd : string := "add".
Definition TxDelete : string := "del".
Definition TxSetKey : string := "setk".
Definition TxDeleteKey : string := "delk".

(** txlogs/tx.go:18-30, [Tx].  [Kind] is a Go string type, so unknown kinds
    (from a file) are representable. *)
Record tx := mk_tx {
  tx_time : Z;
  tx_kind : string;
  tx_uuid : string;
  tx_key : string;
  tx_value : string;
}.

#[global] Instance tx_eq_dec : EqDecision tx.
Proof. solve_decision. Defined.

(** The zero [Tx], found in freshly allocated backing arrays. *)
Definition tx_zero : tx := mk_tx 0 "" "" "" "".

(** txlogs/txlogs.go:47, [Entry], and the snapshot map of txlogs.go:38.
    Simplification: a nil [Entry] inside a snapshot (only possible in a
    hand-made file with [null] for an entry) is not represented. *)
Notation entry := (gmap string string).
Notation snapshot := (gmap string entry).

(** txlogs/txlogs.go:34-43, [DB].  [Snapshot == nil] is [None].  The log keeps
    its backing array because [Rollback] may reslice upwards. *)
Record db := mk_db {
  db_version : nat;
  db_snapshot : option snapshot;
  db_log : slice tx;
  db_txpoint : nat;
}.

#[global] Instance db_eq_dec : EqDecision db.
Proof. solve_decision. Defined.

Definition db_new : db := mk_db 0 None slice_nil 0.

(** What ranging over or indexing the (possibly nil) snapshot map sees. *)
Definition snap_of (d : db) : snapshot := default ∅ (db_snapshot d).

(** txlogs/txlogs.go:523-530, [getEntry] *)
Definition getEntry (obj : snapshot) (uuid : string) : outcome entry :=
  match obj !! uuid with
  | Some e => Ok e
  | None => Fail (EMsg "%s was not in the snapshot")
  end.

(** txlogs/txlogs.go:489-521, [applyTx].  [dst] is only changed on success. *)
Definition applyTx (dst : snapshot) (t : tx) : outcome snapshot :=
  if String.eqb (tx_kind t) TxAdd then
    match dst !! tx_uuid t with
    | Some _ => Fail (EMsg "%s already exists in snapshot")
    | None => Ok (<[tx_uuid t := ∅]> dst)
    end
  else if String.eqb (tx_kind t) TxDelete then
    match dst !! tx_uuid t with
    | None => Fail (EMsg "%s was not in the snapshot")
    | Some _ => Ok (delete (tx_uuid t) dst)
    end
  else if String.eqb (tx_kind t) TxSetKey then
    match getEntry dst (tx_uuid t) with
    | Ok e => Ok (<[tx_uuid t := <[tx_key t := tx_value t]> e]> dst)
    | Fail e => Fail e
    | Panic => Panic
    end
  else if String.eqb (tx_kind t) TxDeleteKey then
    match getEntry dst (tx_uuid t) with
    | Ok e => Ok (<[tx_uuid t := delete (tx_key t) e]> dst)
    | Fail e => Fail e
    | Panic => Panic
    end
  else Ok dst.

(** txlogs/txlogs.go:134-138, [appendLog].  [now] is the clock reading, [grow]
    the spare capacity the run-time chooses if it has to reallocate. *)
Definition appendLog (grow : nat) (now : Z) (d : db) (t : tx) : db :=
  let t := mk_tx now (tx_kind t) (tx_uuid t) (tx_key t) (tx_value t) in
  mk_db (db_version d) (db_snapshot d) (slice_append tx_zero grow (db_log d) t) (db_txpoint d).

(** txlogs/txlogs.go:82-99, [Add].  [uuid] is what NewV4 returned; its failure
    (no randomness) leaves the DB unchanged and is not modelled. *)
Definition Add (grow : nat) (now : Z) (uuid : string) (d : db) : db :=
  appendLog grow now d (mk_tx 0 TxAdd uuid "" "").

(** txlogs/txlogs.go:101-111, [Set] *)
Definition Set_ (grow : nat) (now : Z) (d : db) (uuid key value : string) : db :=
  appendLog grow now d (mk_tx 0 TxSetKey uuid key value).

(** txlogs/txlogs.go:113-121, [Delete] *)
Definition Delete (grow : nat) (now : Z) (d : db) (uuid : string) : db :=
  appendLog grow now d (mk_tx 0 TxDelete uuid "" "").

(** txlogs/txlogs.go:123-132, [DeleteKey] *)
Definition DeleteKey (grow : nat) (now : Z) (d : db) (uuid key : string) : db :=
  appendLog grow now d (mk_tx 0 TxDeleteKey uuid key "").

(** txlogs/txlogs.go:145-147, [Begin] *)
Definition Begin (d : db) : db :=
  mk_db (db_version d) (db_snapshot d) (db_log d) (length (vis (db_log d)) + 1).

(** txlogs/txlogs.go:149-155, [Commit] *)
Definition Commit (d : db) : outcome db :=
  if (db_txpoint d =? 0)%nat then Panic
  else Ok (mk_db (db_version d) (db_snapshot d) (db_log d) 0).

(** txlogs/txlogs.go:205-209, [ResetSnapshot] *)
Definition ResetSnapshot (d : db) : db :=
  mk_db 0 None (db_log d) (db_txpoint d).

(** txlogs/txlogs.go:157-169, [Rollback] *)
Definition Rollback (d : db) : outcome db :=
  if (db_txpoint d =? 0)%nat then Panic
  else
    let d1 := if (db_txpoint d <? db_version d)%nat then ResetSnapshot d else d in
    match slice_upto (db_log d1) (db_txpoint d1 - 1) with
    | Ok l => Ok (mk_db (db_version d1) (db_snapshot d1) l 0)
    | Fail e => Fail e
    | Panic => Panic
    end.

(** txlogs/txlogs.go:184-203, [RollbackN] *)
Definition RollbackN (n : nat) (d : db) : db * outcome unit :=
  if (n =? 0)%nat then (d, Ok tt)
  else
    let ln := length (vis (db_log d)) in
    if (ln <? n)%nat then (d, Fail (EMsg "cannot rollback past the beginning"))
    else
      let d1 := if (ln - n <? db_version d)%nat then ResetSnapshot d else d in
      match slice_upto (db_log d1) (ln - n) with
      | Ok l => (mk_db (db_version d1) (db_snapshot d1) l (db_txpoint d1), Ok tt)
      | Fail e => (d1, Fail e)
      | Panic => (d1, Panic)
      end.

(** The loop of txlogs/txlogs.go:222-226: applies [rest] to [snap], stopping at
    the first error; returns the number of transactions applied. *)
Fixpoint apply_loop (snap : snapshot) (ver : nat) (rest : list tx)
    : snapshot * nat * outcome unit :=
  match rest with
  | [] => (snap, ver, Ok tt)
  | t :: rest' =>
      match applyTx snap t with
      | Ok snap' => apply_loop snap' (S ver) rest'
      | Fail e => (snap, ver, Fail e)
      | Panic => (snap, ver, Panic)
      end
  end.

(** txlogs/txlogs.go:211-229, [UpdateSnapshot] *)
Definition UpdateSnapshot (d : db) : db * outcome unit :=
  let log := vis (db_log d) in
  if (length log <=? db_version d)%nat then (d, Ok tt)
  else
    match apply_loop (snap_of d) (db_version d) (drop (db_version d) log) with
    | (snap, ver, r) => (mk_db ver (Some snap) (db_log d) (db_txpoint d), r)
    end.

(** [log[i]] for [i <= stop] read in a loop: the first [stop+1] elements, with
    the index panic Go raises if there are not that many. *)
Definition upto_index {A} (l : list A) (stop : Z) : outcome (list A) :=
  if (stop <? Z.of_nat (length l))%Z then Ok (take (Z.to_nat (stop + 1)) l) else Panic.

(** txlogs/txlogs.go:231-247, [SnapshotAt].  If the loop would run past the end
    of the log (negative [versionsAgo]) the error of an earlier transaction
    still comes first, as in Go. *)
Definition SnapshotAt (d : db) (versionsAgo : Z) : outcome snapshot :=
  let log := vis (db_log d) in
  let n := Z.of_nat (length log) in
  if (n <? versionsAgo)%Z then Fail (EMsg "there are not that many versions")
  else
    let stop := (n - 1 - versionsAgo)%Z in
    match apply_loop ∅ 0 (take (Z.to_nat (stop + 1)) log) with
    | (snap, _, Ok _) => if (stop <? n)%Z then Ok snap else Panic
    | (_, _, Fail e) => Fail e
    | (_, _, Panic) => Panic
    end.

(** txlogs/txlogs.go:249-284, [EntrySnapshotAt].  The index list of lines
    257-264 is represented by the sub-list of transactions it points to. *)
Definition EntrySnapshotAt (d : db) (uuid : string) (versionsAgo : Z) : outcome entry :=
  let log := vis (db_log d) in
  if (Z.of_nat (length log) <=? versionsAgo)%Z then Fail (EMsg "there are not that many versions")
  else
    let entryTxs := filter (λ t, tx_uuid t = uuid) log in
    let n := Z.of_nat (length entryTxs) in
    if (n <? versionsAgo)%Z then Fail (EMsg "there are not that many versions for the entry")
    else
      let stop := (n - 1 - versionsAgo)%Z in
      match apply_loop ∅ 0 (take (Z.to_nat (stop + 1)) entryTxs) with
      | (snap, _, Ok _) =>
          if (stop <? n)%Z then
            match snap !! uuid with
            | Some e => Ok e
            | None => Fail (EKeyNotFound uuid "" "")
            end
          else Panic
      | (_, _, Fail e) => Fail e
      | (_, _, Panic) => Panic
      end.

(** txlogs/txlogs.go:286-295, [NVersions] *)
Fixpoint nversions_loop (uuid : string) (l : list tx) (versions : nat) : nat :=
  match l with
  | [] => versions
  | t :: r => nversions_loop uuid r (if String.eqb (tx_uuid t) uuid then S versions else versions)
  end.
Definition NVersions (d : db) (uuid : string) : nat := nversions_loop uuid (vis (db_log d)) 0.

(** txlogs/txlogs.go:297-310, [LastUpdated]: scans from the end. *)
Fixpoint last_updated_loop (uuid : string) (revlog : list tx) : Z :=
  match revlog with
  | [] => -1
  | t :: r => if String.eqb (tx_uuid t) uuid then tx_time t else last_updated_loop uuid r
  end.
Definition LastUpdated (d : db) (uuid : string) : Z := last_updated_loop uuid (rev (vis (db_log d))).

(** txlogs/txlogs.go:73-80, [Save]: the guard; the encoding is in Model_Json.v. *)
Definition save_guard (d : db) : outcome unit :=
  if (db_txpoint d =? 0)%nat then Ok tt
  else Fail (EMsg "refusing to save while transaction active").

(** One call of the DB API with its oracle inputs ([grow], [now], new uuid).
    Any execution of any program using a DB, including the function passed to
    [Do], is a list of these. *)
Inductive op :=
| OAdd (grow : nat) (now : Z) (uuid : string)
| OSet (grow : nat) (now : Z) (uuid key value : string)
| ODelete (grow : nat) (now : Z) (uuid : string)
| ODeleteKey (grow : nat) (now : Z) (uuid key : string)
| OBegin
| OCommit
| ORollback
| ORollbackN (n : nat)
| OUpdate
| OReset.

(** The call dispatched to the functions above; [Panic] ends the program. *)
Definition step (d : db) (o : op) : db * outcome unit :=
  match o with
  | OAdd g now u => (Add g now u d, Ok tt)
  | OSet g now u k v => (Set_ g now d u k v, Ok tt)
  | ODelete g now u => (Delete g now d u, Ok tt)
  | ODeleteKey g now u k => (DeleteKey g now d u k, Ok tt)
  | OBegin => (Begin d, Ok tt)
  | OCommit => match Commit d with Ok d' => (d', Ok tt) | Fail e => (d, Fail e) | Panic => (d, Panic) end
  | ORollback => match Rollback d with Ok d' => (d', Ok tt) | Fail e => (d, Fail e) | Panic => (d, Panic) end
  | ORollbackN n => RollbackN n d
  | OUpdate => UpdateSnapshot d
  | OReset => (ResetSnapshot d, Ok tt)
  end.

(** A sequence of calls; a panic stops it. *)
Fixpoint run (d : db) (ops : list op) : outcome db :=
  match ops with
  | [] => Ok d
  | o :: r =>
      match step d o with
      | (_, Panic) => Panic
      | (d', _) => run d' r
      end
  end.

(** txlogs/txlogs.go:171-182, [Do]: the function is its list of calls on the
    DB and the error it returns, if any. *)
Definition Do (d : db) (body : list op) (err : option error) : outcome (db * option error) :=
  match run (Begin d) body with
  | Ok d1 =>
      match (match err with Some _ => Rollback d1 | None => Commit d1 end) with
      | Ok d2 => Ok (d2, err)
      | Fail e => Fail e
      | Panic => Panic
      end
  | Fail e => Fail e
  | Panic => Panic
  end.
