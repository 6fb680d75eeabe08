(** What merging two histories should do, independently of how [Merge] does it. *)
From Verif Require Export Spec_TxLog Model_Merge.
From Coq Require Export Sorting.Sorted.
From stdpp Require Import options.

(** Strictly increasing timestamps. *)
Definition earlier (x y : tx) : Prop := (tx_time x < tx_time y)%Z.
Definition time_sorted (l : list tx) : Prop := StronglySorted earlier l.

(** Timestamps identify transactions; entry ids are added once. *)
Definition time_ids (l : list tx) : Prop :=
  ∀ x y, x ∈ l → y ∈ l → tx_time x = tx_time y → x = y.
Definition unique_adds (l : list tx) : Prop :=
  ∀ x y, x ∈ l → y ∈ l → tx_kind x = "add" → tx_kind y = "add" → tx_uuid x = tx_uuid y → x = y.
Definition known_kinds (l : list tx) : Prop :=
  ∀ x, x ∈ l → tx_kind x = "add" ∨ tx_kind x = "del" ∨ tx_kind x = "setk" ∨ tx_kind x = "delk".

(** A history one replica can hold, and two that belong together. *)
Definition valid_log (l : list tx) : Prop := time_sorted l ∧ replayable l ∧ known_kinds l.
Definition compatible (a b : list tx) : Prop := time_ids (a ++ b) ∧ unique_adds (a ++ b).

(** [c] is the time-ordered union of [a] and [b]. *)
Definition is_union (a b c : list tx) : Prop :=
  time_sorted c ∧ ∀ x, x ∈ c ↔ x ∈ a ∨ x ∈ b.

(** The two logs do not look the same while being different: same length, first
    and last timestamp. *)
Definition look_alike (a b : list tx) : Prop :=
  length a = length b ∧
  (∃ x y, head a = Some x ∧ head b = Some y ∧ tx_time x = tx_time y) ∧
  (∃ x y, last a = Some x ∧ last b = Some y ∧ tx_time x = tx_time y).
Definition no_impostor (a b : list tx) : Prop := look_alike a b → a = b.

(** The logs start with the same transaction time. *)
Definition same_root (a b : list tx) : Prop :=
  ∀ x y, head a = Some x → head b = Some y → tx_time x = tx_time y.

(** [d] is the first delete of its entry in [c], [x] the first transaction on
    that entry after it. *)
Definition first_delete (c : list tx) (d : tx) : Prop :=
  d ∈ c ∧ tx_kind d = "del" ∧
  ∀ d', d' ∈ c → tx_kind d' = "del" → tx_uuid d' = tx_uuid d → (tx_time d ≤ tx_time d')%Z.
Definition edit_after_delete (c : list tx) (d x : tx) : Prop :=
  first_delete c d ∧ x ∈ c ∧ tx_uuid x = tx_uuid d ∧ earlier d x ∧
  ∀ y, y ∈ c → tx_uuid y = tx_uuid d → earlier d y → (tx_time x ≤ tx_time y)%Z.

(** No transaction follows a delete of its entry. *)
Definition conflict_free (c : list tx) : Prop :=
  ∀ d x, d ∈ c → x ∈ c → tx_kind d = "del" → tx_uuid x = tx_uuid d → ¬ earlier d x.

(** Does some delete of [x]'s entry come before it? *)
Definition after_delete (c : list tx) (x : tx) : Prop :=
  ∃ d, d ∈ c ∧ tx_kind d = "del" ∧ tx_uuid d = tx_uuid x ∧ earlier d x.
#[global] Instance after_delete_dec c x : Decision (after_delete c x).
Proof.
  destruct (decide (Exists (λ d, tx_kind d = "del" ∧ tx_uuid d = tx_uuid x ∧ (tx_time d < tx_time x)%Z) c)) as [H|H].
  - left. rewrite Exists_exists in H. unfold after_delete, earlier. destruct H as (d & ? & ? & ? & ?). by exists d.
  - right. rewrite Exists_exists in H. intros (d & ? & ? & ? & ?). apply H. by exists d.
Defined.

(** Is [d] a delete that something follows? *)
Definition conflicting_delete (c : list tx) (d : tx) : Prop :=
  tx_kind d = "del" ∧ ∃ x, x ∈ c ∧ tx_uuid x = tx_uuid d ∧ earlier d x.
#[global] Instance conflicting_delete_dec c x : Decision (conflicting_delete c x).
Proof.
  destruct (decide (tx_kind x = "del")) as [Hk|Hk]; [|right; by intros [? _]].
  destruct (decide (Exists (λ y, tx_uuid y = tx_uuid x ∧ (tx_time x < tx_time y)%Z) c)) as [H|H].
  - left. rewrite Exists_exists in H. destruct H as (d & ? & ? & ?). split; [done|]. by exists d.
  - right. rewrite Exists_exists in H. intros (_ & d & ? & ? & ?). apply H. by exists d.
Defined.

(** At most one delete per entry. *)
Definition single_deletes (c : list tx) : Prop :=
  ∀ x y, x ∈ c → y ∈ c → tx_kind x = "del" → tx_kind y = "del" → tx_uuid x = tx_uuid y → x = y.

(** Answering every conflict: forcing the root conflict, if there is one, and
    choosing [f d] for the delete/set conflict about delete [d]. *)
Definition answer (f : tx → resolution) (k : conflict) : conflict :=
  match cf_kind k with
  | ConflictKindRoot => Force k
  | ConflictKindDeleteSet => cf_set (f (cf_initial k)) k
  end.

(** What a set of answers asks to keep of the union [c]: "restore" drops the
    delete, "delete" drops what follows it. *)
Definition kept_by (f : tx → resolution) (c : list tx) (x : tx) : Prop :=
  ¬ (conflicting_delete c x ∧ f x = resolveDiscardInitial) ∧
  ¬ (∃ d, d ∈ c ∧ tx_kind d = "del" ∧ tx_uuid d = tx_uuid x ∧ earlier d x ∧ f d = resolveDiscardConflict).
#[global] Instance kept_by_dec f c x : Decision (kept_by f c x).
Proof.
  unfold kept_by. apply and_dec; [apply _|]. apply not_dec.
  destruct (decide (Exists (λ d, tx_kind d = "del" ∧ tx_uuid d = tx_uuid x ∧ (tx_time d < tx_time x)%Z
      ∧ f d = resolveDiscardConflict) c)) as [H|H].
  - left. rewrite Exists_exists in H. destruct H as (d & ? & ? & ? & ? & ?). by exists d.
  - right. rewrite Exists_exists in H. intros (d & ? & ? & ? & ? & ?). apply H. by exists d.
Defined.

(** ** Dialogues about conflicts *)

(** [k'] is conflict [k] answered in one of the ways a caller may answer it:
    left alone, or resolved by DiscardInitial/DiscardConflict; a root conflict
    may also be forced. *)
Definition answered (k k' : conflict) : Prop :=
  cf_kind k' = cf_kind k ∧ cf_initial k' = cf_initial k ∧ cf_conflict k' = cf_conflict k ∧
  (cf_kind k = ConflictKindDeleteSet → cf_res k' ≠ resolveForce).

(** Lists of resolved conflicts that can be passed to Merge: none at first,
    later the conflicts it returned, answered. *)
Inductive asked (a b : list tx) : list conflict → Prop :=
| asked_start : asked a b []
| asked_next res cs cs' :
    asked a b res → TxMerge a b res = Ok (Conflicts cs) → Forall2 answered cs cs' →
    asked a b cs'.

(** The dialogue in which the delete/set conflict about [d] is always answered
    [f d] comes to an end with a merged log. *)
Inductive settles (a b : list tx) (f : tx → resolution) : list conflict → Prop :=
| settles_now res c : TxMerge a b res = Ok (Merged c) → settles a b f res
| settles_next res cs :
    TxMerge a b res = Ok (Conflicts cs) → settles a b f (answer f <$> cs) → settles a b f res.

(** The user's two choices. *)
Definition two_choices (f : tx → resolution) : Prop :=
  ∀ d, f d = resolveDiscardInitial ∨ f d = resolveDiscardConflict.

(** Two replicas that share a history and then each went on alone. *)
Definition forked (a b : list tx) : Prop :=
  ∃ p x y, a = p ++ x ∧ b = p ++ y ∧
    ∀ t t', t ∈ x → t' ∈ y → tx_time t ≠ tx_time t'.
