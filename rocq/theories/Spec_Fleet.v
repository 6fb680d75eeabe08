(** Any number of machines that sync through one file. *)
From Verif Require Export Spec_Merge Spec_Sync Model_Merging Model_Sync.
From stdpp Require Import options.
#[local] Open Scope nat_scope.

(** The log in the shared file, the log of every machine and everything ever recorded *)
Record fleet := mk_fleet { f_hub : list tx; f_log : nat → list tx; f_made : list tx }.
Definition put (i : nat) (l : list tx) (f : nat → list tx) : nat → list tx := λ j, if (j =? i)%nat then l else f j.

(** What a sync of a machine with log [l] makes of it and of the file with log [h]: it
    passes over the file if it looks the same, otherwise it merges, without a question,
    and pushes. *)
Inductive shared_sync_step (l h : list tx) : list tx → list tx → Prop :=
| sync_skips : no_changes h l = Ok true → shared_sync_step l h l h
| sync_merges c : no_changes h l = Ok false → (∀ inp, mergeLogs l h inp = UOk c inp) → shared_sync_step l h c c.

(** [n] machines start with copies of the log [p].  They change their logs and sync in any
    order.  A clock gives a time only once among all machines and later than what the
    machine itself has. *)
Inductive runs (n : nat) (p : list tx) : fleet → Prop :=
| runs_start : runs n p (mk_fleet p (λ _, p) p)
| runs_change st i x : runs n p st → i < n → (∀ y, y ∈ f_made st → tx_time y ≠ tx_time x) → valid_log (f_log st i ++ [x]) →
    runs n p (mk_fleet (f_hub st) (put i (f_log st i ++ [x]) (f_log st)) (f_made st ++ [x]))
| runs_sync st i l h : runs n p st → i < n → shared_sync_step (f_log st i) (f_hub st) l h →
    runs n p (mk_fleet h (put i l (f_log st)) (f_made st)).

(** Machines sync in this order, with no change in between. *)
Inductive round : list nat → fleet → fleet → Prop :=
| round_end st : round [] st st
| round_sync i is st l h st' : shared_sync_step (f_log st i) (f_hub st) l h →
    round is (mk_fleet h (put i l (f_log st)) (f_made st)) st' → round (i :: is) st st'.

(** No entry id was given twice, and nothing was done to an entry after its deletion. *)
Definition peaceful (l : list tx) : Prop := unique_adds l ∧ conflict_free l.
