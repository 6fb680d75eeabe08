(** Model of merging.go:210-279 ([mergeLogs]). *)
From Verif Require Export Model_Merge Model_UI.
From stdpp Require Import options.

(** merging.go:259-273: asking about a delete/set conflict.  The [continue] and
    the end of the switch both go back to the prompt; nothing leaves the loop
    but an error.  [k] is the conflict as resolved so far. *)
Fixpoint ask_delete_set (inp : list input) (k : conflict) : ui conflict :=
  match inp with
  | [] => UWait
  | IErr e :: rest => UErr e rest
  | ILine s :: rest =>
      if String.eqb s "R" || String.eqb s "r" then ask_delete_set rest (DiscardInitial k)
      else if String.eqb s "D" || String.eqb s "d" then ask_delete_set rest (DiscardConflict k)
      else ask_delete_set rest k
  end.

(** merging.go:228-239 *)
Definition ask_root (inp : list input) (k : conflict) : ui conflict :=
  match getYesNo inp with
  | UOk true rest => UOk (Force k) rest
  | UOk false rest => UErr (EMsg "sync target was a total fork") rest
  | UErr e rest => UErr e rest
  | UPanic => UPanic
  | UWait => UWait
  end.

(** merging.go:226-275: all conflicts in turn *)
Fixpoint ask_all (ks : list conflict) (inp : list input) : ui (list conflict) :=
  match ks with
  | [] => UOk [] inp
  | k :: ks' =>
      match (match cf_kind k with
             | ConflictKindRoot => ask_root inp k
             | ConflictKindDeleteSet => ask_delete_set inp k
             end) with
      | UOk k' rest =>
          match ask_all ks' rest with
          | UOk ks'' rest' => UOk (k' :: ks'') rest'
          | r => r
          end
      | UErr e rest => UErr e rest
      | UPanic => UPanic
      | UWait => UWait
      end
  end.

(** merging.go:217-278: the loop.  Each round that does not end it asks at
    least one question, so it cannot run more often than there are inputs plus
    one; [fuel] counts the rounds. *)
Fixpoint merge_rounds (fuel : nat) (local remote : list tx) (conflicts : list conflict)
    (inp : list input) : ui (list tx) :=
  match fuel with
  | O => UWait
  | S fuel' =>
      match TxMerge local remote conflicts with
      | Panic => UPanic
      | Fail e => UErr e inp
      | Ok (Merged c) => UOk c inp
      | Ok (Conflicts ks) =>
          match ask_all ks inp with
          | UOk ks' rest => merge_rounds fuel' local remote ks' rest
          | UErr e rest => UErr e rest
          | UPanic => UPanic
          | UWait => UWait
          end
      end
  end.

(** merging.go:210-279, [mergeLogs] *)
Definition mergeLogs (local remote : list tx) (inp : list input) : ui (list tx) :=
  match remote with
  | [] => UOk local inp
  | _ => merge_rounds (S (length inp)) local remote [] inp
  end.
