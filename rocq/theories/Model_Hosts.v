(** Model of the ssh host check of sync.go. *)
From Verif Require Export Model_UI Model_Blobs.
From stdpp Require Import options.

(** indexing *)
Definition val (vals : list string) (i : nat) : outcome string :=
  match vals !! i with Some v => Ok v | None => Panic end.

(** sync.go:417-418 and 426-446: going through the known lines.  [None]: the
    host is not among them.  [keyHash] is the key's hash in hexadecimal (line
    419-420). *)
Fixpoint known_scan (hostname keyType keyHash : string) (lines : list string) : option (outcome unit) :=
  match lines with
  | [] => None
  | h :: rest =>
      let vals := split_on (Zbyte 32) h in
      if negb (String.eqb (default "" (vals !! 0%nat)) hostname) then known_scan hostname keyType keyHash rest
      else Some (
        ty ← val vals 2;
        if negb (String.eqb ty keyType) then Fail (EMsg "known host's key type has changed, could be a mitm attack")
        else
          hash ← val vals 3;
          if negb (String.eqb hash keyHash) then Fail (EMsg "known host's key has changed, could be a mitm attack")
          else Ok tt)
  end.

(** sync.go:417-471, [callback].  On success the line to remember, [None] if
    there is nothing new ([newHost] is set only here).  The fingerprint shown
    (lines 448-458) is not modelled. *)
Definition hostLine (hostname addr keyType keyHash : string) : string :=
  hostname +:+ " " +:+ addr +:+ " " +:+ keyType +:+ " " +:+ keyHash.
Definition host_callback (known hostname addr keyType keyHash : string) (inp : list input) : ui (option string) :=
  match known_scan hostname keyType keyHash (split_on (Zbyte 10) known) with
  | Some (Ok _) => UOk None inp
  | Some (Fail e) => UErr e inp
  | Some Panic => UPanic
  | None =>
      match prompt inp with
      | UOk line rest =>
          if String.eqb line "y" || String.eqb line "Y" then UOk (Some (hostLine hostname addr keyType keyHash)) rest
          else UErr (EMsg "user rejected host") rest
      | UErr e rest => UErr e rest
      | UPanic => UPanic
      | UWait => UWait
      end
  end.

(** sync.go:205-220, [saveHosts]; [l] is the map in the order it is ranged over.
    The [i]-th clock reading is used for its [i]-th element. *)
Definition add_line (hosts hostentry : string) : string :=
  if (String.length hosts =? 0)%nat then hostentry
  else go_join (String (Zbyte 10) "") (split_on (Zbyte 10) hosts ++ [hostentry]).
Fixpoint save_loop (e : env) (i : nat) (l : list (string * string)) : M unit :=
  match l with
  | [] => mret tt
  | (uuid, hostentry) :: r =>
      s ← get_snap;
      let hosts := default "" (default ∅ (s !! uuid) !! KeyKnownHosts) in
      _ ← dbSet e i uuid KeyKnownHosts (add_line hosts hostentry);
      save_loop e (S i) r
  end.
Definition saveHosts (e : env) (l : list (string * string)) : M unit :=
  _ ← save_loop e 0 l;
  UpdateSnapshot.
