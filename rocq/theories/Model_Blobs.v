(** Model of blobformat/blobs.go, blobformat/blob.go (except the generation of
    one-time codes) and blobformat/constants.go. *)
From Verif Require Export Model_Fuzzy Model_TxLog.
From stdpp Require Import options.

(** blobformat/constants.go:5-31 *)
Definition KeyName : string := "name".
Definition KeyUpdated : string := "updated".
Definition KeyUser : string := "user".
Definition KeyEmail : string := "email".
Definition KeyURL : string := "url".
Definition KeyPass : string := "pass".
Definition KeyTwoFactor : string := "totp".
Definition KeyNotes : string := "notes".
Definition KeyLabels : string := "labels".
Definition KeySync : string := "sync".
Definition KeyPriv : string := "privkey".
Definition KeyPub : string := "pubkey".
Definition KeyKnownHosts : string := "knownhosts".
Definition KeyIV : string := "iv".
Definition KeySalt : string := "salt".
Definition KeyMKey : string := "mkey".
Definition syncPrefix : string := "sync/".
Definition userPrefix : string := "user/".

(** blobformat/constants.go:56-68 *)
Definition protectedKeys : list string :=
  [KeyTwoFactor; KeyName; KeyIV; KeySalt; KeyMKey; KeyUpdated].

(** What one call takes from outside: clock readings and growth of the log's
    array (numbered in the order of use), the uuid NewV4 returns, and the order
    in which ranging over a map visits its entries (a fresh choice [e_ord e j]
    for each range statement executed; Go picks it at random). *)
Record env := mk_env {
  e_now : nat → Z;
  e_grow : nat → nat;
  e_uuid : string;
  e_ord : nat → snapshot → list (string * entry);
}.

(** Ranging visits every entry once. *)
Definition fair (e : env) : Prop := ∀ j m, e_ord e j m ≡ₚ map_to_list m.

(** Methods on [Blobs] read and change the DB behind its pointer. *)
Definition M (A : Type) : Type := db → db * outcome A.
#[global] Instance M_ret : MRet M := λ A a d, (d, Ok a).
#[global] Instance M_bind : MBind M := λ A B f x d,
  match x d with
  | (d', Ok a) => f a d'
  | (d', Fail e) => (d', Fail e)
  | (d', Panic) => (d', Panic)
  end.
Definition lift {A} (o : outcome A) : M A := λ d, (d, o).
Definition get_snap : M snapshot := λ d, (d, Ok (snap_of d)).
Definition modify (f : db → db) : M unit := λ d, (f d, Ok tt).

(** blobformat/blob.go:27-34, [Name] *)
Definition Name (b : entry) : outcome string :=
  match b !! KeyName with Some n => Ok n | None => Panic end.

(** blobformat/blob.go:38-46, [Get] *)
Definition Get (b : entry) (key : string) : outcome string :=
  if existsb (EqualFold key) protectedKeys then Panic else Ok (default "" (b !! key)).

(** blobformat/blob.go:80-87, [Labels] *)
Definition Labels (b : entry) : list string :=
  let v := default "" (b !! KeyLabels) in
  if String.eqb v "" then [] else split_on (Zbyte 44) v.

(** blobformat/blob.go:91-107, [Updated]: nanoseconds, [None] for the zero time. *)
Definition Updated (b : entry) : outcome (option Z) :=
  match b !! KeyUpdated with
  | None => Ok None
  | Some s => match ParseInt s with Ok z => Ok (Some z) | Fail e => Fail e | Panic => Panic end
  end.

(** [b.DB.Set], [b.DB.DeleteKey], [b.DB.Delete] with the [i]-th clock reading. *)
Definition dbSet (e : env) (i : nat) (uuid key value : string) : M unit :=
  modify (λ d, Set_ (e_grow e i) (e_now e i) d uuid key value).
Definition dbDeleteKey (e : env) (i : nat) (uuid key : string) : M unit :=
  modify (λ d, DeleteKey (e_grow e i) (e_now e i) d uuid key).
Definition dbDelete (e : env) (i : nat) (uuid : string) : M unit :=
  modify (λ d, Delete (e_grow e i) (e_now e i) d uuid).

(** blobformat/blobs.go:506-508, [touchUpdated]: reads the clock for the stamp,
    then appendLog reads it again for the transaction. *)
Definition touchUpdated (e : env) (i : nat) (uuid : string) : M unit :=
  dbSet e (S i) uuid KeyUpdated (FormatInt (e_now e i)).

(** The loop of blobformat/blobs.go:315-320 and 339-344: is the name taken? *)
Fixpoint name_taken (name : string) (l : list (string * entry)) : outcome bool :=
  match l with
  | [] => Ok false
  | (_, b) :: r =>
      match Name b with
      | Ok n => if String.eqb name n then Ok true else name_taken name r
      | Fail e => Fail e
      | Panic => Panic
      end
  end.

(** blobformat/blobs.go:310-330, [New].  [j] numbers the range statement. *)
Definition New (e : env) (j : nat) (name : string) : M string :=
  _ ← UpdateSnapshot;
  s ← get_snap;
  taken ← lift (name_taken name (e_ord e j s));
  if (taken : bool) then lift (Fail ENameNotUnique)
  else
    _ ← modify (Add (e_grow e 0) (e_now e 0) (e_uuid e));
    _ ← touchUpdated e 1 (e_uuid e);
    _ ← dbSet e 3 (e_uuid e) KeyName name;
    mret (e_uuid e).

(** blobformat/blobs.go:334-354, [Rename] *)
Definition Rename (e : env) (uuid newName : string) : M unit :=
  _ ← UpdateSnapshot;
  s ← get_snap;
  taken ← lift (name_taken newName (e_ord e 0 s));
  if (taken : bool) then lift (Fail ENameNotUnique)
  else match s !! uuid with
       | None => lift (Fail (EMsg "uuid not found"))
       | Some _ =>
           _ ← touchUpdated e 0 uuid;
           dbSet e 2 uuid KeyName newName
       end.

(** [keyNotAllowed], blobformat/blobs.go:23-27 *)
Definition EKeyNotAllowed (key : string) : error := EMsg ("not allowed: " +:+ key).

(** blobformat/blobs.go:360-370, [Set] *)
Definition Set_key (e : env) (i : nat) (uuid key value : string) : M unit :=
  if existsb (EqualFold key) protectedKeys then lift (Fail (EKeyNotAllowed key))
  else
    _ ← touchUpdated e i uuid;
    dbSet e (S (S i)) uuid key value.

(** blobformat/blobs.go:373-382, [DeleteKey] *)
Definition DeleteKey_key (e : env) (uuid key : string) : M unit :=
  if String.eqb key KeyName || String.eqb key KeyUpdated then lift (Fail (EKeyNotAllowed key))
  else
    _ ← touchUpdated e 0 uuid;
    dbDeleteKey e 2 uuid key.

(** blobformat/blobs.go:393-414, [SetTwofactor].  The otp and url libraries are
    parameters: [coerce] builds the otpauth url of a bare key, [uri_ok] is
    whether NewKeyFromURL accepts it. *)
Definition SetTwofactor (coerce : string → string → string) (uri_ok : string → bool)
    (e : env) (uuid uriOrKey : string) : M unit :=
  let uri := if has_prefix uriOrKey "otpauth://" then uriOrKey else coerce uuid uriOrKey in
  if uri_ok uri then
    _ ← touchUpdated e 0 uuid;
    dbSet e 2 uuid KeyTwoFactor uri
  else lift (Fail (EMsg "could not set two factor key, uri wouldn't parse: %w")).

(** blobformat/blobs.go:182-192, [Find]: [None] is the nil blob. *)
Definition Find (uuid : string) : M (option entry) :=
  _ ← UpdateSnapshot;
  s ← get_snap;
  mret (s !! uuid).

(** blobformat/blobs.go:195-206, [MustFind] *)
Definition MustFind (uuid : string) : M entry :=
  b ← Find uuid;
  match b with Some x => mret x | None => lift Panic end.

(** The loop of blobformat/blobs.go:216-221 *)
Fixpoint find_name (name : string) (l : list (string * entry)) : outcome (option (string * entry)) :=
  match l with
  | [] => Ok None
  | (u, b) :: r =>
      match Name b with
      | Ok n => if String.eqb n name then Ok (Some (u, b)) else find_name name r
      | Fail e => Fail e
      | Panic => Panic
      end
  end.

(** blobformat/blobs.go:211-224, [FindByName]: [None] is "", nil. *)
Definition FindByName (e : env) (name : string) : M (option (string * entry)) :=
  _ ← UpdateSnapshot;
  s ← get_snap;
  lift (find_name name (e_ord e 0 s)).

(** blobformat/blobs.go:227-229, [FindUser] *)
Definition FindUser (e : env) (username : string) : M (option (string * entry)) :=
  FindByName e (userPrefix +:+ username).

(** blobformat/blobs.go:232-243, [MustFindUser]: panics if absent, or if the
    uuid is the empty string. *)
Definition MustFindUser (e : env) (username : string) : M (string * entry) :=
  r ← FindUser e username;
  match r with
  | Some (u, b) => if String.eqb u "" then lift Panic else mret (u, b)
  | None => lift Panic
  end.

(** Search results: uuid to name; [None] is the nil map, read like an empty one. *)
Notation results := (option (gmap string string)).
Definition res_map (r : results) : gmap string string := default ∅ r.

(** Ranges over the snapshot collecting the names of the entries [keep] keeps.
    A missing name or a panic inside [keep] ends the program. *)
Fixpoint collect (keep : string → entry → outcome bool) (l : list (string * entry))
    (acc : gmap string string) : outcome (gmap string string) :=
  match l with
  | [] => Ok acc
  | (u, b) :: r =>
      match keep u b with
      | Ok true =>
          match Name b with
          | Ok n => collect keep r (<[u := n]> acc)
          | Fail e => Fail e
          | Panic => Panic
          end
      | Ok false => collect keep r acc
      | Fail e => Fail e
      | Panic => Panic
      end
  end.

(** blobformat/blobs.go:245-256, [allEntries] *)
Definition allEntries (l : list (string * entry)) : outcome results :=
  match l with
  | [] => Ok None
  | _ => match collect (λ _ _, Ok true) l ∅ with Ok m => Ok (Some m) | Fail e => Fail e | Panic => Panic end
  end.

(** blobformat/blobs.go:119-123: fragment by fragment, [keyFrags] being at least
    as long as the query's fragments. *)
Fixpoint match_frags (lower : Z → Z) (keyFrags fragments : list string) : outcome bool :=
  match fragments, keyFrags with
  | [], _ => Ok true
  | f :: fs, k :: ks =>
      match Match lower k f with
      | Ok true => match_frags lower ks fs
      | Ok false => Ok false
      | Fail e => Fail e
      | Panic => Panic
      end
  | _ :: _, [] => Panic
  end.

(** blobformat/blobs.go:106-124: the test on one entry. *)
Definition search_keep (lower : Z → Z) (fragments : list string) (b : entry) : outcome bool :=
  match Name b with
  | Ok name =>
      match fragments with
      | [f] => Match lower name f
      | _ =>
          let keyFrags := split_on (Zbyte 47) name in
          if (length keyFrags <? length fragments)%nat then Ok false
          else match_frags lower keyFrags fragments
      end
  | Fail e => Fail e
  | Panic => Panic
  end.

(** blobformat/blobs.go:88-130, [Search] *)
Definition Search (lower : Z → Z) (e : env) (search : string) : M results :=
  _ ← UpdateSnapshot;
  s ← get_snap;
  let l := e_ord e 0 s in
  if (size s =? 0)%nat then mret None
  else if String.eqb search "" then lift (allEntries l)
  else
    lift (match collect (λ _ b, search_keep lower (split_on (Zbyte 47) search) b) l ∅ with
          | Ok m => Ok (Some m) | Fail e => Fail e | Panic => Panic end).

(** blobformat/blobs.go:156-168: counts matches; the break only leaves the inner
    loop. *)
Fixpoint labels_inner (n : nat) (want : string) (have : list string) (found : nat) : nat :=
  match have with
  | [] => found
  | h :: r =>
      if String.eqb h want then
        let found := S found in
        if (found =? n)%nat then found else labels_inner n want r found
      else labels_inner n want r found
  end.
Fixpoint labels_outer (n : nat) (wants have : list string) (found : nat) : nat :=
  match wants with
  | [] => found
  | w :: r => labels_outer n r have (labels_inner n w have found)
  end.
Definition labels_keep (labels : list string) (b : entry) : outcome bool :=
  let lblVal := default "" (b !! KeyLabels) in
  if String.eqb lblVal "" then Ok false
  else Ok (labels_outer (length labels) labels (split_on (Zbyte 44) lblVal) 0 =? length labels)%nat.

(** blobformat/blobs.go:133-176, [SearchLabels] *)
Definition SearchLabels (e : env) (labels : list string) : M results :=
  _ ← UpdateSnapshot;
  s ← get_snap;
  let l := e_ord e 0 s in
  if (size s =? 0)%nat then mret None
  else match labels with
       | [] => lift (allEntries l)
       | _ => lift (match collect (λ _ b, labels_keep labels b) l ∅ with
                    | Ok m => Ok (Some m) | Fail e => Fail e | Panic => Panic end)
       end.

(** blobformat/blobs.go:490-492, [IsUserEntry] *)
Definition IsUserEntry (name : string) : bool := has_prefix name userPrefix.

(** blobformat/blobs.go:496-503, [SplitUsername] *)
Definition SplitUsername (entryname : string) : outcome string :=
  match str_index entryname userPrefix with
  | None => Ok ""
  | Some index => str_drop (index + String.length userPrefix) entryname
  end.

(** blobformat/blobs.go:285-305, [Users]: nil when there are none. *)
Definition Users (e : env) : M results :=
  _ ← UpdateSnapshot;
  s ← get_snap;
  lift (match collect (λ _ b, match Name b with
                              | Ok n => Ok (IsUserEntry n) | Fail e => Fail e | Panic => Panic end)
                (e_ord e 0 s) ∅ with
        | Ok m => if (size m =? 0)%nat then Ok None else Ok (Some m)
        | Fail e => Fail e
        | Panic => Panic
        end).

(** blobformat/blobs.go:417-434, [AddLabel] *)
Definition AddLabel (e : env) (uuid label : string) : M unit :=
  b ← MustFind uuid;
  let labelVal := default "" (b !! KeyLabels) in
  let labelVal' := if String.eqb labelVal "" then label
                   else go_join "," (split_on (Zbyte 44) labelVal ++ [label]) in
  _ ← touchUpdated e 0 uuid;
  Set_key e 2 uuid KeyLabels labelVal'.

(** blobformat/blobs.go:437-459, [RemoveLabel].  [copy] shifts the labels after
    [index] down by one and leaves the last slot, which is all that line 454
    keeps. *)
Definition shift_down (labels : list string) (index : nat) : list string :=
  take index labels ++ drop (S index) labels ++ drop (length labels - 1) labels.
Definition RemoveLabel (e : env) (uuid : string) (index : Z) : M unit :=
  b ← MustFind uuid;
  let labels := split_on (Zbyte 44) (default "" (b !! KeyLabels)) in
  if (Z.of_nat (length labels) <=? index)%Z then lift (Fail (EMsg "index out of range"))
  else if (length labels =? 1)%nat then dbDeleteKey e 0 uuid KeyLabels
  else if (index <? 0)%Z then lift Panic
  else
    let labels := shift_down labels (Z.to_nat index) in
    let labels := drop (length labels - 1) labels in
    _ ← touchUpdated e 0 uuid;
    dbSet e 2 uuid KeyLabels (go_join "," labels).

(** blobformat/blobs.go:466-481, [NewSync]: retries with another "1" appended.
    [None] when [fuel] iterations do not suffice. *)
Fixpoint newsync_loop (fuel : nat) (e : env) (j : nat) (newName : string) (d : db)
    : option (db * outcome string) :=
  match fuel with
  | O => None
  | S f =>
      match New e j newName d with
      | (d', Fail ENameNotUnique) => newsync_loop f e (S j) (newName +:+ "1") d'
      | r => Some r
      end
  end.
Definition NewSync (fuel : nat) (e : env) (kind : string) (d : db) : option (db * outcome string) :=
  newsync_loop fuel e 0 (syncPrefix +:+ kind) d.

(** blobformat/blobs.go:485-487, [NewUser] *)
Definition NewUser (e : env) (name : string) : M string := New e 0 (userPrefix +:+ name).

(** blobformat/blobs.go:66-70: appends "1" until the name is not in [names];
    [names] is finite, so [size names + 1] iterations suffice. *)
Fixpoint fresh_name (fuel : nat) (names : gmap string unit) (name : string) : string :=
  match fuel with
  | O => name
  | S f => let name := name +:+ "1" in
           match names !! name with Some _ => fresh_name f names name | None => name end
  end.

(** blobformat/blobs.go:48-79, [RenameDuplicates].  The error of [Set] is
    dropped (line 75).  [i] numbers the clock readings. *)
Fixpoint rename_loop (e : env) (i : nat) (l : list (string * entry))
    (names : gmap string unit) (renames : gmap string string) : M (gmap string string) :=
  match l with
  | [] => mret renames
  | (uuid, b) :: r =>
      name ← lift (Name b);
      match names !! name with
      | None => rename_loop e i r (<[name := tt]> names) renames
      | Some _ =>
          let newName := fresh_name (S (size names)) names name in
          _ ← touchUpdated e i uuid;
          _ ← (λ d, (fst (Set_key e (S (S i)) uuid KeyName newName d), Ok tt));
          rename_loop e (S (S (S (S (S i))))) r names (<[name := newName]> renames)
      end
  end.
Definition RenameDuplicates (e : env) : M (gmap string string) :=
  _ ← UpdateSnapshot;
  s ← get_snap;
  rename_loop e 0 (e_ord e 0 s) ∅ ∅.

(** uihelpers.go:70-105, [findOne], the messages apart: "" when nothing is
    chosen.  [ord] is the order of ranging over the results; [entries.UUIDs()]
    of a one-element map is that element. *)
Fixpoint exact_name (query : string) (l : list (string * string)) : string :=
  match l with
  | [] => ""
  | (u, n) :: r => if String.eqb n query then u else exact_name query r
  end.
Definition findOne (lower : Z → Z) (ord : gmap string string → list (string * string))
    (e : env) (query : string) : M string :=
  entries ← Search lower e query;
  let m := res_map entries in
  match ord m with
  | [] => mret ""
  | [(u, _)] => mret u
  | l => mret (exact_name query l)
  end.
