(** Model of the commands of commands.go that work on entries (the others are in
    Model_Session.v).  Texts shown to the user are modelled as [out] where they
    carry information from the store; other messages are not modelled. *)
From Verif Require Export Model_Session.
From stdpp Require Import options.

(** What url.Parse says about a text: an error, no scheme or an opaque part, or
    neither. *)
Inductive verdict := NotUrl | NoScheme | GoodUrl.

(** What the editor program does: it could not be run, or it exited with a
    status, leaving the file with some contents or removed. *)
Inductive edited := NotRun (e : error) | Exited (status : Z) (file : option string).

(** What one command takes from outside.  [w_env w i] is for the command's
    [i]-th operation on the store. *)
Record world := {
  w_P : prims;
  w_env : nat → env;
  w_rand : rand;
  w_lower : Z → Z;                             (* unicode.ToLower *)
  w_upper : Z → bool;                          (* unicode.IsUpper *)
  w_url : string → verdict;
  w_coerce : string → string → string;         (* see SetTwofactor *)
  w_uri_ok : string → bool;
  w_totp : string → outcome string;            (* the code for an otpauth url *)
  w_time : Z → string;                         (* RFC 3339 *)
  w_keys : entry → list string;                (* ranging over an entry *)
  w_editor : string → edited;                  (* given the file's contents *)
  w_abs : string → option string;              (* filepath.Abs *)
  w_file_url : string → string;                (* url.URL.String *)
  w_scp_url : string → string → string → string → option string → string;
  w_sshkey : Z → option (string * string);     (* new private and public key *)
  w_sync : string → C unit;                    (* the sync command *)
}.

Inductive out :=
| Names (l : list string)                      (* a list of names *)
| Value (v : string)                           (* a value, printed *)
| Clip (key v : string)                        (* a value, to the clipboard *)
| Report (key value : string)                  (* "set key = value" *)
| Row (key text : string)                      (* a line of show *)
| Hidden (key text : string)
| Multi (key text : string)
| Moved (src dst : string)
| Deleted (key : string)                       (* "deleted ... key" *)
| Opened (url : string)
| Dump (b : entry)
| DumpAll (d : db)
| Passwords (l : list (string * string))
| Note.                                        (* any other message *)

(** ** txlogs/txlogs.go:171-182, [Do], around a command *)
Definition within {A} (body : C A) : C A := λ s inp,
  match body (set_db (Begin (s_db s)) s) inp with
  | (s', UOk a rest) =>
      match Commit (s_db s') with Ok d => (set_db d s', UOk a rest) | _ => (s', UPanic) end
  | (s', UErr e rest) =>
      match Rollback (s_db s') with Ok d => (set_db d s', UErr e rest) | _ => (s', UPanic) end
  | r => r
  end.

(** commands.go:281-292 and 471-482: ErrEnd is not passed on *)
Definition interruptible {A} (dflt : A) (x : C A) : C A := λ s inp,
  match x s inp with (s', UErr EEnd rest) => (s', UOk dflt rest) | r => r end.

(** The result of a store operation with some of its errors caught. *)
Definition catching {A B} (m : M A) (h : error → option B) (k : A → B) : C B := λ s inp,
  match m (s_db s) with
  | (d, Ok a) => (set_db d s, UOk (k a) inp)
  | (d, Fail e) => (set_db d s, match h e with Some b => UOk b inp | None => UErr e inp end)
  | (d, Panic) => (set_db d s, UPanic)
  end.
Definition if_taken {B} (b : B) (e : error) : option B :=
  match e with ENameNotUnique => Some b | _ => None end.

(** an error is dropped *)
Definition dropping (m : M unit) : M unit := λ d,
  match m d with (d', Fail _) => (d', Ok tt) | r => r end.

(** the uuid [findOne] gives, "" for none *)
Definition findq (w : world) (query : string) : C string :=
  on_db (findOne (w_lower w) (r_ord (w_rand w)) (w_env w 0) query).

(** ** commands.go:484-524, [addNew], and 471-482, [addNewInterruptible] *)
Definition raw_if (e : env) (i : nat) (uuid key value : string) : M unit :=
  if (String.length value =? 0)%nat then mret tt else dbSet e i uuid key value.

Definition addNew (w : world) (name : string) : C (list out) :=
  within (
    new ← catching (New (w_env w 0) 0 name) (if_taken None) Some;
    match new with
    | None => mret [Note]
    | Some uuid =>
        email ← ask prompt;
        user ← ask prompt;
        pass ← ask (newPassword (w_rand w));
        _ ← on_db (raw_if (w_env w 1) 0 uuid KeyUser user);
        _ ← on_db (raw_if (w_env w 1) 1 uuid KeyEmail email);
        _ ← on_db (raw_if (w_env w 1) 2 uuid KeyPass pass);
        mret []
    end).
Definition addNewInterruptible (w : world) (name : string) : C (list out) := interruptible [Note] (addNew w name).

(** ** commands.go:294-353, [addSync], and 355-469, [addSCPEntry]; kinds: sync.go:29-32 *)
Definition syncSCP : string := "scp".
Definition syncFile : string := "file".

(** lines 366-385 *)
Fixpoint askPort (inp : list input) : ui string :=
  match inp with
  | [] => UWait
  | IErr e :: rest => UErr e rest
  | ILine port :: rest =>
      if (String.length port =? 0)%nat then UOk "22" rest
      else match Atoi port with Ok _ => UOk port rest | _ => askPort rest end
  end.

(** Failures to generate or encode a key only lead to messages. *)
Definition addSCPEntry (w : world) (uuid : string) : C string :=
  user ← ask getString;
  host ← ask getString;
  port ← ask askPort;
  file ← ask getString;
  choice ← ask (getMenuChoice 3);
  if (choice =? 2)%Z then
    pass ← ask (newPassword (w_rand w));
    mret (w_scp_url w user host port file (Some pass))
  else
    _ ← (match w_sshkey w choice with
         | None => mret tt
         | Some (priv, pub) =>
             _ ← on_db (dropping (Set_key (w_env w 1) 0 uuid KeyPriv priv));
             if (choice =? 0)%Z then on_db (dropping (Set_key (w_env w 2) 0 uuid KeyPub pub))
             else on_db (dbSet (w_env w 2) 0 uuid KeyPub pub)
         end);
    mret (w_scp_url w user host port file None).

Definition addSync (w : world) (kind : string) : C (list out) :=
  if negb (String.eqb kind syncSCP || String.eqb kind syncFile) then mret [Note]
  else within (
    s ← state;
    uuid ← on_db (λ d, match NewSync (S (length (vis (db_log (s_db s))))) (w_env w 0) kind d with
                       | Some r => r | None => (d, Panic) end);
    url ← (if String.eqb kind syncFile then
             file ← ask getString;
             match w_abs w file with
             | None => try (Fail EEnd)
             | Some abs => mret (w_file_url w abs)
             end
           else addSCPEntry w uuid);
    _ ← on_db (dbSet (w_env w 3) 0 uuid KeySync "true");
    _ ← on_db (dbSet (w_env w 3) 1 uuid KeyURL url);
    blob ← on_db (Find uuid);
    name ← try (match blob with Some b => Name b | None => Panic end);
    mret [Names [name]]).
Definition addSyncInterruptible (w : world) (kind : string) : C (list out) := interruptible [Note] (addSync w kind).

(** ** commands.go:526-545, [rename] *)
Definition rename (w : world) (src dst : string) : C (list out) :=
  found ← on_db (FindByName (w_env w 0) src);
  match found with
  | None => mret [Note]
  | Some (uuid, _) =>
      if String.eqb uuid "" then mret [Note]
      else catching (Rename (w_env w 1) uuid dst) (if_taken [Note]) (λ _, [Moved src dst])
  end.

(** ** commands.go:600-625, [deleteKey]; DeleteKey has no other error than
    that the key may not be deleted *)
Definition deleteKey (w : world) (search key : string) : C (list out) :=
  uuid ← findq w search;
  if String.eqb uuid "" then mret [Note]
  else
    blob ← on_db (MustFind uuid);
    match blob !! key with
    | None => mret [Deleted key]
    | Some _ => catching (DeleteKey_key (w_env w 1) uuid key) (λ _, Some [Note]) (λ _, [Deleted key])
    end.

(** sort.Strings *)
Fixpoint insert_sorted (x : string) (l : list string) : list string :=
  match l with
  | [] => [x]
  | y :: r => if String.leb x y then x :: l else y :: insert_sorted x r
  end.
Fixpoint sort_strings (l : list string) : list string :=
  match l with [] => [] | x :: r => insert_sorted x (sort_strings r) end.

(** ** commands.go:627-640, [list], and 642-656, [listByLabels] *)
Definition names_of (w : world) (r : results) : list out :=
  match r_ord (w_rand w) (res_map r) with [] => [Note] | l => [Names (sort_strings l.*2)] end.
Definition list_cmd (w : world) (search : string) : C (list out) :=
  r ← on_db (Search (w_lower w) (w_env w 0) search);
  mret (names_of w r).
Definition listByLabels (w : world) (labels : list string) : C (list out) :=
  r ← on_db (SearchLabels (w_env w 0) labels);
  mret (names_of w r).

(** ** blobformat/blob.go:54-77, [TwoFactor] *)
Definition TwoFactor (w : world) (b : entry) : outcome string :=
  let uri := default "" (b !! KeyTwoFactor) in
  if (String.length uri =? 0)%nat then Ok "" else w_totp w uri.

(** ** commands.go:658-722, [get]; [index] is not used.  The messages show the
    name, which an entry that was found has. *)
Definition give (copy : bool) (key v : string) : list out := if copy then [Clip key v] else [Value v].
Definition get_cmd (w : world) (search key : string) (index : Z) (copy : bool) : C (list out) :=
  uuid ← findq w search;
  if String.eqb uuid "" then mret [Note]
  else
    blob ← on_db (MustFind uuid);
    if String.eqb key KeyTwoFactor then
      match TwoFactor w blob with
      | Panic => try Panic
      | Fail _ => mret [Note]
      | Ok v => if (String.length v =? 0)%nat then mret [Note] else mret (give copy key v)
      end
    else if String.eqb key KeyUpdated then
      t ← try (Updated blob);
      match t with None => mret [Note] | Some t => mret (give copy key (w_time w t)) end
    else
      match blob !! key with
      | None => mret [Note]
      | Some v => mret (give copy key v)
      end.

(** ** commands.go:724-776, [login] *)

(** lines 752-763 *)
Fixpoint login_values (w : world) (b : entry) (keys : list string) : outcome (list (string * string)) :=
  match keys with
  | [] => Ok []
  | k :: r =>
      match b !! k with
      | None => login_values w b r
      | Some v =>
          v ← (if String.eqb k KeyTwoFactor then TwoFactor w b else Ok v);
          l ← login_values w b r;
          Ok ((k, v) :: l)
      end
  end.
(** lines 765-773 *)
Fixpoint login_loop (l : list (string * string)) (inp : list input) : ui (list out) :=
  match l with
  | [] => UOk [] inp
  | [(k, v)] => UOk [Clip k v] inp
  | (k, v) :: r => ubind (prompt inp) (λ _ inp, ubind (login_loop r inp) (λ o inp, UOk (Clip k v :: o) inp))
  end.
Definition login (w : world) (search : string) : C (list out) :=
  uuid ← findq w search;
  if String.eqb uuid "" then mret [Note]
  else
    blob ← on_db (Find uuid);
    l ← try (login_values w (default ∅ blob) [KeyUser; KeyEmail; KeyPass; KeyTwoFactor]);
    ask (login_loop l).

(** ** commands.go:778-831, [set] *)
Definition set_cmd (w : world) (search key value : string) : C (list out) :=
  uuid ← findq w search;
  if String.eqb uuid "" then mret [Note]
  else
    if String.eqb key KeyPass then
      value ← (if (String.length value =? 0)%nat then ask (newPassword (w_rand w)) else mret value);
      _ ← on_db (dropping (Set_key (w_env w 1) 0 uuid key value));
      mret [Report key value]
    else if String.eqb key KeyTwoFactor then
      catching (SetTwofactor (w_coerce w) (w_uri_ok w) (w_env w 1) uuid value) (λ _, Some [Note]) (λ _, [Report key value])
    else if String.eqb key KeyURL then
      match w_url w value with
      | GoodUrl =>
          _ ← on_db (dropping (Set_key (w_env w 1) 0 uuid key value));
          mret [Report key value]
      | _ => mret [Note]
      end
    else
      value ← (if (String.length value =? 0)%nat then ask promptMultiline else mret value);
      _ ← on_db (dropping (Set_key (w_env w 1) 0 uuid key value));
      mret [Report key value].

(** ** commands.go:833-943, [edit].  Failures of the file system other than
    those in [edited] are not modelled.  MustFind has no error after findOne. *)
Definition edit (w : world) (search key : string) : C (list out) :=
  uuid ← findq w search;
  if String.eqb uuid "" then mret [Note]
  else
    blob ← on_db (MustFind uuid);
    match w_editor w (default "" (blob !! key)) with
    | NotRun e => try (Fail e)
    | Exited _ None => mret [Note]
    | Exited status (Some new) =>
        if negb (status =? 0)%Z then mret [Note]
        else
          _ ← (if (String.length new =? 0)%nat then on_db (dropping (DeleteKey_key (w_env w 1) uuid key))
               else on_db (dropping (Set_key (w_env w 1) 0 uuid key new)));
          mret [Note]
    end.

(** What the temporary file holds when it is removed at the end ([None]: it is
    gone already), given the old value and what the editor did.  Lines 883-896
    write zeros over the first [maxLen] bytes if the file is open. *)
Fixpoint zeros (n : nat) : string := match n with O => "" | S k => String (Zbyte 0) (zeros k) end.
Fixpoint str_skip (n : nat) (s : string) : string :=
  match n, s with S k, String _ r => str_skip k r | O, _ => s | _, EmptyString => "" end.
Definition wipe (n : nat) (content : string) : string := zeros n +:+ str_skip n content.
Definition edit_leaves (old : string) (ed : edited) : option string :=
  match ed with
  | NotRun _ => Some old   (* the file was closed at line 898, so seeking fails *)
  | Exited _ None => None
  | Exited status (Some new) =>
      Some (wipe (if negb (status =? 0)%Z then String.length old
                  else Nat.max (String.length old) (String.length new)) new)
  end.

(** ** commands.go:1242-1261, [validateLabel] *)
Definition validateLabel (upper : Z → bool) (labels : list string) (label : string) : bool :=
  forallb (λ c, negb (IsSpace c || upper c)) (runes label) && negb (existsb (String.eqb label) labels).

(** ** commands.go:945-992, [addLabels] *)

(** lines 967-985 *)
Fixpoint labels_loop (upper : Z → bool) (labels : list string) (changed : bool) (inp : list input) : ui (list string * bool) :=
  match inp with
  | [] => UWait
  | IErr e :: rest => if decide (e = EEnd) then UOk (labels, changed) rest else UErr e rest
  | ILine line :: rest =>
      if (String.length line =? 0)%nat || String.eqb line "." then UOk (labels, changed) rest
      else if validateLabel upper labels line then labels_loop upper (labels ++ [line]) true rest
      else labels_loop upper labels changed rest
  end.
Definition addLabels (w : world) (search : string) : C (list out) :=
  uuid ← findq w search;
  if String.eqb uuid "" then mret [Note]
  else
    blob ← on_db (MustFind uuid);
    '(labels, changed) ← ask (labels_loop (w_upper w) (Labels blob) false);
    if (changed : bool) then
      _ ← on_db (dropping (Set_key (w_env w 1) 0 uuid KeyLabels (go_join "," labels)));
      _ ← try (Name blob);
      mret [Note]
    else mret [].

(** ** commands.go:994-1033, [deleteLabel] *)
Fixpoint label_index (label : string) (l : list string) (i : Z) : option Z :=
  match l with
  | [] => None
  | x :: r => if String.eqb x label then Some i else label_index label r (i + 1)%Z
  end.
Definition deleteLabel (w : world) (search label : string) : C (list out) :=
  uuid ← findq w search;
  if String.eqb uuid "" then mret [Note]
  else
    blob ← on_db (MustFind uuid);
    match label_index label (Labels blob) 0 with
    | None => mret [Note]
    | Some i =>
        _ ← on_db (RemoveLabel (w_env w 1) uuid i);
        _ ← try (Name blob);
        mret [Note]
    end.

(** ** commands.go:1035-1148, [show] *)

(** lines 1093-1101: the first occurrence is overwritten by the last key *)
Fixpoint find_idx (o : string) (l : list string) (i : nat) : option nat :=
  match l with [] => None | x :: r => if String.eqb o x then Some i else find_idx o r (S i) end.
Definition swap_out (keys : list string) (o : string) : list string :=
  match find_idx o keys 0 with
  | None => keys
  | Some i => take (length keys - 1) (<[i := List.last keys ""]> keys)
  end.
Definition show_first : list string :=
  [KeyName; KeyUser; KeyEmail; KeyPass; KeyTwoFactor; KeyLabels; KeyNotes].

(** strings.ReplaceAll(val, ",", ", ") *)
Definition spaced (v : string) : string := go_join ", " (split_on (Zbyte 44) v).

Definition has_newline (v : string) : bool := (1 <? length (split_on (Zbyte 10) v))%nat.

(** lines 1106-1134: one key *)
Definition show_key (w : world) (b : entry) (k : string) : outcome (list out) :=
  if String.eqb k KeyUpdated then Ok []
  else
    match b !! k with
    | None => Ok []
    | Some v =>
        if String.eqb k KeyPass then v ← Get b KeyPass; Ok [Hidden KeyPass v]
        else if String.eqb k KeyLabels then Ok [Row k (spaced v)]
        else if String.eqb k KeyTwoFactor then
          match TwoFactor w b with
          | Panic => Panic
          | Fail _ => Ok [Note]
          | Ok t => if (String.length t =? 0)%nat then Ok [] else Ok [Row k t]
          end
        else if has_newline v then Ok [Multi k v]
        else Ok [Row k v]
    end.
Fixpoint show_keys (w : world) (b : entry) (keys : list string) : outcome (list out) :=
  match keys with
  | [] => Ok []
  | k :: r => o ← show_key w b k; l ← show_keys w b r; Ok (o ++ l)
  end.

(** lines 1070-1147 *)
Definition show_blob (w : world) (b : entry) (snaps : nat) (snapshot : Z) : outcome (list out) :=
  let keys := fold_left swap_out show_first (w_keys w b) in
  l ← show_keys w b (show_first ++ sort_strings keys);
  t ← Updated b;
  Ok (l ++ (match t with None => [] | Some t => [Row KeyUpdated (w_time w t)] end)
        ++ (if (0 <? snaps)%nat && (snapshot =? 0)%Z then [Row "snaps" (FormatInt (Z.of_nat snaps))] else [])).

Definition show (w : world) (search : string) (snapshot : Z) : C (list out) :=
  uuid ← findq w search;
  if String.eqb uuid "" then mret [Note]
  else
    blob ← on_db (MustFind uuid);
    s ← state;
    let snaps := NVersions (s_db s) uuid in
    let chosen :=
      if (snapshot =? 0)%Z then Ok (Some blob)
      else if (Z.of_nat snaps <? snapshot)%Z then _ ← Name blob; Ok None
      else match EntrySnapshotAt (s_db s) uuid snapshot with
           | Ok b => Ok (Some b)
           | Fail _ => Ok None
           | Panic => Panic
           end in
    blob ← try chosen;
    match blob with
    | None => mret [Note]
    | Some b => if (size b =? 0)%nat then mret [Note] else try (show_blob w b snaps snapshot)
    end.

(** ** commands.go:1174-1205, [openurl]: an error of findOne is not returned *)
Definition openurl (w : world) (search : string) : C (list out) := λ s inp,
  match findq w search s inp with
  | (s', UErr _ rest) => (s', UOk [] rest)
  | (s', UOk uuid rest) =>
      (if String.eqb uuid "" then mret [Note]
       else
         blob ← on_db (MustFind uuid);
         link ← try (Get blob KeyURL);
         if (String.length link =? 0)%nat then _ ← try (Name blob); mret [Note]
         else match w_url w link with NotUrl => mret [Note] | _ => mret [Opened link] end) s' rest
  | (s', UPanic) => (s', UPanic)
  | (s', UWait) => (s', UWait)
  end.

(** ** commands.go:1207-1223, [dump], and 1225-1232, [dumpall] *)
Definition dump (w : world) (search : string) : C (list out) :=
  uuid ← findq w search;
  if String.eqb uuid "" then mret [Note]
  else
    blob ← on_db (MustFind uuid);
    mret [Dump blob].
Definition dumpall : C (list out) := s ← state; mret [DumpAll (s_db s)].
