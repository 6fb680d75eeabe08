(** Model of a session: uicontext.go, loadBlob and saveBlob of main.go, and the
    commands of commands.go that deal with users and passphrases or delete
    entries.  Messages to the user are not modelled. *)
From Verif Require Export Model_Dialogue Model_Json Model_Blobs.
From stdpp Require Import options.

(** ** encoding/hex *)

Definition hexd (n : Z) : byte := Zbyte (if (n <? 10)%Z then 48 + n else 87 + n)%Z.
(** [hex.EncodeToString] *)
Fixpoint hex_encode (b : bytes) : string :=
  match b with
  | [] => ""
  | x :: r => String (hexd (byteZ x / 16)) (String (hexd (byteZ x mod 16)) (hex_encode r))
  end.
(** [fromHexChar] *)
Definition unhex_digit (c : byte) : option Z :=
  let z := byteZ c in
  if ((48 <=? z) && (z <=? 57))%Z then Some (z - 48)%Z
  else if ((97 <=? z) && (z <=? 102))%Z then Some (z - 87)%Z
  else if ((65 <=? z) && (z <=? 70))%Z then Some (z - 55)%Z
  else None.
(** [hex.DecodeString]; [None] stands for its errors *)
Fixpoint hex_decode (s : string) : option bytes :=
  match s with
  | EmptyString => Some []
  | String a (String b r) =>
      match unhex_digit a, unhex_digit b, hex_decode r with
      | Some x, Some y, Some l => Some (Zbyte (16 * x + y) :: l)
      | _, _, _ => None
      end
  | _ => None
  end.

(** ** The session: uicontext.go:13-37 (file names and the terminal apart).  A
    nil key, salt, master key or IV is the empty list. *)
Record session := mk_session {
  s_created : bool;
  s_readOnly : bool;
  s_startTx : nat;
  s_db : db;
  s_user : string;
  s_pass : string;
  s_key : bytes;
  s_salt : bytes;
  s_master : bytes;
  s_ivm : bytes;
}.
Definition set_db (d : db) (s : session) : session :=
  mk_session (s_created s) (s_readOnly s) (s_startTx s) d (s_user s) (s_pass s) (s_key s) (s_salt s) (s_master s) (s_ivm s).
Definition set_creds (pass : string) (key salt : bytes) (s : session) : session :=
  mk_session (s_created s) (s_readOnly s) (s_startTx s) (s_db s) (s_user s) pass key salt (s_master s) (s_ivm s).
Definition set_user (user : string) (s : session) : session :=
  mk_session (s_created s) (s_readOnly s) (s_startTx s) (s_db s) user (s_pass s) (s_key s) (s_salt s) (s_master s) (s_ivm s).
Definition set_master (master ivm : bytes) (s : session) : session :=
  mk_session (s_created s) (s_readOnly s) (s_startTx s) (s_db s) (s_user s) (s_pass s) (s_key s) (s_salt s) master ivm.

Definition cryptVersion : Z := 1. (* main.go:22 *)

(** ** Commands: they change the session and read lines; an error or a panic
    leaves the changes made so far. *)
Definition C (A : Type) : Type := session → list input → session * ui A.
#[global] Instance C_ret : MRet C := λ A a s inp, (s, UOk a inp).
#[global] Instance C_bind : MBind C := λ A B f x s inp,
  match x s inp with
  | (s', UOk a rest) => f a s' rest
  | (s', UErr e rest) => (s', UErr e rest)
  | (s', UPanic) => (s', UPanic)
  | (s', UWait) => (s', UWait)
  end.
Definition of_outcome {A} (o : outcome A) (inp : list input) : ui A :=
  match o with Ok a => UOk a inp | Fail e => UErr e inp | Panic => UPanic end.
Definition ask {A} (f : list input → ui A) : C A := λ s inp, (s, f inp).
Definition try {A} (o : outcome A) : C A := λ s inp, (s, of_outcome o inp).
Definition on_db {A} (m : M A) : C A := λ s inp,
  match m (s_db s) with (d, o) => (set_db d s, of_outcome o inp) end.
Definition state : C session := λ s inp, (s, UOk s inp).
Definition change (f : session → session) : C unit := λ s inp, (f s, UOk tt inp).

(** What the commands take from outside besides the store's [env]: salts and
    IVs drawn, in order; the master key and its IV; the bytes for generated
    passwords; and the order of ranging over a map of names. *)
Record rand := {
  r_salt : nat → option bytes;
  r_iv : nat → option bytes;
  r_master : option bytes;
  r_ivm : option bytes;
  r_pw : nat → option (nat → byte);
  r_ord : gmap string string → list (string * string);
}.

(** ** uicontext.go:39-99, [makeParams] *)

Definition hexed (s : option string) (msg : string) : outcome bytes :=
  match hex_decode (default "" s) with Some b => Ok b | None => Fail (EMsg msg) end.
Definition opt_bytes (b : bytes) : option bytes := if (length b =? 0)%nat then None else Some b.

(** lines 81-92: one more user *)
Definition params_snoc (p : Model_Crypt.Params) (index : nat) (me : bool) (key user salt iv mkey : bytes) : Model_Crypt.Params := {|
  p_version := 0; NUsers := NUsers p + 1; User := if me then Z.of_nat index else User p;
  Keys := Keys p ++ [if me then key else []]; Salts := Salts p ++ [salt];
  Model_Crypt.Users := Model_Crypt.Users p ++ [user]; IVs := IVs p ++ [iv]; MKeys := MKeys p ++ [mkey];
  IVM := IVM p; Master := Master p |}.

(** lines 54-93 *)
Fixpoint params_loop (P : prims) (me : string) (key : bytes) (index : nat) (l : list (string * string)) (p : Model_Crypt.Params) : M Model_Crypt.Params :=
  match l with
  | [] => mret p
  | (uuid, name) :: r =>
      name ← lift (SplitUsername name);
      if String.eqb name "" then lift (Fail (EMsg "params name was not a username"))
      else
        blob ← MustFind uuid;
        salt ← lift (hexed (blob !! KeySalt) "user entry had bad salt");
        iv ← lift (hexed (blob !! KeyIV) "user entry had bad iv");
        mkey ← lift (hexed (blob !! KeyMKey) "user entry had bad mkey");
        params_loop P me key (S index) r
          (params_snoc p index (String.eqb me name) key (sha256 P (str_bytes name)) salt iv mkey)
  end.

Definition params_empty : Model_Crypt.Params := {|
  p_version := 0; NUsers := 0; User := 0; Keys := []; Salts := []; Model_Crypt.Users := []; IVs := []; MKeys := [];
  IVM := None; Master := None |}.
Definition params_single (key salt : bytes) : Model_Crypt.Params := {|
  p_version := 0; NUsers := 0; User := 0; Keys := [key]; Salts := [salt]; Model_Crypt.Users := []; IVs := []; MKeys := [];
  IVM := None; Master := None |}.
Definition params_master (ivm master : bytes) (p : Model_Crypt.Params) : Model_Crypt.Params := {|
  p_version := 0; NUsers := NUsers p; User := User p; Keys := Keys p; Salts := Salts p;
  Model_Crypt.Users := Model_Crypt.Users p; IVs := IVs p; MKeys := MKeys p;
  IVM := opt_bytes ivm; Master := opt_bytes master |}.

(** line 51: an error of Users is turned into a panic *)
Definition must {A} (m : M A) : M A := λ d,
  match m d with (d', Fail _) => (d', Panic) | r => r end.

Definition makeParams (P : prims) (e : env) (ord : gmap string string → list (string * string)) (s : session) : M Model_Crypt.Params :=
  if (length (s_master s) =? 0)%nat then mret (params_single (s_key s) (s_salt s))
  else
    users ← must (Users e);
    p ← params_loop P (s_user s) (s_key s) 0 (ord (res_map users)) params_empty;
    mret (params_master (s_ivm s) (s_master s) p).

(** ** main.go:252-273, [saveBlob]: what is given to WriteFile, [None] if
    nothing is written.  [riv]: the IV of a single-user file. *)
Definition saveBlob (P : prims) (e : env) (ord : gmap string string → list (string * string)) (riv : option bytes) (s : session)
    : session * outcome (option bytes) :=
  if s_readOnly s then (s, Ok None)
  else
    match Save (s_db s) with
    | Ok data =>
        match makeParams P e ord s (s_db s) with
        | (d, Ok params) => (set_db d s, f ← Encrypt P cryptVersion params riv data; Ok (Some f))
        | (d, Fail x) => (set_db d s, Fail x)
        | (d, Panic) => (set_db d s, Panic)
        end
    | Fail x => (s, Fail x)
    | Panic => (s, Panic)
    end.

(** ** main.go:140-250, [loadBlob] *)

(** What os.Stat and ReadFile find; ReadFile's buffer may have spare room. *)
Inductive disk := Absent | NoStat (e : error) | Dir | Unreadable (e : error) | Found (content : slice byte).

Definition ubind {A B} (x : ui A) (f : A → list input → ui B) : ui B :=
  match x with UOk a rest => f a rest | UErr e rest => UErr e rest | UPanic => UPanic | UWait => UWait end.

(** lines 234-240: the index of the first transaction after [t] *)
Fixpoint first_after (t : Z) (l : list tx) (i : nat) : option nat :=
  match l with
  | [] => None
  | x :: r => if (t <? tx_time x)%Z then Some i else first_after t r (S i)
  end.

(** lines 231-244: the store as of time [t] *)
Definition rewind (t : Z) (d : db) : outcome db :=
  let d := ResetSnapshot d in
  l ← match first_after t (vis (db_log d)) 0 with
      | Some i => slice_upto (db_log d) i
      | None => Ok (db_log d)
      end;
  match UpdateSnapshot (mk_db (db_version d) (db_snapshot d) l (db_txpoint d)) with
  | (d', Ok _) => Ok d'
  | (_, Fail x) => Fail x
  | (_, Panic) => Panic
  end.

(** lines 228-249; [None] for a nil DB *)
Definition finish (created : bool) (history : option Z) (od : option db) (user pass : string) (key salt master ivm : bytes) : outcome session :=
  let ro := match history with Some _ => true | None => false end in
  d ← match od, history with
      | None, _ => Ok db_new
      | Some d, Some t => rewind t d
      | Some d, None => Ok d
      end;
  Ok (mk_session created ro (length (vis (db_log d))) d user pass key salt master ivm).

(** [history]: the --time flag in nanoseconds.  Both kinds of prompt read the
    next input. *)
Definition loadBlob (P : prims) (file : disk) (history : option Z) (rsalt : option bytes) (inp : list input) : ui session :=
  match file with
  | NoStat e => UErr e inp
  | Dir => UErr (EMsg "given file name is a directory") inp
  | Absent =>
      ubind (prompt inp) (λ pwd inp,
      if (String.length pwd =? 0)%nat then UErr (EMsg "cannot create a file with an empty password") inp
      else ubind (prompt inp) (λ verify inp,
      if negb (String.eqb pwd verify) then UErr (EMsg "passphrases did not match") inp
      else of_outcome (
        '(key, salt) ← DeriveKey P cryptVersion (str_bytes pwd) rsalt;
        finish true history None "" "" key salt [] []) inp))
  | Unreadable e => UErr e inp
  | Found payload =>
      ubind (of_outcome (IsMultiUser payload) inp) (λ multi inp,
      ubind (if (multi : bool) then prompt inp else UOk "" inp) (λ user inp,
      ubind (prompt inp) (λ pwd inp,
      of_outcome (
        '(_, params, pt) ← Decrypt P (str_bytes user) (str_bytes pwd) None [] payload;
        key ← idx (Keys params) (Z.to_nat (User params));
        salt ← idx (Salts params) (Z.to_nat (User params));
        od ← Model_Json.New pt;
        finish false history od user pwd key salt (nil_bytes (Master params)) (nil_bytes (IVM params))) inp)))
  end.

(** ** commands.go:86-88, 132-134, 194-196 and 267-269: the three DB.Set calls *)
Definition put_row (e : env) (i : nat) (uuid : string) (salt iv mkey : bytes) : M unit :=
  _ ← dbSet e i uuid KeySalt (hex_encode salt);
  _ ← dbSet e (S i) uuid KeyIV (hex_encode iv);
  dbSet e (S (S i)) uuid KeyMKey (hex_encode mkey).

(** getPassword without its trace *)
Definition newPassword (r : rand) (inp : list input) : ui string :=
  ubind (getPassword (r_pw r) inp) (λ '(pw, _) rest, UOk pw rest).

(** ** commands.go:51-93, [passwd] *)
Definition passwd (P : prims) (e : env) (r : rand) (user : string) : C unit :=
  pass ← ask (newPassword r);
  if String.eqb pass "" then mret tt
  else
    '(key, salt) ← try (DeriveKey P cryptVersion (str_bytes pass) (r_salt r 0));
    s ← state;
    _ ← (if String.eqb (s_user s) "" || String.eqb (s_user s) user then change (set_creds pass key salt) else mret tt);
    if (length (s_master s) =? 0)%nat then mret tt
    else
      '(uuid, _) ← on_db (MustFindUser e (s_user s));
      '(mkey, iv) ← try (EncryptMasterKey P cryptVersion key (s_master s) (r_iv r 0));
      on_db (put_row e 0 uuid salt iv mkey).

(** ** commands.go:95-143, [adduser].  The caller sees no difference between a
    name that is taken and success. *)
Definition adduser (P : prims) (e : env) (r : rand) (user : string) : C unit := λ s0 inp0,
  match NewUser e user (s_db s0) with
  | (d, Fail ENameNotUnique) => (set_db d s0, UOk tt inp0)
  | (d, o) =>
    (uuid ← try o;
     s ← state;
     '(key, salt) ←
       (if (length (s_master s) =? 0)%nat then
          match NewMasterKey cryptVersion (r_master r) (r_ivm r) with
          | Ok (master, ivm) =>
              _ ← change (λ s, set_user user (set_master master ivm s));
              mret (Some (s_key s), s_salt s)
          | _ =>
              (* line 109: return nil; both are nil when an error is returned *)
              _ ← change (set_master [] []);
              mret (None, [])
          end
        else
          pass ← ask (newPassword r);
          '(key, salt) ← try (DeriveKey P cryptVersion (str_bytes pass) (r_salt r 0));
          mret (Some key, salt));
     match key with
     | None => mret tt
     | Some key =>
         s ← state;
         '(mkey, iv) ← try (EncryptMasterKey P cryptVersion key (s_master s) (r_iv r 0));
         on_db (put_row e 4 uuid salt iv mkey)
     end) (set_db d s0) inp0
  end.

(** ** commands.go:145-201, [rekey] *)
Definition rekey (P : prims) (e : env) (r : rand) (user : string) : C unit :=
  let isCurrentUser := String.eqb user "" in
  s ← state;
  pass ← (if isCurrentUser then mret (s_pass s) else ask (newPassword r));
  if String.eqb pass "" then mret tt
  else
    '(key, salt) ← try (DeriveKey P cryptVersion (str_bytes pass) (r_salt r 0));
    _ ← (if isCurrentUser then change (set_creds pass key salt) else mret tt);
    if (length (s_master s) =? 0)%nat then mret tt
    else
      '(uuid, _) ← on_db (MustFindUser e (if isCurrentUser then s_user s else user));
      '(mkey, iv) ← try (EncryptMasterKey P cryptVersion key (s_master s) (r_iv r 0));
      on_db (put_row e 0 uuid salt iv mkey).

(** ** commands.go:208-279, [rekeyAll]: the passwords printed are returned *)

Definition no_class : classes := {| c_upper := 0; c_lower := 0; c_numbers := 0; c_basic := 0; c_extra := 0 |}.

(** lines 242-272 *)
Fixpoint rekey_loop (P : prims) (e : env) (r : rand) (n : nat) (l : list (string * string)) (printed : list (string * string))
    : C (list (string * string)) :=
  match l with
  | [] => mret printed
  | (uuid, name) :: rest =>
      username ← try (SplitUsername name);
      pass ← try (genPassword (r_pw r n) 32 no_class);
      let pass := bytes_string pass in
      '(key, salt) ← try (DeriveKey P cryptVersion (str_bytes pass) (r_salt r n));
      s ← state;
      _ ← (if String.eqb username (s_user s) then change (set_creds pass key salt) else mret tt);
      '(mkey, iv) ← try (EncryptMasterKey P cryptVersion key (s_master s) (r_iv r n));
      _ ← on_db (put_row e (3 * n) uuid salt iv mkey);
      rekey_loop P e r (S n) rest (printed ++ [(username, pass)])
  end.

Definition rekeyAll (P : prims) (e : env) (r : rand) : C (list (string * string)) :=
  s ← state;
  if (length (s_master s) =? 0)%nat then mret []
  else
    yes ← ask getYesNo;
    if negb yes then mret []
    else
      '(master, ivm) ← try (NewMasterKey cryptVersion (r_master r) (r_ivm r));
      users ← on_db (Users e);
      printed ← rekey_loop P e r 0 (r_ord r (res_map users)) [];
      _ ← change (set_master master ivm);
      mret printed.

(** ** commands.go:547-598, [deleteEntry] *)

(** line 577-580: an ErrEnd counts as an empty line *)
Definition prompt_end (inp : list input) : ui string :=
  match prompt inp with UErr EEnd rest => UOk "" rest | x => x end.

Definition deleteEntry (e : env) (name : string) : C unit :=
  found ← on_db (FindByName e name);
  match found with
  | None => mret tt
  | Some (uuid, _) =>
      if String.eqb uuid "" then mret tt
      else
        s ← state;
        username ← try (SplitUsername name);
        let self := negb (String.eqb username "") && String.eqb username (s_user s) in
        refused ← (if self then users ← on_db (Users e); mret (1 <? size (res_map users))%nat else mret false);
        if (refused : bool) then mret tt
        else
          line ← ask prompt_end;
          if negb (String.eqb line name) then mret tt
          else
            _ ← (if self then change (set_master [] []) else mret tt);
            on_db (dbDelete e 0 uuid)
  end.
