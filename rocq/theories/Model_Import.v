(** Model of import.go.  [records] are the records the reader of encoding/csv
    returns before it ends or fails; the reader is in Model_Csv. *)
From Verif Require Export Model_Commands.
From stdpp Require Import options.

(** strings.ReplaceAll(s, " ", "_") *)
Fixpoint underscores (s : string) : string :=
  match s with
  | EmptyString => ""
  | String c r => String (if Ascii.eqb c (Zbyte 32) then Zbyte 95 else c) (underscores r)
  end.

(** import.go:67-85: New with "1" appended until the name is not taken.  There are
    fewer entries than transactions, so the loop ends within the fuel. *)
Definition new_unique (e : env) (name : string) : M string := λ d,
  match newsync_loop (S (length (vis (db_log d)))) e 0 name d with Some r => r | None => (d, Panic) end.

(** import.go:60-109: one record.  [lower] is strings.ToLower. *)
Definition import_record (lower : string → string) (e1 e2 : env) (record : list string) : M unit :=
  name ← lift (idx record 4);
  uuid ← new_unique e1 (underscores (lower name));
  user ← lift (idx record 1);
  _ ← raw_if e2 0 uuid KeyUser user;
  pass ← lift (idx record 2);
  _ ← raw_if e2 1 uuid KeyPass pass;
  url ← lift (idx record 0);
  _ ← raw_if e2 2 uuid KeyURL url;
  notes ← lift (idx record 3);
  _ ← raw_if e2 3 uuid KeyNotes notes;
  grouping ← lift (idx record 5);
  fav ← lift (idx record 6);
  let labels := (if (String.length grouping =? 0)%nat then [] else [lower grouping]) ++ (if String.eqb fav "1" then ["lpfav"] else []) in
  match labels with [] => mret tt | _ => dbSet e2 4 uuid KeyLabels (go_join "," labels) end.

(** import.go:42-110.  [fields]: the reader wants as many fields in each record as
    in the first.  [last]: how reading ended, [None] for io.EOF. *)
Definition header : string := "url,username,password,extra,name,grouping,fav".
Fixpoint import_loop (lower : string → string) (E : nat → env) (i fields : nat) (records : list (list string)) (last : option error) : M unit :=
  match records with
  | [] => match last with None => mret tt | Some x => lift (Fail x) end
  | record :: r =>
      if negb (length record =? fields)%nat then lift (Fail (EMsg "wrong number of fields"))
      else if (i =? 0)%nat && negb (String.eqb (go_join "," record) header) then lift (Fail (EMsg "lastpass csv format not recognized"))
      else
        _ ← import_record lower (E (2 * i)%nat) (E (2 * i + 1)%nat) record;
        import_loop lower E (S i) fields r last
  end.
Definition first_fields (records : list (list string)) : nat := match records with [] => 0 | r :: _ => length r end.

(** import.go:14-113, [importLastpass]; [lpass]: the error of running lpass *)
Definition importLastpass (lower : string → string) (E : nat → env) (lpass : option error) (records : list (list string)) (last : option error) : C unit :=
  s ← state;
  proceed ← (if s_created s then mret true else line ← ask prompt; mret (String.eqb line "Y" || String.eqb line "y"));
  if negb (proceed : bool) then mret tt
  else match lpass with
       | Some x => try (Fail x)
       | None => on_db (import_loop lower E 0 (first_fields records) records last)
       end.

(** main.go:83-87, 118-122: the file is saved if the import did not fail *)
Definition import_main (P : prims) (lower : string → string) (E : nat → env) (lpass : option error) (records : list (list string)) (last : option error)
    (e : env) (ord : gmap string string → list (string * string)) (riv : option bytes) (s : session) (inp : list input) : session * ui (option bytes) :=
  match importLastpass lower E lpass records last s inp with
  | (s', UOk _ rest) => let '(s2, o) := saveBlob P e ord riv s' in (s2, of_outcome o rest)
  | (s', UErr x rest) => (s', UErr x rest)
  | (s', UPanic) => (s', UPanic)
  | (s', UWait) => (s', UWait)
  end.
