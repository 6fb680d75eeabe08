(** Model of the JSON encoding of a store: [Save], [New] and [NewLog]
    (txlogs/txlogs.go:53-80) with Go's encoding/json for these types.

    [json.Marshal] is modelled as building a tree and printing it; the tree
    follows the struct tags of txlogs/txlogs.go:34-51 and txlogs/tx.go:19-30.
    [json.Unmarshal] is modelled as parsing bytes to a tree and decoding it.

    Simplified: the limit of 10000 nested values is not modelled; [null] for an
    entry of a snapshot gives an empty entry; if a file names [log] twice, the
    last one wins (Go would decode into the elements already there). *)
From Verif Require Export Model_GoStr2 Model_Crypt Model_TxLog.
From stdpp Require Export sorting.
From stdpp Require Import options.
Import Model_GoStr.

Inductive json :=
| JNull
| JBool (b : bool)
| JNum (lit : string)
| JStr (s : string)
| JArr (l : list json)
| JObj (l : list (string * json)).

(** ** Printing *)

(** The runes of a string with their widths; an invalid byte is (U+FFFD, 1). *)
Fixpoint pieces_from (skip : nat) (s : string) : list (Z * nat) :=
  match s with
  | EmptyString => []
  | String _ s' =>
      match skip with
      | S k => pieces_from k s'
      | O => match decode_rune s with
             | Some (r, w) => (r, w) :: pieces_from (w - 1) s'
             | None => []
             end
      end
  end.
Definition pieces (s : string) : list (Z * nat) := pieces_from 0 s.

Definition chr (z : Z) : string := String (Zbyte z) "".
Definition hex_digit (z : Z) : string := chr (if (z <? 10)%Z then 48 + z else 87 + z)%Z.

(** encoding/json's [htmlSafeSet] *)
Definition html_safe (r : Z) : bool :=
  (32 <=? r)%Z && negb ((r =? 34)%Z || (r =? 92)%Z || (r =? 60)%Z || (r =? 62)%Z || (r =? 38)%Z).

(** encoding/json's [encodeState.string] with HTML escaping, one rune. *)
Definition enc_piece (p : Z * nat) : string :=
  let '(r, w) := p in
  if (r <? 128)%Z then
    if html_safe r then chr r
    else if (r =? 92)%Z || (r =? 34)%Z then chr 92 +:+ chr r
    else if (r =? 10)%Z then chr 92 +:+ "n"
    else if (r =? 13)%Z then chr 92 +:+ "r"
    else if (r =? 9)%Z then chr 92 +:+ "t"
    else chr 92 +:+ "u00" +:+ hex_digit (r / 16) +:+ hex_digit (r mod 16)
  else if (r =? RuneError)%Z && (w =? 1)%nat then chr 92 +:+ "ufffd"
  else if (r =? 8232)%Z || (r =? 8233)%Z then chr 92 +:+ "u202" +:+ hex_digit (r mod 16)
  else encode_rune r.
Definition enc_chars (l : list (Z * nat)) : string := fold_right (λ p s, enc_piece p +:+ s) "" l.
Definition print_str (s : string) : string := chr 34 +:+ enc_chars (pieces s) +:+ chr 34.

Fixpoint print (j : json) : string :=
  match j with
  | JNull => "null"
  | JBool true => "true"
  | JBool false => "false"
  | JNum lit => lit
  | JStr s => print_str s
  | JArr l => "[" +:+ go_join "," (map print l) +:+ "]"
  | JObj l => "{" +:+ go_join "," (map (λ p, print_str p.1 +:+ ":" +:+ print p.2) l) +:+ "}"
  end.

(** ** Parsing *)

Definition is_ws (b : Z) : bool := (b =? 32)%Z || (b =? 9)%Z || (b =? 13)%Z || (b =? 10)%Z.
Fixpoint skip_ws (s : string) : string :=
  match s with
  | EmptyString => s
  | String c s' => if is_ws (byteZ c) then skip_ws s' else s
  end.

Definition hex_val (b : Z) : option Z :=
  if inr 48 57 b then Some (b - 48)%Z
  else if inr 97 102 b then Some (b - 87)%Z
  else if inr 65 70 b then Some (b - 55)%Z
  else None.
(** encoding/json's [getu4] without the leading backslash and u *)
Definition hex4 (s : string) : option (Z * string) :=
  match s with
  | String a (String b (String c (String d r))) =>
      a ← hex_val (byteZ a); b ← hex_val (byteZ b); c ← hex_val (byteZ c); d ← hex_val (byteZ d);
      Some (a * 4096 + b * 256 + c * 16 + d, r)%Z
  | _ => None
  end.
(** ... and with them *)
Definition next_u (s : string) : option (Z * string) :=
  match s with
  | String a (String b r) => if (byteZ a =? 92)%Z && (byteZ b =? 117)%Z then hex4 r else None
  | _ => None
  end.
Definition is_surrogate (r : Z) : bool := inr 55296 57343 r.
(** [utf16.DecodeRune]; [None] for U+FFFD *)
Definition surrogate_pair (a b : Z) : option Z :=
  if inr 55296 56319 a && inr 56320 57343 b then Some ((a - 55296) * 1024 + (b - 56320) + 65536)%Z else None.

Definition simple_escape (b : Z) : option Z :=
  if (b =? 34)%Z || (b =? 92)%Z || (b =? 47)%Z then Some b
  else if (b =? 98)%Z then Some 8%Z
  else if (b =? 102)%Z then Some 12%Z
  else if (b =? 110)%Z then Some 10%Z
  else if (b =? 114)%Z then Some 13%Z
  else if (b =? 116)%Z then Some 9%Z
  else None.

Definition onto (a : string) (r : option (string * string)) : option (string * string) :=
  match r with Some (s, rest) => Some (a +:+ s, rest) | None => None end.

(** encoding/json's scanner states for strings with [unquoteBytes]: what comes
    after the opening quote. *)
Fixpoint parse_chars (fuel : nat) (s : string) : option (string * string) :=
  match fuel with
  | O => None
  | S f =>
      match s with
      | EmptyString => None
      | String c r =>
          let b := byteZ c in
          if (b =? 34)%Z then Some ("", r)
          else if (b =? 92)%Z then
            match r with
            | EmptyString => None
            | String e r2 =>
                match simple_escape (byteZ e) with
                | Some x => onto (encode_rune x) (parse_chars f r2)
                | None =>
                    if (byteZ e =? 117)%Z then
                      match hex4 r2 with
                      | None => None
                      | Some (u, r3) =>
                          if is_surrogate u then
                            match next_u r3 with
                            | Some (u2, r4) =>
                                match surrogate_pair u u2 with
                                | Some x => onto (encode_rune x) (parse_chars f r4)
                                | None => onto (encode_rune RuneError) (parse_chars f r3)
                                end
                            | None => onto (encode_rune RuneError) (parse_chars f r3)
                            end
                          else onto (encode_rune u) (parse_chars f r3)
                      end
                    else None
                end
            end
          else if (b <? 32)%Z then None
          else if (b <? 128)%Z then onto (String c "") (parse_chars f r)
          else
            match decode_rune s with
            | None => None
            | Some (x, w) =>
                match str_drop w s with
                | Ok s' => onto (encode_rune x) (parse_chars f s')
                | _ => None
                end
            end
      end
  end.
Definition parse_str (s : string) : option (string * string) :=
  match s with
  | String c r => if (byteZ c =? 34)%Z then parse_chars (S (String.length r)) r else None
  | EmptyString => None
  end.

(** Numbers: the literal. *)
Definition is_digit (b : Z) : bool := inr 48 57 b.
Fixpoint take_digits (s : string) : string * string :=
  match s with
  | EmptyString => ("", "")
  | String c r => if is_digit (byteZ c) then let '(d, r') := take_digits r in (String c d, r') else ("", s)
  end.
Definition take_int (s : string) : option (string * string) :=
  match s with
  | EmptyString => None
  | String c r =>
      if (byteZ c =? 48)%Z then Some (String c "", r)
      else if is_digit (byteZ c) then let '(d, r') := take_digits r in Some (String c d, r') else None
  end.
Definition take_frac (s : string) : option (string * string) :=
  match s with
  | String c r =>
      if (byteZ c =? 46)%Z then
        match take_digits r with ("", _) => None | (d, r') => Some (String c d, r') end
      else Some ("", s)
  | EmptyString => Some ("", s)
  end.
Definition take_exp (s : string) : option (string * string) :=
  match s with
  | String c r =>
      if (byteZ c =? 101)%Z || (byteZ c =? 69)%Z then
        let '(sg, r1) :=
          match r with
          | String g r' => if (byteZ g =? 43)%Z || (byteZ g =? 45)%Z then (String g "", r') else ("", r)
          | EmptyString => ("", r)
          end in
        match take_digits r1 with ("", _) => None | (d, r') => Some (String c (sg +:+ d), r') end
      else Some ("", s)
  | EmptyString => Some ("", s)
  end.
Definition take_sign (s : string) : string * string :=
  match s with
  | String c r => if (byteZ c =? 45)%Z then (String c "", r) else ("", s)
  | EmptyString => ("", s)
  end.
Definition parse_num (s : string) : option (string * string) :=
  let '(sg, s) := take_sign s in
  '(i, s) ← take_int s;
  '(f, s) ← take_frac s;
  '(e, s) ← take_exp s;
  Some (sg +:+ i +:+ f +:+ e, s).

(** The word [w] at the start of [s]. *)
Definition word (w : string) (j : json) (s : string) : option (json * string) :=
  if has_prefix s w then match str_drop (String.length w) s with Ok r => Some (j, r) | _ => None end else None.

Section lists.
  (** Members of an array or object, after the opening bracket and white space,
      when it is not closed at once.  [elem] parses a value. *)
  Variable elem : string → option (json * string).
  Definition close_or (b : Z) (s : string) : option (bool * string) :=
    match skip_ws s with
    | String c r => if (byteZ c =? 44)%Z then Some (true, r) else if (byteZ c =? b)%Z then Some (false, r) else None
    | EmptyString => None
    end.
  Fixpoint parse_elems (fuel : nat) (s : string) : option (list json * string) :=
    match fuel with
    | O => None
    | S f =>
        '(j, s) ← elem (skip_ws s);
        '(more, s) ← close_or 93 s;
        if more : bool then '(l, s) ← parse_elems f s; Some (j :: l, s) else Some ([j], s)
    end.
  Definition parse_member (s : string) : option (string * json * string) :=
    '(k, s) ← parse_str (skip_ws s);
    match skip_ws s with
    | String c r => if (byteZ c =? 58)%Z then '(j, s) ← elem (skip_ws r); Some (k, j, s) else None
    | EmptyString => None
    end.
  Fixpoint parse_members (fuel : nat) (s : string) : option (list (string * json) * string) :=
    match fuel with
    | O => None
    | S f =>
        '(k, j, s) ← parse_member s;
        '(more, s) ← close_or 125 s;
        if more : bool then '(l, s) ← parse_members f s; Some ((k, j) :: l, s) else Some ([(k, j)], s)
    end.
End lists.

(** The next byte after white space is [b]; the rest. *)
Definition closes (b : Z) (s : string) : option string :=
  match skip_ws s with
  | String c r => if (byteZ c =? b)%Z then Some r else None
  | EmptyString => None
  end.

Fixpoint parse_val (fuel : nat) (s : string) : option (json * string) :=
  match fuel with
  | O => None
  | S f =>
      match s with
      | EmptyString => None
      | String c r =>
          let b := byteZ c in
          if (b =? 123)%Z then
            match closes 125 r with
            | Some s => Some (JObj [], s)
            | None => '(l, s) ← parse_members (parse_val f) f r; Some (JObj l, s)
            end
          else if (b =? 91)%Z then
            match closes 93 r with
            | Some s => Some (JArr [], s)
            | None => '(l, s) ← parse_elems (parse_val f) f r; Some (JArr l, s)
            end
          else if (b =? 34)%Z then '(t, s) ← parse_str s; Some (JStr t, s)
          else if (b =? 116)%Z then word "true" (JBool true) s
          else if (b =? 102)%Z then word "false" (JBool false) s
          else if (b =? 110)%Z then word "null" JNull s
          else '(n, s) ← parse_num s; Some (JNum n, s)
      end
  end.

(** A whole document ([json.Unmarshal] checks all of it first). *)
Definition parse_json (s : string) : option json :=
  '(j, r) ← parse_val (S (String.length s)) (skip_ws s);
  match skip_ws r with EmptyString => Some j | _ => None end.

(** ** The store as a tree *)

Definition omit {A} (b : bool) (x : A) : list A := if b then [] else [x].
Definition str_field (k v : string) : list (string * json) := omit (String.length v =? 0)%nat (k, JStr v).

(** txlogs/tx.go:19-30 *)
Definition tx_json (t : tx) : json :=
  JObj (omit (tx_time t =? 0)%Z ("time", JNum (FormatInt (tx_time t))) ++
        str_field "kind" (tx_kind t) ++ str_field "uuid" (tx_uuid t) ++
        str_field "key" (tx_key t) ++ str_field "value" (tx_value t)).

(** Maps are printed in the order of their keys. *)
Definition key_le {A} (x y : string * A) : Prop := String.leb x.1 y.1 = true.
#[global] Instance key_le_dec {A} : RelDecision (@key_le A).
Proof. intros x y. unfold key_le. apply _. Defined.
Definition sorted_bindings {A} (m : gmap string A) : list (string * A) := merge_sort key_le (map_to_list m).
Definition entry_json (e : entry) : json := JObj ((λ p, (p.1, JStr p.2)) <$> sorted_bindings e).
Definition snapshot_json (m : snapshot) : json := JObj ((λ p, (p.1, entry_json p.2)) <$> sorted_bindings m).

(** txlogs/txlogs.go:34-43 *)
Definition db_json (d : db) : json :=
  JObj (omit (db_version d =? 0)%nat ("version", JNum (FormatInt (Z.of_nat (db_version d)))) ++
        omit (size (snap_of d) =? 0)%nat ("snapshot", snapshot_json (snap_of d)) ++
        omit (length (vis (db_log d)) =? 0)%nat ("log", JArr (tx_json <$> vis (db_log d)))).

(** txlogs/txlogs.go:73-80, [Save] *)
Definition Save (d : db) : outcome bytes :=
  _ ← save_guard d; Ok (str_bytes (print (db_json d))).

(** ** Decoding a tree *)

(** Any of encoding/json's errors. *)
Definition EJson : error := EMsg "json".

(** Into a string, a [uint] and an [int64]; [null] leaves the old value. *)
Definition dec_str (j : json) (old : string) : outcome string :=
  match j with JStr s => Ok s | JNull => Ok old | _ => Fail EJson end.
Definition dec_uint (j : json) (old : nat) : outcome nat :=
  match j with
  | JNum lit =>
      match parse_digits 0 lit with
      | Some z => if (z <? 2 ^ 64)%Z then Ok (Z.to_nat z) else Fail EJson
      | None => Fail EJson
      end
  | JNull => Ok old
  | _ => Fail EJson
  end.
Definition dec_int (j : json) (old : Z) : outcome Z :=
  match j with
  | JNum lit => match ParseInt lit with Ok z => Ok z | _ => Fail EJson end
  | JNull => Ok old
  | _ => Fail EJson
  end.

(** Field names match without regard to case. *)
Fixpoint dec_tx_fields (t : tx) (l : list (string * json)) : outcome tx :=
  match l with
  | [] => Ok t
  | (k, j) :: l' =>
      t ← (if EqualFold k "time" then z ← dec_int j (tx_time t); Ok (mk_tx z (tx_kind t) (tx_uuid t) (tx_key t) (tx_value t))
           else if EqualFold k "kind" then s ← dec_str j (tx_kind t); Ok (mk_tx (tx_time t) s (tx_uuid t) (tx_key t) (tx_value t))
           else if EqualFold k "uuid" then s ← dec_str j (tx_uuid t); Ok (mk_tx (tx_time t) (tx_kind t) s (tx_key t) (tx_value t))
           else if EqualFold k "key" then s ← dec_str j (tx_key t); Ok (mk_tx (tx_time t) (tx_kind t) (tx_uuid t) s (tx_value t))
           else if EqualFold k "value" then s ← dec_str j (tx_value t); Ok (mk_tx (tx_time t) (tx_kind t) (tx_uuid t) (tx_key t) s)
           else Ok t);
      dec_tx_fields t l'
  end.
Definition dec_tx (j : json) : outcome tx :=
  match j with
  | JObj l => dec_tx_fields tx_zero l
  | JNull => Ok tx_zero
  | _ => Fail EJson
  end.
Fixpoint dec_txs (l : list json) : outcome (list tx) :=
  match l with
  | [] => Ok []
  | j :: l' => t ← dec_tx j; ts ← dec_txs l'; Ok (t :: ts)
  end.

(** The capacity after appending [n] elements one by one (decode.go, [array]). *)
Fixpoint json_cap (n : nat) : nat :=
  match n with
  | O => 0
  | S n' => let c := json_cap n' in if (c <=? n')%nat then Nat.max 4 (c + c / 2) else c
  end.
Definition dec_log (j : json) (old : slice tx) : outcome (slice tx) :=
  match j with
  | JArr l => ts ← dec_txs l; Ok (mk_slice ts (replicate (json_cap (length ts) - length ts) tx_zero))
  | JNull => Ok slice_nil
  | _ => Fail EJson
  end.

Fixpoint dec_entry_fields (e : entry) (l : list (string * json)) : outcome entry :=
  match l with
  | [] => Ok e
  | (k, j) :: l' => s ← dec_str j ""; dec_entry_fields (<[k := s]> e) l'
  end.
Definition dec_entry (j : json) : outcome entry :=
  match j with
  | JObj l => dec_entry_fields ∅ l
  | JNull => Ok ∅
  | _ => Fail EJson
  end.
Fixpoint dec_snapshot_fields (m : snapshot) (l : list (string * json)) : outcome snapshot :=
  match l with
  | [] => Ok m
  | (k, j) :: l' => e ← dec_entry j; dec_snapshot_fields (<[k := e]> m) l'
  end.
Definition dec_snapshot (j : json) (old : option snapshot) : outcome (option snapshot) :=
  match j with
  | JObj l => m ← dec_snapshot_fields (default ∅ old) l; Ok (Some m)
  | JNull => Ok None
  | _ => Fail EJson
  end.

Fixpoint dec_db_fields (d : db) (l : list (string * json)) : outcome db :=
  match l with
  | [] => Ok d
  | (k, j) :: l' =>
      d ← (if EqualFold k "version" then v ← dec_uint j (db_version d); Ok (mk_db v (db_snapshot d) (db_log d) (db_txpoint d))
           else if EqualFold k "snapshot" then m ← dec_snapshot j (db_snapshot d); Ok (mk_db (db_version d) m (db_log d) (db_txpoint d))
           else if EqualFold k "log" then s ← dec_log j (db_log d); Ok (mk_db (db_version d) (db_snapshot d) s (db_txpoint d))
           else Ok d);
      dec_db_fields d l'
  end.

(** txlogs/txlogs.go:53-61, [New]; [None] is the nil pointer a file containing
    just [null] gives. *)
Definition New (data : bytes) : outcome (option db) :=
  match parse_json (bytes_string data) with
  | Some (JObj l) => d ← dec_db_fields db_new l; Ok (Some d)
  | Some JNull => Ok None
  | _ => Fail EJson
  end.

(** txlogs/txlogs.go:63-71, [NewLog]; with just [null] the nil pointer is
    dereferenced. *)
Fixpoint dec_log_fields (s : slice tx) (l : list (string * json)) : outcome (slice tx) :=
  match l with
  | [] => Ok s
  | (k, j) :: l' => s ← (if EqualFold k "log" then dec_log j s else Ok s); dec_log_fields s l'
  end.
Definition NewLog (data : bytes) : outcome (slice tx) :=
  match parse_json (bytes_string data) with
  | Some (JObj l) => dec_log_fields slice_nil l
  | Some JNull => Panic
  | _ => Fail EJson
  end.
