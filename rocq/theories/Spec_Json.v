(** Notions used to state the properties of saving and loading. *)
From Verif Require Export Model_Json.
From stdpp Require Import options.
Import Model_GoStr.

(** Well-formed UTF-8 *)
Definition utf8 (s : string) : Prop := ∃ rs, Forall (λ r, valid_rune r = true) rs ∧ s = encode rs.

Definition tx_utf8 (t : tx) : Prop := utf8 (tx_kind t) ∧ utf8 (tx_uuid t) ∧ utf8 (tx_key t) ∧ utf8 (tx_value t).
Definition entry_utf8 (e : entry) : Prop := ∀ k v, e !! k = Some v → utf8 k ∧ utf8 v.
Definition snapshot_utf8 (m : snapshot) : Prop := ∀ u e, m !! u = Some e → utf8 u ∧ entry_utf8 e.
Definition db_utf8 (d : db) : Prop := snapshot_utf8 (snap_of d) ∧ Forall tx_utf8 (vis (db_log d)).

(** The numbers fit Go's types. *)
Definition db_fits (d : db) : Prop :=
  (Z.of_nat (db_version d) < 2 ^ 64)%Z ∧ Forall (λ t, in_int64 (tx_time t)) (vis (db_log d)).

(** Every byte that is not part of well-formed UTF-8 replaced by U+FFFD *)
Definition fix_str (s : string) : string := encode (runes s).
Definition fix_tx (t : tx) : tx :=
  mk_tx (tx_time t) (fix_str (tx_kind t)) (fix_str (tx_uuid t)) (fix_str (tx_key t)) (fix_str (tx_value t)).

(** A text with every character escaped, as any JSON writer may do: \uXXXX for a
    UTF-16 unit, two of them beyond U+FFFF. *)
Definition hex_char (d : Z) : Ascii.ascii := Zbyte (if (d <? 10)%Z then d + 48 else d + 87)%Z.
Definition unit_escape (u : Z) : string :=
  String (Zbyte 92) (String (Zbyte 117) (String (hex_char (u / 4096)) (String (hex_char (u / 256 mod 16))
    (String (hex_char (u / 16 mod 16)) (String (hex_char (u mod 16)) ""))))).
Definition full_escape (r : Z) : string :=
  if (r <? 65536)%Z then unit_escape r
  else unit_escape (55296 + (r - 65536) / 1024)%Z +:+ unit_escape (56320 + (r - 65536) mod 1024)%Z.
Definition escaped (rs : list Z) : string := fold_right (λ r s, full_escape r +:+ s) "" rs.
