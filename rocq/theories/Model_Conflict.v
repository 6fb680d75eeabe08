(** Model of the message about a conflict of merging.go:240-257. *)
From Verif Require Export Model_GoStr Model_Merge.
From stdpp Require Import options.

(** merging.go:247-257: what is printed after "entry ... was deleted at ... but at ..., ".
    The kind looked at is the one of the first transaction. *)
Definition conflict_tells (k : conflict) : string :=
  match cf_kind k with
  | ConflictKindRoot => ""
  | ConflictKindDeleteSet =>
      if String.eqb (tx_kind (cf_initial k)) TxSetKey then
        "a set happened:" +:+ String (Zbyte 10) (tx_key (cf_conflict k) +:+ " = " +:+ tx_value (cf_conflict k) +:+ String (Zbyte 10) "")
      else if String.eqb (tx_kind (cf_initial k)) TxDeleteKey then
        "a delete happened for key:" +:+ String (Zbyte 10) (tx_key (cf_conflict k) +:+ String (Zbyte 10) "")
      else ""
  end.
