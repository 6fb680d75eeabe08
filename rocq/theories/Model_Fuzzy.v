(** Model of fuzzy/fuzzy.go. *)
From Verif Require Export Model_GoStr.
From stdpp Require Import options.

(** fuzzy/fuzzy.go:28-33, the inner loop: byte offset and rune of the first
    character of [s] that [c] matches.  [lower] is [unicode.ToLower]. *)
Fixpoint find_rune (lower : Z → Z) (c : Z) (rs : list (nat * Z)) : option (nat * Z) :=
  match rs with
  | [] => None
  | (i, r) :: rest => if (c =? r)%Z || (c =? lower r)%Z then Some (i, r) else find_rune lower c rest
  end.

(** fuzzy/fuzzy.go:26-36, the loop over the search string. *)
Fixpoint match_loop (lower : Z → Z) (s : string) (search : list Z) : outcome bool :=
  match search with
  | [] => Ok true
  | c :: search' =>
      match find_rune lower c (go_range s) with
      | None => Ok false
      | Some (i, r) =>
          match str_drop (RuneLen r + i) s with
          | Ok s' => match_loop lower s' search'
          | Fail e => Fail e
          | Panic => Panic
          end
      end
  end.

(** fuzzy/fuzzy.go:15-39, [Match] *)
Definition Match (lower : Z → Z) (s search : string) : outcome bool :=
  if (String.length s <? String.length search)%nat then Ok false
  else if (String.length search =? String.length s)%nat && String.eqb s search then Ok true
  else match_loop lower s (runes search).
