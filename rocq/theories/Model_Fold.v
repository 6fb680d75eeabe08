(** Model of fuzzy/fuzzy.go's [MatchFold] (used by the tests only). *)
From Verif Require Export Model_Fuzzy.
From stdpp Require Import options.

(** strings.ToLower: [lower] is unicode.ToLower; what is not UTF-8 becomes
    U+FFFD.  (For texts of ASCII the library takes a shorter way that gives the
    same.) *)
Definition ToLower (lower : Z → Z) (s : string) : string := encode (lower <$> runes s).

(** fuzzy/fuzzy.go:41-44, [MatchFold] *)
Definition MatchFold (lower : Z → Z) (s search : string) : outcome bool :=
  Match lower (ToLower lower s) (ToLower lower search).
