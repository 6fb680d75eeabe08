(** What an import should do. *)
From Verif Require Export Spec_Blobs Spec_Repl Model_Import.
From stdpp Require Import options.

Record lp := mk_lp { lp_url : string; lp_user : string; lp_pass : string; lp_extra : string; lp_name : string; lp_group : string; lp_fav : string }.
Definition fields_of (r : lp) : list string := [lp_url r; lp_user r; lp_pass r; lp_extra r; lp_name r; lp_group r; lp_fav r].

(** The first line of LastPass's file *)
Definition header_row : lp := mk_lp "url" "username" "password" "extra" "name" "grouping" "fav".

(** The name wanted: in lower case, with underscores for blanks *)
Definition base_name (lower : string → string) (r : lp) : string := underscores (lower (lp_name r)).
Definition labels_of (lower : string → string) (r : lp) : string :=
  go_join "," ((if decide (lp_group r = "") then [] else [lower (lp_group r)]) ++ (if decide (lp_fav r = "1") then ["lpfav"] else [])).
Definition has_label (r : lp) : Prop := lp_group r ≠ "" ∨ lp_fav r = "1".
#[global] Instance has_label_dec r : Decision (has_label r). Proof. unfold has_label. apply _. Defined.

(** The entry of record [r] under the name [n]; [e] gives the stamp *)
Definition imported (lower : string → string) (e : env) (n : string) (r : lp) : entry :=
  let b := opt_key "notes" (lp_extra r) (opt_key "url" (lp_url r) (opt_key "pass" (lp_pass r) (opt_key "user" (lp_user r) (new_entry e n)))) in
  if decide (has_label r) then <["labels" := labels_of lower r]> b else b.

(** The first name of n, n1, n11, ... that is not taken in [m] *)
Definition first_free (m : snapshot) (n n' : string) : Prop :=
  ∃ k, n' = n +:+ ones k ∧ (∀ i, (i < k)%nat → ∃ u, called m u (n +:+ ones i)) ∧ ∀ u, ¬ called m u n'.

(** [m'] is [m] with the records from number [i] on *)
Inductive imports (lower : string → string) (E : nat → env) : nat → list lp → snapshot → snapshot → Prop :=
| imports_nil i m : imports lower E i [] m m
| imports_cons i r rs m n m' :
    first_free m (base_name lower r) n →
    imports lower E (S i) rs (<[e_uuid (E (2 * i)%nat) := imported lower (E (2 * i)%nat) n r]> m) m' →
    imports lower E i (r :: rs) m m'.

(** The uuids drawn are new and different *)
Definition fresh_uuids (d : db) (E : nat → env) : Prop :=
  (∀ i, unused d (e_uuid (E (2 * i)%nat))) ∧ ∀ i j, e_uuid (E (2 * i)%nat) = e_uuid (E (2 * j)%nat) → i = j.
