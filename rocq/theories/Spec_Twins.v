(** Notions for stores in which a user may have several entries. *)
From Verif Require Export Spec_Session.
From stdpp Require Import options.

(** As [table_ok], but a name may be that of several entries. *)
Definition entries_ok (P : prims) (m : snapshot) : Prop :=
  (∀ u x, called m u ("user/" +:+ x) → x ≠ "" ∧
     ∃ salt iv mkey, has_row m x u salt iv mkey ∧ length salt = 32%nat ∧ length iv = 40%nat ∧ length mkey = 80%nat) ∧
  (∀ x y, is_user m x → is_user m y → sha256 P (str_bytes x) = sha256 P (str_bytes y) → x = y) ∧
  (∃ x, is_user m x) ∧
  (∀ l : list string, NoDup l → (∀ u, u ∈ l → ∃ x, called m u ("user/" +:+ x)) → (Z.of_nat (length l) ≤ 9999)%Z).

(** A session on such a store. *)
Definition serves_rows (P : prims) (s : session) (m : snapshot) : Prop :=
  good (s_db s) m ∧ all_named m ∧ entries_ok P m ∧
  length (s_master s) = 80%nat ∧ length (s_ivm s) = 40%nat ∧ (s_key s = [] ∨ length (s_key s) = 80%nat).

(** The passphrase unlocks [master] with the credentials of entry [u]. *)
Definition unlocks_at (P : prims) (m : snapshot) (master : bytes) (x u pass : string) : Prop :=
  pass ≠ "" ∧ ∃ salt iv mkey, has_row m x u salt iv mkey ∧
    EncryptMasterKey P 1 (key_of P (str_bytes pass) salt) master (Some iv) = Ok (mkey, iv).

(** [r] lists the entries of users. *)
Definition users_of (m : snapshot) (r : gmap string string) : Prop :=
  ∀ u n, r !! u = Some n ↔ called m u n ∧ ∃ x, n = "user/" +:+ x.

(** Going through them in the order [ord], [u] is the first called user/[x]. *)
Definition comes_first (ord : gmap string string → list (string * string)) (r : gmap string string) (x u : string) : Prop :=
  ∃ l1 l2, ord r = l1 ++ (u, "user/" +:+ x) :: l2 ∧ "user/" +:+ x ∉ l1.*2.

(** What a session looks like after user [x] opened the file with [pass] and
    the credentials of entry [u]. *)
Definition opened_by (P : prims) (m : snapshot) (s s2 : session) (x u pass : string) : Prop :=
  same_store (s_db s) (s_db s2) ∧ s_master s2 = s_master s ∧ s_ivm s2 = s_ivm s ∧
  s_readOnly s2 = false ∧ s_created s2 = false ∧ s_user s2 = x ∧ s_pass s2 = pass ∧
  s_key s2 = key_of P (str_bytes pass) (s_salt s2) ∧ ∃ iv mkey, has_row m x u (s_salt s2) iv mkey.
