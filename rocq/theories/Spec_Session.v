(** Notions used to state the properties of sessions. *)
From Verif Require Export Model_Session Spec_Blobs Spec_Json Spec_Crypt.
From stdpp Require Import options.

(** A store in good order holding [m]: coherent, outside a transaction, its
    strings valid UTF-8 and its numbers within Go's types. *)
Definition good (d : db) (m : snapshot) : Prop :=
  holds d m ∧ db_txpoint d = 0%nat ∧ Forall tx_utf8 (vis (db_log d)) ∧
  Forall (λ t, in_int64 (tx_time t)) (vis (db_log d)) ∧ (Z.of_nat (length (vis (db_log d))) < 2 ^ 64)%Z.

(** Store contents [m] have a user [x], entry [u], with these credentials. *)
Definition has_row (m : snapshot) (x u : string) (salt iv mkey : bytes) : Prop :=
  ∃ b, m !! u = Some b ∧ b !! "name" = Some ("user/" +:+ x) ∧
    b !! "salt" = Some (hex_encode salt) ∧ b !! "iv" = Some (hex_encode iv) ∧ b !! "mkey" = Some (hex_encode mkey).

Definition is_user (m : snapshot) (x : string) : Prop := ∃ u, called m u ("user/" +:+ x).

(** Everything called user/… is a user with credentials of the right sizes, no
    two users' names have the same hash, and there are between 1 and 9999 users. *)
Definition table_ok (P : prims) (m : snapshot) : Prop :=
  (∀ u x, called m u ("user/" +:+ x) → u ≠ "" ∧ x ≠ "" ∧
     ∃ salt iv mkey, has_row m x u salt iv mkey ∧ length salt = 32%nat ∧ length iv = 40%nat ∧ length mkey = 80%nat) ∧
  (∀ x y, is_user m x → is_user m y → sha256 P (str_bytes x) = sha256 P (str_bytes y) → x = y) ∧
  (∃ x, is_user m x) ∧
  (∀ l : list string, NoDup l → (∀ x, x ∈ l → is_user m x) → (Z.of_nat (length l) ≤ 9999)%Z).

(** The passphrase unlocks [master] with user [x]'s credentials. *)
Definition unlocks (P : prims) (m : snapshot) (master : bytes) (x pass : string) : Prop :=
  pass ≠ "" ∧ ∃ u salt iv mkey, has_row m x u salt iv mkey ∧
    EncryptMasterKey P 1 (key_of P (str_bytes pass) salt) master (Some iv) = Ok (mkey, iv).

(** A single-user session opened or created with [pass]. *)
Definition single_session (P : prims) (s : session) (pass : string) : Prop :=
  s_master s = [] ∧ s_key s = key_of P (str_bytes pass) (s_salt s) ∧ length (s_salt s) = 32%nat ∧ pass ≠ "".

(** A multi-user session whose store holds [m]. *)
Definition multi_session (P : prims) (s : session) (m : snapshot) : Prop :=
  length (s_master s) = 80%nat ∧ length (s_ivm s) = 40%nat ∧ (s_key s = [] ∨ length (s_key s) = 80%nat) ∧
  table_ok P m ∧ names_unique m.

(** The session shows the same entries and history. *)
Definition same_store (d d' : db) : Prop :=
  vis (db_log d') = vis (db_log d) ∧ db_version d' = db_version d ∧ snap_of d' = snap_of d ∧ db_txpoint d' = 0%nat.

(** The clock fits int64 and the log can grow by a few transactions. *)
Definition clock_ok (e : env) : Prop := ∀ i, in_int64 (e_now e i).
Definition room (d : db) : Prop := (Z.of_nat (length (vis (db_log d))) + 10 < 2 ^ 64)%Z.

(** Random values have the sizes asked for. *)
Definition rand_ok (r : rand) : Prop :=
  (∀ n b, r_salt r n = Some b → length b = 32%nat) ∧ (∀ n b, r_iv r n = Some b → length b = 40%nat) ∧
  (∀ b, r_master r = Some b → length b = 80%nat) ∧ (∀ b, r_ivm r = Some b → length b = 40%nat).

(** A session on a multi-user store with contents [m], in good order. *)
Definition serves (P : prims) (s : session) (m : snapshot) : Prop :=
  good (s_db s) m ∧ well_named m ∧ multi_session P s m.

(** Entry [b] with other credentials. *)
Definition with_row (salt iv mkey : bytes) (b : entry) : entry :=
  <["mkey" := hex_encode mkey]> (<["iv" := hex_encode iv]> (<["salt" := hex_encode salt]> b)).

(** From [m] to [m'] only the credentials of user [x] changed. *)
Definition only_creds (m m' : snapshot) (x : string) : Prop :=
  ∃ u b salt iv mkey, called m u ("user/" +:+ x) ∧ m !! u = Some b ∧ m' = <[u := with_row salt iv mkey b]> m.

(** Nothing but the cached snapshot differs. *)
Definition unchanged (s s' : session) : Prop :=
  vis (db_log (s_db s')) = vis (db_log (s_db s)) ∧ db_txpoint (s_db s') = db_txpoint (s_db s) ∧ s' = set_db (s_db s') s.

(** [x] may become a user. *)
Definition new_user_ok (P : prims) (m : snapshot) (x : string) : Prop :=
  x ≠ "" ∧ utf8 x ∧ ¬ is_user m x ∧ (∀ y, is_user m y → sha256 P (str_bytes x) ≠ sha256 P (str_bytes y)) ∧
  (∀ l : list string, NoDup l → (∀ y, y ∈ l → is_user m y) → (Z.of_nat (length l) < 9999)%Z).

(** The transactions up to the first one later than [t]. *)
Definition history (t : Z) (log past : list tx) : Prop :=
  ∃ rest, log = past ++ rest ∧ Forall (λ x, (tx_time x ≤ t)%Z) past ∧
    match rest with [] => True | x :: _ => (t < tx_time x)%Z end.

(** The user's own entry, and whether there are others. *)
Definition own_entry (s : session) (name : string) : Prop := s_user s ≠ "" ∧ name = "user/" +:+ s_user s.
Definition several_users (m : snapshot) : Prop := ∃ x y, x ≠ y ∧ is_user m x ∧ is_user m y.

(** "user/" occurs in the name, but not at its beginning. *)
Definition user_inside (name : string) : Prop :=
  (∃ a b, name = a +:+ "user/" +:+ b) ∧ ∀ b, name ≠ "user/" +:+ b.

(** The session after opening a file that holds [d]. *)
Definition mk_loaded (d : db) (user pass : string) (key salt master ivm : bytes) : session :=
  mk_session false false (length (vis (db_log d))) d user pass key salt master ivm.

(** What may be found on disk after writing [new] over [old] was started: the
    file is first emptied and then filled from the front. *)
Definition on_disk (old new f : bytes) : Prop := f = old ∨ ∃ n, f = take n new.
